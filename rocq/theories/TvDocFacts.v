(** A document in the tag-value form is read back. *)
From Verif Require Import Py PyFacts PyRe Data Oracles Basics BasicsSpec Json Construct JsonConv JsonParse JsonSpec
  TvWriter TvLexer TvSpec TvTokSpec TvLexFacts TvLexValues TvParser TvParseFacts TvFieldFacts TvElemFacts TvSpecialFacts TvElements TvElements2 TvCreation
  TvPlan TvPlan2 TvSections.
From Coq Require Import Permutation.

(** ** What the sections add *)
Definition add_part (x : part) : built -> built :=
  match x with
  | PDocument _ => fun b => b
  | PPackage p => add_package p
  | PFile f => add_file (sorted_file f)
  | PSnippet s => add_snippet s
  | PExtracted e => add_extracted (sorted_extracted e)
  | PRelationship r => add_relationship r
  | PAnnotation a => add_annotation a
  end.
Definition add_parts (l : list part) (b : built) : built := fold_left (fun b x => add_part x b) l b.
Lemma add_contains_packages f b : b_packages (add_contains f b) = b_packages b.
Proof. unfold add_contains. destruct (rev _); auto. destruct (rel_in _ _); auto. Qed.
Lemma sane_add x b : Sane b -> Sane (add_part x b).
Proof.
  unfold Sane. intro H. destruct x; cbn [add_part]; auto.
  - cbn. destruct (opt_list (b_packages b)); discriminate.
  - unfold add_file. rewrite add_contains_packages. exact H.
Qed.

Lemma add_package_eq p b : add_package p b = {| b_packages := Some (opt_list (b_packages b) ++ [p]); b_files := b_files b; b_snippets := b_snippets b;
  b_annotations := b_annotations b; b_relationships := b_relationships b; b_extracted := b_extracted b |}.
Proof. reflexivity. Qed.

(** the id at the other end is not x *)
Definition unrelated (ids : list pystr) (l : list relationship) : Prop := forall r, In r l -> forall x, re_related r = NVal x -> ~ In x ids.
Lemma rel_in_false p f l : unrelated [fi_id f] l -> rel_in (contains_rel p f) l = false.
Proof.
  intro H. unfold rel_in. destruct (existsb _ l) eqn:E; auto. apply existsb_exists in E as (r & Hr & E). unfold eqb_of in E.
  destruct (relationship_eq_dec (contains_rel p f) r) as [<-|]; [|discriminate]. exfalso. eapply H; eauto; [reflexivity|left; reflexivity].
Qed.

(** the elements added by a list of sections *)
Definition built_of (b : built) (l : list part) (rs : list relationship) : built :=
  {| b_packages := match packages_of l with [] => b_packages b | ps => Some (opt_list (b_packages b) ++ ps) end;
     b_files := b_files b ++ map sorted_file (files_of l); b_snippets := b_snippets b ++ snippets_of l;
     b_annotations := b_annotations b ++ annotations_of l; b_relationships := b_relationships b ++ rs;
     b_extracted := b_extracted b ++ map sorted_extracted (extracted_of l) |}.
Lemma built_of_nil b : built_of b [] [] = b.
Proof. destruct b. unfold built_of. cbn. rewrite !app_nil_r. reflexivity. Qed.
Definition last_package (b : built) : option package := hd_error (rev (opt_list (b_packages b))).
Lemma add_file_eq f b : unrelated [fi_id f] (b_relationships b) ->
  add_file (sorted_file f) b = {| b_packages := b_packages b; b_files := b_files b ++ [sorted_file f]; b_snippets := b_snippets b;
    b_annotations := b_annotations b; b_relationships := b_relationships b ++ match last_package b with Some p => [contains_rel p f] | None => [] end;
    b_extracted := b_extracted b |}.
Proof.
  intro H. unfold add_file, add_contains, last_package. cbn [set_files b_packages b_relationships]. destruct (rev (opt_list (b_packages b))) as [|p l] eqn:E; cbn [hd_error].
  - unfold set_files. rewrite app_nil_r. reflexivity.
  - assert (K : rel_in (contains_rel p (sorted_file f)) (b_relationships b) = false) by (apply (rel_in_false p f); exact H). rewrite K. reflexivity.
Qed.
Lemma add_parts_elements l : forall b, forallb is_element l = true -> NoDup (map fi_id (files_of l)) -> unrelated (map fi_id (files_of l)) (b_relationships b) ->
  add_parts l b = built_of b l (placed (last_package b) l).
Proof.
  induction l as [|x l IH]; intros b He Hn Hu.
  - cbn [add_parts fold_left placed]. rewrite built_of_nil. reflexivity.
  - unfold add_parts in *. cbn [fold_left forallb] in *. apply andb_true_iff in He as [He1 He2]. destruct x as [c|p|f|s|e|r|a]; try discriminate He1; cbn [add_part placed].
    + rewrite IH; auto. unfold built_of, last_package, packages_of. cbn [add_package set_packages b_packages b_files b_snippets b_annotations b_relationships b_extracted opt_list flat_map app].
      rewrite rev_app_distr. cbn [rev app hd_error]. f_equal.
      destruct (flat_map _ l) as [|q ps]; [reflexivity|]. rewrite <- app_assoc. reflexivity.
    + unfold files_of in Hn, Hu. cbn [flat_map app map] in Hn, Hu. fold (files_of l) in Hn, Hu. apply NoDup_cons_iff in Hn as [Hn1 Hn2].
      rewrite add_file_eq.
      2:{ intros r Hr x Hx [<-|[]]. apply (Hu r Hr _ Hx). left. reflexivity. }
      rewrite IH; auto.
      * unfold built_of, last_package. cbn [b_packages b_files b_snippets b_annotations b_relationships b_extracted]. rewrite <- !app_assoc. reflexivity.
      * cbn [b_relationships]. intros r Hr x Hx K. apply in_app_iff in Hr as [Hr|Hr].
        -- apply (Hu r Hr x Hx). right. exact K.
        -- destruct (last_package b); [|destruct Hr]. destruct Hr as [<-|[]]. cbn in Hx. injection Hx as <-. contradiction.
    + rewrite IH; auto. unfold built_of, last_package. cbn [add_snippet set_snippets b_packages b_files b_snippets b_annotations b_relationships b_extracted]. rewrite <- !app_assoc. reflexivity.
Qed.
Lemma add_parts_tail l : forall b, packages_of l = [] -> files_of l = [] -> add_parts l b = built_of b l (relationships_of l).
Proof.
  induction l as [|x l IH]; intros b Hp Hf.
  - cbn [add_parts fold_left]. rewrite built_of_nil. reflexivity.
  - unfold add_parts in *. cbn [fold_left]. unfold packages_of in Hp. unfold files_of in Hf. destruct x as [c|p|f|s|e|r|a]; try discriminate Hp; try discriminate Hf; cbn [add_part]; rewrite IH; auto;
    unfold built_of, packages_of, files_of, relationships_of, snippets_of, annotations_of, extracted_of;
    cbn [flat_map app map add_snippet set_snippets add_extracted set_extracted add_relationship set_relationships add_annotation set_annotations
         b_packages b_files b_snippets b_annotations b_relationships b_extracted]; rewrite <- ?app_assoc; reflexivity.
Qed.

(** ** Reading *)
Section WithOracles.
Variable O : oracles.
Notation Steps := (Steps O).
Definition TvPart (x : part) : Prop :=
  match x with
  | PDocument _ => False
  | PPackage p => TvPackage O p
  | PFile f => TvFile O f
  | PSnippet s => TvSnippet O s
  | PExtracted e => TvExtracted e
  | PRelationship r => TvRelationship r
  | PAnnotation a => TvAnnotation a
  end.
Lemma adds_part x : TvPart x -> Adds O (part_text O x) (add_part x).
Proof.
  destruct x; cbn [TvPart part_text add_part].
  - intros [].
  - apply adds_package.
  - apply adds_file.
  - apply adds_snippet.
  - apply adds_extracted.
  - apply adds_relationship.
  - apply adds_annotation.
Qed.
Lemma adds_each (w : part -> result pystr) l : (forall x, In x l -> Adds O (w x) (add_part x)) ->
  forall st ci b y, assoc $"spdx_id" ci = Some y -> Sane b -> Closed st ci b ->
  exists st', Steps (write_each w l) st st' /\ Closed st' ci (add_parts l b) /\ Sane (add_parts l b).
Proof.
  induction l as [|x l IH]; intros H st ci b y Hy Hs Hc.
  - exists st. split; [apply Steps_done|]. auto.
  - destruct (H x (or_introl eq_refl) st ci b y Hy Hs Hc) as (st1 & S1 & C1).
    destruct (IH (fun z Hz => H z (or_intror Hz)) st1 ci (add_part x b) y Hy (sane_add x b Hs) C1) as (st2 & S2 & C2).
    exists st2. split; auto. unfold write_each. cbn [map]. eapply Steps_writes; eauto.
Qed.
Lemma adds_separated x : TvPart x -> Adds O (wp O x) (add_part x).
Proof.
  intros H st ci b y Hy Hs Hc. destruct (adds_part x H st ci b y Hy Hs Hc) as (st' & S & C). exists st'. split; auto. unfold wp.
  eapply Steps_writes; [exact S|]. eapply Steps_writes; [apply Steps_LF|]. apply Steps_done.
Qed.
Lemma Steps_optional_heading {A} (l : list A) u st : has_char LF u = false -> has_char CR u = false ->
  Steps (write_optional_heading l (#"#" :: u ++ [LF])) st st.
Proof. intros H1 H2. unfold write_optional_heading. destruct (truthy_list l); [apply Steps_heading; auto|apply Steps_nil]. Qed.

Lemma universal_newlines_id s : ~ In CR s -> universal_newlines s = s.
Proof.
  induction s as [|c s IH]; intro H; cbn [universal_newlines]; auto. destruct (N.eqb c 13) eqn:E.
  - apply N.eqb_eq in E. exfalso. apply H. left. exact E.
  - rewrite IH; auto. intro K. apply H. right. exact K.
Qed.

Variable d : document.
Hypothesis Hd : TvDocument O d.
Lemma Hids : NoDup (element_ids d).
Proof. apply Hd. Qed.
Lemma special_none x : special x = false -> x <> $"NONE" /\ x <> $"NOASSERTION".
Proof. intro H. split; intros ->; discriminate H. Qed.
Lemma tv_expressed : Forall TvRelationship (flat_map (expressed d) (do_relationships d)).
Proof.
  pose proof (td_relationships O d Hd) as H. rewrite Forall_forall in *. intros q Hq. apply in_flat_map in Hq as (r & Hr & Hq). specialize (H r Hr).
  unfold expressed in Hq. destruct (packs d r) eqn:P; [|destruct Hq as [<-|[]]; exact H].
  destruct Hq as [<-|Hq]; [|destruct (truthy_opt _); [destruct Hq as [<-|[]]; exact H|destruct Hq]].
  destruct (packs_end d r P) as (f & F1 & F2 & F3 & F4 & F5). destruct H as [H1 H2 H3].
  pose proof (td_packages O d Hd) as Hp. pose proof (td_files O d Hd) as Hf. rewrite Forall_forall in Hp, Hf.
  apply in_map_iff in F3 as (p & Ep & Ip). specialize (Hp p Ip). specialize (Hf f F2).
  constructor; unfold plain; cbn [re_id re_type re_related re_comment].
  - split; [|rewrite <- Ep; exact (proj2 (tp_id O p Hp))]. unfold turned. destruct (packs_type d r P) as [T|T]; rewrite T; [apply H1|].
    destruct (re_related r); try apply H1. rewrite P. cbn [re_id]. apply H2.
  - rewrite F4. split; [|apply special_none; exact (proj2 (tf_id O f Hf))]. revert F4. unfold turned. destruct (packs_type d r P) as [T|T]; rewrite T.
    + intro F4. rewrite F4 in H2. apply H2.
    + destruct (re_related r) eqn:R; try (unfold packs in P; rewrite T, R in P; discriminate P). rewrite P. cbn [re_related]. intro F4. injection F4 as <-. apply H1.
  - exact I.
Qed.
Lemma tv_to_write : Forall TvRelationship (to_write d).
Proof.
  pose proof (relationships_permutation d Hids) as K. rewrite Forall_forall. intros r Hr. pose proof tv_expressed as H. rewrite Forall_forall in H. apply H.
  eapply Permutation_in; [exact K|]. apply in_or_app. left. exact Hr.
Qed.
Lemma tv_body : Forall TvPart (body d).
Proof.
  rewrite Forall_forall. intros x Hx. pose proof (body_elements d) as E. rewrite forallb_forall in E. specialize (E x Hx).
  destruct x as [c|p|f|s|e|r|a]; try discriminate E; cbn [TvPart].
  - assert (K : In p (packages_of (all_parts d))). { unfold packages_of. apply in_flat_map. exists (PPackage p). split; [right; apply in_or_app; left; exact Hx|left; auto]. }
    rewrite (all_packages d Hids) in K. pose proof (td_packages O d Hd) as H. rewrite Forall_forall in H. auto.
  - assert (K : In f (files_of (all_parts d))). { unfold files_of. apply in_flat_map. exists (PFile f). split; [right; apply in_or_app; left; exact Hx|left; auto]. }
    rewrite all_files in K. pose proof (td_files O d Hd) as H. rewrite Forall_forall in H. apply H. eapply Permutation_in; [apply (files_permutation d Hids)|exact K].
  - assert (K : In s (snippets_of (all_parts d))). { unfold snippets_of. apply in_flat_map. exists (PSnippet s). split; [right; apply in_or_app; left; exact Hx|left; auto]. }
    rewrite (all_snippets d Hids) in K. pose proof (td_snippets O d Hd) as H. rewrite Forall_forall in H. apply H. eapply Permutation_in; [apply (snippets_permutation d Hids)|exact K].
Qed.
Definition read_back : document :=
  {| do_ci := do_ci d; do_packages := do_packages d; do_files := map sorted_file (unpackaged d ++ files_of (fst (planned d)));
     do_snippets := unfiled d ++ flat_map (sn d) (unpackaged d ++ files_of (fst (planned d)));
     do_annotations := do_annotations d; do_relationships := placed None (fst (planned d)) ++ to_write d;
     do_extracted := map sorted_extracted (do_extracted d) |}.
Lemma ci_has_id c : exists y, assoc $"spdx_id" (table (ci_table c)) = Some y.
Proof. eexists. rewrite table_assoc; reflexivity. Qed.
Lemma all_rest_eq b : add_parts (map PExtracted (do_extracted d) ++ map PRelationship (to_write d) ++ map PAnnotation (do_annotations d)) b =
  add_parts (map PAnnotation (do_annotations d)) (add_parts (map PRelationship (to_write d)) (add_parts (map PExtracted (do_extracted d)) b)).
Proof. unfold add_parts. rewrite !fold_left_app. reflexivity. Qed.
Lemma document_read : exists st, Steps (write_document O d) init_state st /\ finish st = Ok read_back.
Proof.
  pose proof (creation_info_read O (do_ci d) (td_ci O d Hd)) as S0. destruct (ci_has_id (do_ci d)) as (y & Hy).
  set (ci := table (ci_table (do_ci d))) in *.
  assert (C0 : Closed (cst (ci_table (do_ci d))) ci no_elements) by (split; reflexivity).
  assert (N0 : Sane no_elements) by discriminate.
  pose proof tv_body as Hb. rewrite Forall_forall in Hb.
  destruct (adds_each (wp O) (body d) (fun x Hx => adds_separated x (Hb x Hx)) _ _ _ y Hy N0 C0) as (st1 & S1 & C1 & N1).
  assert (He : forall x, In x (map PExtracted (do_extracted d)) -> Adds O (wp O x) (add_part x)).
  { intros x Hx. apply adds_separated. apply in_map_iff in Hx as (e & <- & He). pose proof (td_extracted O d Hd) as H. rewrite Forall_forall in H. apply H. exact He. }
  destruct (adds_each (wp O) _ He _ _ _ y Hy N1 C1) as (st2 & S2 & C2 & N2).
  assert (Hr : forall x, In x (map PRelationship (to_write d)) -> Adds O (part_text O x) (add_part x)).
  { intros x Hx. apply adds_part. apply in_map_iff in Hx as (e & <- & He'). pose proof tv_to_write as H. rewrite Forall_forall in H. apply H. exact He'. }
  destruct (adds_each (part_text O) _ Hr _ _ _ y Hy N2 C2) as (st3 & S3 & C3 & N3).
  assert (Ha : forall x, In x (map PAnnotation (do_annotations d)) -> Adds O (wp O x) (add_part x)).
  { intros x Hx. apply adds_separated. apply in_map_iff in Hx as (e & <- & He'). pose proof (td_annotations O d Hd) as H. rewrite Forall_forall in H. apply H. exact He'. }
  destruct (adds_each (wp O) _ Ha _ _ _ y Hy N3 C3) as (st4 & S4 & C4 & N4).
  exists st4. split.
  - rewrite write_document_eq.
    assert (A : Steps (writes [ Ok ($"## Document Information" ++ [LF]); write_creation_info (do_ci d); write_separator;
       write_each (wp O) (body d); write_rest d (to_write d)]) init_state st4).
    { eapply Steps_writes; [apply (Steps_heading O $"# Document Information"); reflexivity|]. eapply Steps_writes; [exact S0|]. eapply Steps_writes; [apply Steps_LF|].
      eapply Steps_writes; [exact S1|]. eapply Steps_writes; [|apply Steps_done]. unfold write_rest.
      eapply Steps_writes; [apply (Steps_optional_heading _ $"# License Information"); reflexivity|].
      eapply Steps_writes; [rewrite write_each_map in S2; exact S2|].
      eapply Steps_writes; [apply (Steps_optional_heading _ $"# Relationships"); reflexivity|].
      eapply Steps_writes.
      { rewrite write_each_map in S3. unfold write_list_of_elements. rewrite (write_each_ext _ (fun x => part_text O (PRelationship x))); [exact S3|]. intros r _. cbn [writes bind part_text].
        destruct (write_relationship r); cbn [bind]; auto. rewrite app_nil_r. reflexivity. }
      eapply Steps_writes; [apply Steps_LF|].
      eapply Steps_writes; [apply (Steps_optional_heading _ $"# Annotations"); reflexivity|].
      eapply Steps_writes; [rewrite write_each_map in S4; exact S4|]. apply Steps_done. }
    match type of A with TvParseFacts.Steps _ ?w _ _ => match goal with |- TvParseFacts.Steps _ ?v _ _ => replace v with w; auto end end.
    cbn [writes bind]. unfold write_separator. destruct (write_creation_info (do_ci d)); cbn [bind]; auto. destruct (write_each (wp O) (body d)); cbn [bind]; auto.
    destruct (write_rest d (to_write d)); cbn [bind]; auto. rewrite !app_nil_r, <- !app_assoc. reflexivity.
  - unfold finish. destruct C4 as [_ C4]. rewrite C4. cbn [bind base ps_ci_log ps_log raise_if ps_ci ps_built].
    unfold ci. rewrite (creation_info_built (do_ci d) (td_ci O d Hd)). cbn [bind]. f_equal. rewrite <- all_rest_eq.
    assert (Hn : NoDup (map fi_id (files_of (body d)))).
    { rewrite body_files. eapply Permutation_NoDup; [apply Permutation_map; symmetry; apply (files_permutation d Hids)|]. apply (nodup_parts d Hids). }
    rewrite (add_parts_elements (body d)); [|apply body_elements|exact Hn|intros ? []].
    rewrite add_parts_tail; [|unfold packages_of; rewrite !flat_map_app, !proj_map by reflexivity; reflexivity|apply tail_files].
    unfold read_back, built_of. cbn [b_packages b_files b_snippets b_annotations b_relationships b_extracted no_elements last_package opt_list rev hd_error].
    assert (Pb : packages_of (body d) = do_packages d).
    { rewrite <- (all_packages d Hids). unfold all_parts, packages_of. cbn [flat_map app]. rewrite flat_map_app, !flat_map_app, !proj_map by reflexivity. rewrite !app_nil_r. reflexivity. }
    rewrite Pb. unfold packages_of at 1. rewrite !flat_map_app, !proj_map by reflexivity. cbn [app].
    rewrite body_files, tail_files, tail_snippets.
    assert (Sb : snippets_of (body d) = unfiled d ++ flat_map (sn d) (unpackaged d ++ files_of (fst (planned d)))).
    { rewrite <- (all_snippets d Hids). unfold all_parts, snippets_of. cbn [flat_map app]. rewrite flat_map_app, !flat_map_app, !proj_map by reflexivity. rewrite !app_nil_r. reflexivity. }
    rewrite Sb. cbn [map app]. rewrite !app_nil_r.
    assert (Eb : extracted_of (body d) = []) by (apply proj_elements; [apply body_elements|intros []; cbn; congruence]).
    assert (Ab : annotations_of (body d) = []) by (apply proj_elements; [apply body_elements|intros []; cbn; congruence]).
    rewrite Eb, Ab. cbn [map app].
    assert (Pl : placed None (body d) = placed None (fst (planned d))) by (unfold body; rewrite placed_snippets, placed_files; reflexivity).
    assert (Et : extracted_of (map PExtracted (do_extracted d) ++ map PRelationship (to_write d) ++ map PAnnotation (do_annotations d)) = do_extracted d).
    { unfold extracted_of. rewrite !flat_map_app, proj_same, !proj_map by reflexivity. rewrite !app_nil_r. reflexivity. }
    assert (At : annotations_of (map PExtracted (do_extracted d) ++ map PRelationship (to_write d) ++ map PAnnotation (do_annotations d)) = do_annotations d).
    { unfold annotations_of. rewrite !flat_map_app, !proj_map, proj_same by reflexivity. reflexivity. }
    assert (Rt : relationships_of (map PExtracted (do_extracted d) ++ map PRelationship (to_write d) ++ map PAnnotation (do_annotations d)) = to_write d).
    { unfold relationships_of. rewrite !flat_map_app, proj_map, proj_same, proj_map by reflexivity. rewrite !app_nil_r. reflexivity. }
    rewrite Et, At, Rt, Pl. f_equal; [destruct (do_packages d); reflexivity|]. rewrite flat_map_app. reflexivity.
Qed.
Lemma read_back_same : TvSame d read_back.
Proof.
  constructor; cbn [read_back do_ci do_packages do_files do_snippets do_annotations do_relationships do_extracted]; auto.
  - exists (unpackaged d ++ files_of (fst (planned d))). split; [symmetry; apply (files_permutation d Hids)|].
    induction (unpackaged d ++ files_of (fst (planned d))); cbn [map]; constructor; auto. apply same_sorted_file.
  - symmetry. apply (snippets_permutation d Hids).
  - symmetry. rewrite <- (relationships_permutation d Hids). apply Permutation_app_comm.
  - induction (do_extracted d); cbn [map]; constructor; auto. apply same_sorted_extracted.
Qed.
Theorem tag_value_round_trip : exists text d', write_document O d = Ok text /\ tv_parse_from_file O text = Ok d' /\ TvSame d d'.
Proof.
  destruct document_read as (st & (s & gs & Hw & Hc & Hr & Hg & Hx) & Hf). exists s, read_back. split; auto. split; [|apply read_back_same].
  unfold tv_parse_from_file, tv_parse. rewrite universal_newlines_id by exact Hc.
  rewrite (run_groups O gs M_Base init_state init_state st (tokenize s)); auto.
  - reflexivity.
  - rewrite toks_tokenize. destruct (Hr []) as [_ K]; [exists 0, []; split; [reflexivity|left; reflexivity]|].
    rewrite app_nil_r in K. rewrite K. apply app_nil_r.
Qed.
End WithOracles.
