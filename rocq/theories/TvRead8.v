(** Reading a tag-value file: exactly what its attributes say. *)
From Verif Require Import Py PyFacts PyRe PyReFacts PyReSound Data Oracles Basics Json Construct JsonConv JsonParse JsonSpec JsonRead
  TvWriter TvLexer TvSpec TvTokSpec TvLexFacts TvLexValues TvFieldFacts TvSpecialFacts TvParser TvParseFacts TvErrors TvRepeat TvRaises TvReadSpec TvRead TvRead2 TvRead3 TvRead4 TvRead5 TvRead6 TvRead7.

(** ** Blocks *)
Definition one_start (b : list grp) : Prop := exists a g l, b = a ++ g :: l /\ starts g = true /\ Forall (fun x => starts x = false) a /\ Forall (fun x => starts x = false) l.
Lemma blocks_parts gs : Forall (fun x => starts x = false) (fst (blocks gs)) /\ Forall (fun b => exists g l, b = g :: l /\ starts g = true /\ Forall (fun x => starts x = false) l) (snd (blocks gs)).
Proof.
  induction gs as [|g gs [IH1 IH2]]; [split; constructor|]. rewrite blocks_cons. destruct (starts g) eqn:E; cbn [fst snd]; split; auto.
  constructor; auto. exists g, (fst (blocks gs)). auto.
Qed.
Lemma element_blocks_one gs : Forall one_start (element_blocks gs).
Proof.
  unfold element_blocks. destruct (blocks_parts (element_attributes gs)) as [A B]. destruct (blocks (element_attributes gs)) as [before [|b bs]]; [constructor|].
  cbn [fst snd] in *. apply Forall_cons_iff in B as [(g & l & -> & Hg & Hl) B]. constructor.
  - exists before, g, l. auto.
  - eapply Forall_impl; [|exact B]. intros x (g' & l' & -> & H1 & H2). exists [], g', l'. repeat split; auto.
Qed.
Lemma in_blocks g gs b : In b (element_blocks gs) -> In g b -> In g gs.
Proof.
  assert (X : forall l, (In g (fst (blocks l)) \/ exists b, In b (snd (blocks l)) /\ In g b) -> In g l).
  { induction l as [|x l IH]; [cbn; intros [[]|(y & [] & _)]|]. rewrite blocks_cons. destruct (starts x); cbn [fst snd].
    - intros [[]|(y & [<-|Hy] & Hg)]; [destruct Hg as [<-|Hg]; [left; reflexivity|right; apply IH; auto]|right; apply IH; right; eauto].
    - intros [[<-|Hg]|(y & Hy & Hg)]; [left; reflexivity|right; apply IH; auto|right; apply IH; right; eauto]. }
  intros Hb Hg. assert (I : In g (element_attributes gs)).
  { apply X. unfold element_blocks in Hb. destruct (blocks (element_attributes gs)) as [before [|y bs]]; [destruct Hb|]. cbn [fst snd] in *. destruct Hb as [<-|Hb].
    - apply in_app_iff in Hg as [Hg|Hg]; [left; exact Hg|right; exists y; split; [left; reflexivity|exact Hg]].
    - right. exists b. split; [right; exact Hb|exact Hg]. }
  unfold element_attributes in I. apply filter_In in I as [I _]. clear - I. induction gs as [|x gs IH]; [destruct I|]. cbn [without_first_id] in I. destruct (tag_eqb _ _); [right; exact I|].
  destruct I as [<-|I]; [left; reflexivity|right; apply IH; exact I].
Qed.
Section WithOracles.
Variable O : oracles.
Lemma class_of b c : block_class b = Some c -> exists g, In g b /\ start_class (g_tag g) = Some c.
Proof. unfold block_class. destruct (find starts b) as [g|] eqn:F; [|discriminate]. apply find_some in F as [F _]. eauto. Qed.
Lemma class_from tags t b : Only tags b -> with_tag t b <> [] -> is_in t start_tags = true -> forallb (fun x => negb (is_in x start_tags) || tag_eqb x t) tags = true -> block_class b = start_class t.
Proof.
  intros Ho W St C. unfold block_class. destruct (find starts b) as [g|] eqn:F.
  - apply find_some in F as [F1 F2]. unfold Only in Ho. rewrite Forall_forall in Ho. rewrite forallb_forall in C. specialize (C _ (Ho g F1)). unfold starts in F2. rewrite F2 in C. cbn [negb orb] in C. apply tag_eqb_spec in C. rewrite C. reflexivity.
  - exfalso. destruct (with_tag t b) as [|g l] eqn:E; [congruence|]. assert (I : In g (with_tag t b)) by (rewrite E; left; reflexivity). apply filter_In in I as [I T]. apply tag_eqb_spec in T.
    apply (find_none _ _ F) in I. unfold starts in I. rewrite T in I. congruence.
Qed.
Lemma tag_of_class t c : start_class t = Some c -> t = match c with C_File => T_FileName | C_Package => T_PackageName | C_Snippet => T_SnippetSPDXID | C_Annotation => T_Annotator | C_Relationship => T_Relationship | C_Extracted => T_LicenseID end.
Proof. unfold start_class. destruct t; cbn [slot_of]; intro H; try discriminate H; injection H as <-; reflexivity. Qed.
Lemma with_tag_some t b g : In g b -> g_tag g = t -> with_tag t b <> [].
Proof. intros H T E. assert (I : In g (with_tag t b)) by (apply filter_In; split; [exact H|apply tag_eqb_spec; exact T]). rewrite E in I. destruct I. Qed.
Lemma one_some {A} (P : grp -> A -> Prop) t b x : One P t b x -> with_tag t b <> [].
Proof. intros (g & E & _). rewrite E. discriminate. Qed.

(** ** Relationships *)
Lemma put_rel_cases g d d' : put O C_Relationship g d = Some d' -> starts g = false -> assoc $"spdx_id" d' <> None.
Proof.
  rewrite starts_slot. unfold put. destruct (slot_of (g_tag g)) as [n|n|c n|c n|c n| | |] eqn:E; intros H S; try discriminate.
  - assert (N : clazz_eqb c C_Relationship = false) by (revert E; clear; destruct (g_tag g); cbn [slot_of]; intro E; try discriminate E; injection E as <- _; reflexivity). rewrite N in H. discriminate H.
  - assert (N : clazz_eqb c C_Relationship = false) by (revert E; clear; destruct (g_tag g); cbn [slot_of]; intro E; try discriminate E; injection E as <- _; reflexivity). rewrite N in H. discriminate H.
  - injection H as <-. rewrite assoc_dict_set_same. discriminate.
Qed.
Lemma rel_put_keeps g d d' : rel_put g d = Some d' -> assoc $"spdx_id" d <> None -> assoc $"spdx_id" d' <> None.
Proof.
  unfold rel_put. destruct (split_on _ _) as [|a [|b [|e [|]]]]; try discriminate. destruct (enum_lookup _ _ _); [|discriminate]. intros H K. injection H as <-. cbv zeta.
  destruct (option_map text_or_line_value (g_com g)); repeat (rewrite assoc_dict_set_other by discriminate); exact K.
Qed.
Lemma fill_rel_keeps l : forall d d', fill O C_Relationship l d = Some d' -> assoc $"spdx_id" d <> None -> assoc $"spdx_id" d' <> None.
Proof.
  induction l as [|g l IH]; intros d d' H K; cbn [fill] in H; [congruence|]. destruct (put O C_Relationship g d) as [d1|] eqn:P; [|discriminate H]. apply (IH d1 d' H). destruct (starts g) eqn:S.
  - rewrite starts_slot in S. unfold put in P. destruct (slot_of (g_tag g)) as [n|n|c n|c n|c n| | |] eqn:E; try discriminate.
    + assert (N : clazz_eqb c C_Relationship = false) by (revert E; clear; destruct (g_tag g); cbn [slot_of]; intro E; try discriminate E; injection E as <- _; reflexivity). rewrite N in P. discriminate P.
    + rewrite clazz_eqb_refl in P. eapply rel_put_keeps; eauto.
  - eapply put_rel_cases; eauto.
Qed.
Lemma no_spdx_id d r : construct_relationship d = Ok r -> assoc $"spdx_id" d = None.
Proof.
  intro K. destruct (assoc $"spdx_id" d) as [v|] eqn:A; auto. exfalso. apply assoc_some_in in A as (k & I & E). apply kwargs_iff in K as (K & _). rewrite Forall_forall in K. apply K in I. cbn [fst] in I. subst k.
  apply str_in_In in I. revert I. clear. vm_compute. discriminate.
Qed.
Lemma rel_alone b d r : one_start b -> fill O C_Relationship b [] = Some d -> construct_relationship d = Ok r -> exists g, b = [g] /\ starts g = true.
Proof.
  intros (a & g & l & -> & Hg & Ha & Hl) F K. apply no_spdx_id in K. exists g. split; auto. destruct a as [|x a].
  - destruct l as [|y l]; [reflexivity|]. exfalso. cbn [app fill] in F. destruct (put O C_Relationship g []) as [d1|]; [|discriminate F]. destruct (put O C_Relationship y d1) as [d2|] eqn:P; [|discriminate F].
    apply Forall_cons_iff in Hl as [Hy _]. apply (fill_rel_keeps l d2 d F) in K; auto. eapply put_rel_cases; eauto.
  - exfalso. cbn [app fill] in F. destruct (put O C_Relationship x []) as [d2|] eqn:P; [|discriminate F]. apply Forall_cons_iff in Ha as [Hx _]. apply (fill_rel_keeps _ d2 d F) in K; auto. eapply put_rel_cases; eauto.
Qed.
Definition rel_dict (a : pystr) (t : rel_type) (x : tval) (c : option pystr) : tdict :=
  let d := dict_set $"spdx_element_id" (VStr a) (dict_set $"related_spdx_element_id" x (dict_set $"relationship_type" (VRelType t) [])) in
  match c with Some s => dict_set $"comment" (VStr s) d | None => d end.
Lemma rel_dict_made a t x c : construct_relationship (rel_dict a t (match x with NVal s => VStr s | NNone => VNone | NNoAssertion => VNoAssertion end) c) = Ok {| re_id := a; re_type := t; re_related := x; re_comment := c |}.
Proof. destruct x, c; vm_compute; reflexivity. Qed.
Definition related_of (s : pystr) : nn pystr := if str_eqb s $"NONE" then NNone else if str_eqb s $"NOASSERTION" then NNoAssertion else NVal s.
Lemma relationship_says g r : Fine g -> ((exists d, rel_put g [] = Some d /\ construct_relationship d = Ok r) <-> SaysRelationship g r).
Proof.
  intro F.
  assert (X : forall a b e t, split_on #" " (tk_value (g_val g)) = [a; b; e] -> enum_lookup rel_type_all rel_type_name b = Some t ->
    exists d, rel_put g [] = Some d /\ construct_relationship d = Ok {| re_id := a; re_type := t; re_related := related_of e; re_comment := option_map text_or_line_value (g_com g) |}).
  { intros a b e t S L. eexists. split; [unfold rel_put; rewrite S, L; reflexivity|]. cbv zeta. unfold related_of.
    destruct (str_eqb e $"NONE"); [exact (rel_dict_made a t NNone _)|]. destruct (str_eqb e $"NOASSERTION"); [exact (rel_dict_made a t NNoAssertion _)|exact (rel_dict_made a t (NVal e) _)]. }
  unfold SaysRelationship. split.
  - intros (d & P & K). destruct (split_on #" " (tk_value (g_val g))) as [|a [|b [|e [|]]]] eqn:S; try (unfold rel_put in P; rewrite S in P; discriminate P).
    destruct (enum_lookup rel_type_all rel_type_name b) as [t|] eqn:L; [|unfold rel_put in P; rewrite S, L in P; discriminate P].
    destruct (X a b e t eq_refl L) as (d' & P' & K'). assert (E : r = {| re_id := a; re_type := t; re_related := related_of e; re_comment := option_map text_or_line_value (g_com g) |}) by congruence. subst r.
    cbn [re_id re_type re_related re_comment]. split; [|apply comment_of; auto]. exists e. apply words_iff in S. apply rtype_lookup in L. subst b. split; [exact S|].
    unfold related_of. destruct (str_eqb e $"NONE") eqn:E1; [apply str_eqb_eq; exact E1|]. destruct (str_eqb e $"NOASSERTION") eqn:E2; [apply str_eqb_eq; exact E2|]. apply str_eqb_neq in E1, E2. auto.
  - intros ((e & W & R) & C). apply words_iff in W. apply comment_of in C; auto.
    destruct (X (re_id r) (rel_type_name (re_type r)) e (re_type r) W (proj2 (rtype_lookup _ _) eq_refl)) as (d & P & K). exists d. split; auto. rewrite K. f_equal. destruct r as [i t x c]. cbn [re_id re_type re_related re_comment] in *. subst c. f_equal.
    unfold related_of. destruct x as [s| |].
    + destruct R as (-> & N1 & N2). rewrite (eqb_neq _ _ N1), (eqb_neq _ _ N2). reflexivity.
    + subst e. reflexivity.
    + subst e. reflexivity.
Qed.

(** ** Elements *)
Lemma make_ex {A} (mk : A -> element) (r : result A) e : option_map mk (good r) = Some e <-> exists x, r = Ok x /\ e = mk x.
Proof.
  destruct r as [a|x]; cbn.
  - split; [intro H; injection H as <-; eauto|]. intros (y & H & ->). injection H as ->. reflexivity.
  - split; [discriminate|]. intros (y & H & _). discriminate H.
Qed.
Lemma element_says b e : one_start b -> (forall g, In g b -> Fine g) -> (block_element O b = Some e <-> SaysElement O b e).
Proof.
  intros H1 Hf. unfold block_element. split.
  - destruct (block_class b) as [c|] eqn:C; [|discriminate]. destruct (class_of b c C) as (g & Hg & T). apply tag_of_class in T. pose proof (with_tag_some _ b g Hg T) as W.
    destruct (fill O c b []) as [d|] eqn:F; [|discriminate]. intro M. destruct c; cbn [make] in M; apply make_ex in M as (x & K & ->); cbn [SaysElement].
    + apply (file_says O b x Hf). eauto.
    + apply (annotation_says O b x Hf). eauto.
    + destruct (rel_alone b d x H1 F K) as (g' & -> & S). destruct Hg as [<-|[]]. exists g'. split; [reflexivity|]. split; [exact T|].
      apply relationship_says; [apply Hf; left; reflexivity|]. exists d. split; auto. cbn [fill] in F. unfold put in F. rewrite T in F. cbn [slot_of] in F. rewrite clazz_eqb_refl in F. destruct (rel_put g' []); congruence.
    + apply (snippet_says O b x Hf W). eauto.
    + apply (package_says O b x Hf). eauto.
    + apply (extracted_says O b x Hf W). eauto.
  - destruct e as [x|x|x|x|x|x]; cbn [SaysElement]; intro S.
    + rewrite (class_from package_tags T_PackageName b (sp_only _ _ _ S) (one_some _ _ _ _ (sp_name _ _ _ S)) eq_refl eq_refl). change (start_class T_PackageName) with (Some C_Package). cbv iota.
      apply (package_says O b x Hf) in S as (d & -> & K). cbn [make]. rewrite K. reflexivity.
    + rewrite (class_from file_tags T_FileName b (sf_only _ _ _ S) (one_some _ _ _ _ (sf_name _ _ _ S)) eq_refl eq_refl). change (start_class T_FileName) with (Some C_File). cbv iota.
      apply (file_says O b x Hf) in S as (d & -> & K). cbn [make]. rewrite K. reflexivity.
    + assert (W : with_tag T_SnippetSPDXID b <> []).
      { destruct (ss_id _ _ _ S) as (a & g & l & E & T & _). apply (with_tag_some _ b g); auto. rewrite E. apply in_app_iff. right. left. reflexivity. }
      rewrite (class_from snippet_tags T_SnippetSPDXID b (ss_only _ _ _ S) W eq_refl eq_refl). change (start_class T_SnippetSPDXID) with (Some C_Snippet). cbv iota.
      apply (snippet_says O b x Hf W) in S as (d & -> & K). cbn [make]. rewrite K. reflexivity.
    + rewrite (class_from annotation_tags T_Annotator b (sa_only _ _ S) (one_some _ _ _ _ (sa_annotator _ _ S)) eq_refl eq_refl). change (start_class T_Annotator) with (Some C_Annotation). cbv iota.
      apply (annotation_says O b x Hf) in S as (d & -> & K). cbn [make]. rewrite K. reflexivity.
    + destruct S as (g & -> & T & R). apply relationship_says in R as (d & P & K); [|apply Hf; left; reflexivity].
      unfold block_class. cbn [find]. unfold starts. rewrite T. change (is_in T_Relationship start_tags) with true. cbv iota. rewrite T. change (start_class T_Relationship) with (Some C_Relationship). cbv iota.
      cbn [fill]. unfold put. rewrite T. cbn [slot_of]. rewrite clazz_eqb_refl, P. cbn [make]. rewrite K. reflexivity.
    + assert (W : with_tag T_LicenseID b <> []) by (destruct (se_id _ _ S) as (s & _ & Q); exact (one_some _ _ _ _ Q)).
      rewrite (class_from extracted_tags T_LicenseID b (se_only _ _ S) W eq_refl eq_refl). change (start_class T_LicenseID) with (Some C_Extracted). cbv iota.
      apply (extracted_says O b x Hf W) in S as (d & -> & K). cbn [make]. rewrite K. reflexivity.
Qed.
Lemma elements_say bs es : Forall one_start bs -> (forall b g, In b bs -> In g b -> Fine g) -> (Forall2 (fun x e => block_element O x = Some e) bs es <-> Forall2 (SaysElement O) bs es).
Proof.
  intros H Hf. split; intro F; revert H Hf; induction F as [|b e bs es E F IH]; intros H Hf; constructor; apply Forall_cons_iff in H as [H1 H2].
  - apply element_says; auto. intros g Hg. apply (Hf b g); [left; reflexivity|exact Hg].
  - apply IH; auto. intros b' g Hb Hg. apply (Hf b' g); [right; exact Hb|exact Hg].
  - apply element_says; auto. intros g Hg. apply (Hf b g); [left; reflexivity|exact Hg].
  - apply IH; auto. intros b' g Hb Hg. apply (Hf b' g); [right; exact Hb|exact Hg].
Qed.

(** ** The document *)
Theorem acts_say gs lines d : List.length lines = List.length gs -> Forall Fine gs ->
  ((do st <- acts O gs lines init_state; finish st) = Ok d <-> SaysDocument O gs d).
Proof.
  intros L Hf. rewrite (parse_blocks O gs lines d L). rewrite Forall_forall in Hf.
  assert (Hb : forall b g, In b (element_blocks gs) -> In g b -> Fine g) by (intros b g H1 H2; apply Hf; eapply in_blocks; eauto).
  pose proof (elements_say (element_blocks gs)) as ES. split.
  - intros (t & ci & b & P & K & B & R & ->). apply run_blocks_iff in R as (es & R & Eb). pose proof (says_elements _ _ _ _ R Eb) as (E1 & E2 & E3 & E4 & E5 & E6). constructor.
    + apply creation_info_says with (O := O); eauto.
    + exact B.
    + exists es. split; [apply ES; auto; apply element_blocks_one|]. cbn [assembled do_packages do_files do_snippets do_annotations do_extracted do_relationships]. auto 10.
  - intros [SC B (es & F & E1 & E2 & E3 & E4 & E5 & E6)]. apply (creation_info_says O) in SC as (t & P & K); [|exact Hf].
    apply ES in F; auto; [|apply element_blocks_one]. pose proof (says_elements _ _ _ _ F eq_refl) as (G1 & G2 & G3 & G4 & G5 & G6).
    exists t, (do_ci d), (adds es no_elements). repeat split; auto; [apply run_blocks_iff; eauto|].
    destruct d as [c0 sn an fi pa re ex] eqn:D. unfold assembled. cbn [do_ci do_packages do_files do_snippets do_annotations do_extracted do_relationships] in *. rewrite G1, G2, G3, G4, G5, (gathered_fun _ _ _ _ _ G6 E6). congruence.
Qed.
Theorem attributes_say text gs d : Attributes text gs -> (tv_parse O text = Ok d <-> SaysDocument O gs d).
Proof. intro A. destruct (attributes_run O text gs A) as (lines & L & ->). apply acts_say; auto. eapply attributes_fine; eauto. Qed.
Theorem one_document text gs d d' : Attributes text gs -> SaysDocument O gs d -> SaysDocument O gs d' -> d = d'.
Proof. intros A H H'. apply (attributes_say _ _ _ A) in H, H'. congruence. Qed.
End WithOracles.
