(** The blocks of the elements, and how the document is put together. *)
From Verif Require Import Py PyFacts PyRe Data Oracles Basics Json Construct JsonConv JsonParse JsonSpec
  TvWriter TvLexer TvSpec TvTokSpec TvLexFacts TvLexValues TvParser TvParseFacts TvErrors TvRepeat TvReadSpec TvRead TvRead2.

(** ** Elements built so far *)
Definition with_rels (l : list relationship) (b : built) : built :=
  {| b_packages := b_packages b; b_files := b_files b; b_snippets := b_snippets b; b_annotations := b_annotations b;
     b_relationships := l; b_extracted := b_extracted b |}.
Definition add (e : element) (b : built) : built :=
  match e with
  | E_Package p => set_packages (opt_list (b_packages b) ++ [p]) b
  | E_File f =>
      let b' := set_files (b_files b ++ [f]) b in
      match option_map (@rev package) (b_packages b) with
      | Some (p :: _) =>
          let r := contained (pk_id p) (fi_id f) in
          if rel_in r (b_relationships b) then b' else with_rels (b_relationships b ++ [r]) b'
      | _ => b'
      end
  | E_Snippet s => set_snippets (b_snippets b ++ [s]) b
  | E_Annotation a => set_annotations (b_annotations b ++ [a]) b
  | E_Relationship r => set_relationships (b_relationships b ++ [r]) b
  | E_Extracted e => set_extracted (b_extracted b ++ [e]) b
  end.
Definition sane (b : built) : Prop := b_packages b <> Some [].
Lemma add_sane e b : sane b -> sane (add e b).
Proof.
  intro H. destruct e; cbn [add]; auto.
  - intro K. cbn in K. injection K as K. destruct (opt_list (b_packages b)); discriminate.
  - cbv zeta. destruct (option_map (@rev package) (b_packages b)) as [[|p l]|]; auto. destruct (rel_in _ _); auto.
Qed.
Definition make (c : clazz) (d : tdict) : option element :=
  match c with
  | C_File => option_map E_File (good (construct_file d))
  | C_Package => option_map E_Package (good (construct_package d))
  | C_Snippet => option_map E_Snippet (good (construct_snippet d))
  | C_Annotation => option_map E_Annotation (good (construct_annotation d))
  | C_Relationship => option_map E_Relationship (good (construct_relationship d))
  | C_Extracted => option_map E_Extracted (good (construct_extracted d))
  end.
(** constructors raise only parsing errors with messages *)
Lemma kwargs_raise {A} cls req opt d (c : chk A) e : kwargs cls req opt d c = Raise e -> exists m ms, e = EParsing (m :: ms).
Proof.
  unfold kwargs. destruct (find _ d) as [[k v]|]; [intro H; injection H as <-; eauto|].
  destruct (filter _ req); [|intro H; injection H as <-; eauto]. unfold construct. destruct c as [a|ms]; [discriminate|]. intro H; injection H as <-; eauto.
Qed.
Lemma contains_add f st : sane (ps_built st) ->
  build_contains (fi_id f) (with_built (set_files (b_files (ps_built st) ++ [f]) (ps_built st)) st) = with_built (add (E_File f) (ps_built st)) st.
Proof.
  intro S. unfold build_contains. cbn [add]. cbv zeta. change (b_packages (ps_built (with_built (set_files (b_files (ps_built st) ++ [f]) (ps_built st)) st))) with (b_packages (ps_built st)).
  destruct (b_packages (ps_built st)) as [l|] eqn:P; [|reflexivity]. cbn [option_map]. destruct (rev l) as [|p l'] eqn:R.
  { exfalso. apply (f_equal (@rev package)) in R. rewrite rev_involutive in R. cbn in R. subst l. contradiction. }
  change {| re_id := pk_id p; re_type := RT_CONTAINS; re_related := NVal (fi_id f); re_comment := None |} with (contained (pk_id p) (fi_id f)).
  change (b_relationships (ps_built (with_built (set_files (b_files (ps_built st) ++ [f]) (ps_built st)) st))) with (b_relationships (ps_built st)).
  destruct (rel_in (contained (pk_id p) (fi_id f)) (b_relationships (ps_built st))); [reflexivity|]. unfold with_rels, set_files, with_built. cbn. rewrite P. reflexivity.
Qed.
Lemma flush_class c st : quiet st -> sane (ps_built st) -> ps_class st = Some c ->
  flush st = option_map (fun e => with_built (add e (ps_built st)) (new_element st)) (make c (ps_cur st)).
Proof.
  intros (Q1 & Q2 & Q3) S C. unfold flush, construct_current_element. rewrite C. unfold raise_if_named. rewrite Q2.
  assert (N : forall m (ms : list pystr), ps_log st ++ m :: ms <> []) by (intros m ms; destruct (ps_log st); discriminate).
  destruct c; cbn [build_element make]; unfold add_element.
  - destruct (construct_file (ps_cur st)) as [f|e] eqn:E; cbn [good option_map].
    + rewrite contains_add by exact S. cbn [bind]. cbn [new_element with_built ps_log]. rewrite Q1. reflexivity.
    + apply kwargs_raise in E as (m & ms & ->). cbn. destruct (ps_log st ++ m :: ms) eqn:L; [apply N in L; destruct L|reflexivity].
  - destruct (construct_annotation (ps_cur st)) as [f|e] eqn:E; cbn [good option_map]; [cbn; rewrite Q1; reflexivity|].
    apply kwargs_raise in E as (m & ms & ->). cbn. destruct (ps_log st ++ m :: ms) eqn:L; [apply N in L; destruct L|reflexivity].
  - destruct (construct_relationship (ps_cur st)) as [f|e] eqn:E; cbn [good option_map]; [cbn; rewrite Q1; reflexivity|].
    apply kwargs_raise in E as (m & ms & ->). cbn. destruct (ps_log st ++ m :: ms) eqn:L; [apply N in L; destruct L|reflexivity].
  - destruct (construct_snippet (ps_cur st)) as [f|e] eqn:E; cbn [good option_map]; [cbn; rewrite Q1; reflexivity|].
    apply kwargs_raise in E as (m & ms & ->). cbn. destruct (ps_log st ++ m :: ms) eqn:L; [apply N in L; destruct L|reflexivity].
  - destruct (construct_package (ps_cur st)) as [f|e] eqn:E; cbn [good option_map]; [cbn; rewrite Q1; reflexivity|].
    apply kwargs_raise in E as (m & ms & ->). cbn. destruct (ps_log st ++ m :: ms) eqn:L; [apply N in L; destruct L|reflexivity].
  - destruct (construct_extracted (ps_cur st)) as [f|e] eqn:E; cbn [good option_map]; [cbn; rewrite Q1; reflexivity|].
    apply kwargs_raise in E as (m & ms & ->). cbn. destruct (ps_log st ++ m :: ms) eqn:L; [apply N in L; destruct L|reflexivity].
Qed.
Lemma flush_none st : ps_log st = [] -> ps_class st = None -> flush st = Some st.
Proof. intros Q C. unfold flush, construct_current_element. rewrite C, Q. reflexivity. Qed.

Section WithOracles.
Variable O : oracles.
(** ** The dictionary of a block *)
Definition put (c : clazz) (g : grp) (d : tdict) : option tdict :=
  match slot_of (g_tag g) with
  | L_Set c' n | L_Start c' n => if clazz_eqb c' c then put_once n (val_of O g) d else None
  | L_App c' n => if clazz_eqb c' c then put_more n (val_of O g) d else None
  | L_Id => Some (dict_set $"spdx_id" (VStr (tk_value (g_val g))) d)
  | L_Rel => if clazz_eqb C_Relationship c then rel_put g d else None
  | _ => None
  end.
Fixpoint fill (c : clazz) (gs : list grp) (d : tdict) : option tdict :=
  match gs with [] => Some d | g :: gs' => match put c g d with Some d' => fill c gs' d' | None => None end end.
Lemma fill_app c a b d : fill c (a ++ b) d = match fill c a d with Some d' => fill c b d' | None => None end.
Proof. revert d. induction a as [|g a IH]; intro d; [reflexivity|]. cbn [app fill]. destruct (put c g d); auto. Qed.
Definition start_class (t : tag) : option clazz :=
  match slot_of t with L_Start c _ => Some c | L_Rel => Some C_Relationship | _ => None end.
(** the element of a block: the class comes from its start tag *)
Definition block_class (b : list grp) : option clazz :=
  match find starts b with Some g => start_class (g_tag g) | None => None end.
Definition block_element (b : list grp) : option element :=
  match block_class b with
  | Some c => match fill c b [] with Some d => make c d | None => None end
  | None => None
  end.
Fixpoint run_blocks (bs : list (list grp)) (b : built) : option built :=
  match bs with
  | [] => Some b
  | x :: bs' => match block_element x with Some e => run_blocks bs' (add e b) | None => None end
  end.
Lemma clazz_eqb_sym a b : clazz_eqb a b = clazz_eqb b a.
Proof. destruct a, b; reflexivity. Qed.
Lemma clazz_eqb_refl a : clazz_eqb a a = true.
Proof. destruct a; reflexivity. Qed.
Lemma own_effect_inside g c st : starts g = false -> creation g = false -> ps_class st = Some c ->
  own_effect O g st = option_map (fun d => with_cur d st) (put c g (ps_cur st)).
Proof.
  rewrite starts_slot, creation_slot. intros S C K. unfold own_effect, put. rewrite is_id_slot. unfold effect.
  destruct (slot_of (g_tag g)) as [n|n|c' n|c' n|c' n| | |]; try discriminate; try reflexivity.
  - unfold matches_class. rewrite K. destruct (clazz_eqb c' c); reflexivity.
  - unfold matches_class. rewrite K. destruct (clazz_eqb c' c); reflexivity.
Qed.
Lemma own_effect_start g st : starts g = true -> exists c, start_class (g_tag g) = Some c
  /\ own_effect O g st = match flush st with Some st1 => option_map (fun d => with_cur d (with_class c st1)) (put c g (ps_cur st1)) | None => None end.
Proof.
  rewrite starts_slot. unfold start_class, own_effect, put. rewrite is_id_slot. unfold effect.
  destruct (slot_of (g_tag g)) as [n|n|c' n|c' n|c' n| | |]; try discriminate; intros _; eexists; (split; [reflexivity|]); rewrite ?clazz_eqb_refl; reflexivity.
Qed.
Definition final (l : list grp) (st : pstate) : option pstate := match own_effects O l st with Some st' => flush st' | None => None end.
Lemma blocks_cons g l : blocks (g :: l) = if starts g then ([], (g :: fst (blocks l)) :: snd (blocks l)) else (g :: fst (blocks l), snd (blocks l)).
Proof. cbn [blocks]. destruct (blocks l) as [a b]. reflexivity. Qed.
Lemma block_class_start g l : starts g = true -> block_class (g :: l) = start_class (g_tag g).
Proof. intro H. unfold block_class. cbn [find]. rewrite H. reflexivity. Qed.
Lemma final_inside l : forall c st, Forall (fun g => creation g = false) l -> quiet st -> sane (ps_built st) -> ps_class st = Some c ->
  final l st = match fill c (fst (blocks l)) (ps_cur st) with
               | Some d => match make c d with
                           | Some e => option_map (fun b => with_built b (new_element st)) (run_blocks (snd (blocks l)) (add e (ps_built st)))
                           | None => None
                           end
               | None => None
               end.
Proof.
  unfold final. induction l as [|g l IH]; intros c st F Q S C.
  - cbn. rewrite (flush_class c st Q S C). destruct (make c (ps_cur st)); reflexivity.
  - apply Forall_cons_iff in F as [F1 F2]. cbn [own_effects]. rewrite blocks_cons. destruct (starts g) eqn:G.
    + cbn [fst snd fill]. destruct (own_effect_start g st G) as (c' & E & ->). rewrite (flush_class c st Q S C).
      destruct (make c (ps_cur st)) as [e|]; [|reflexivity]. cbn [option_map]. cbn [run_blocks]. unfold block_element. rewrite (block_class_start g _ G), E.
      change (ps_cur (with_built (add e (ps_built st)) (new_element st))) with (@nil (pystr * tval)). cbn [fill].
      destruct (put c' g []) as [d|]; [|reflexivity]. cbn [option_map].
      rewrite (IH c'); [|exact F2|exact (conj (proj1 Q) (conj eq_refl (proj2 (proj2 Q))))|apply add_sane; exact S|reflexivity].
      cbn [ps_cur ps_built with_cur with_class with_built new_element].
      destruct (fill c' (fst (blocks l)) d) as [d'|]; [|reflexivity]. destruct (make c' d') as [e'|]; [|reflexivity].
      destruct (run_blocks _ _); reflexivity.
    + cbn [fst snd fill]. rewrite (own_effect_inside g c st G F1 C). destruct (put c g (ps_cur st)) as [d|]; [|reflexivity]. cbn [option_map].
      rewrite (IH c); auto.
Qed.
(** before the first element *)
Fixpoint ids (l : list grp) (d : tdict) : tdict :=
  match l with [] => d | g :: l' => ids l' (dict_set $"spdx_id" (VStr (tk_value (g_val g))) d) end.
Lemma put_id c g d : is_id g = true -> put c g d = Some (dict_set $"spdx_id" (VStr (tk_value (g_val g))) d).
Proof. rewrite is_id_slot. unfold put. destruct (slot_of (g_tag g)); try discriminate; reflexivity. Qed.
Lemma fill_ids c l : forall d, forallb is_id l = true -> fill c l d = Some (ids l d).
Proof.
  induction l as [|g l IH]; intros d H; [reflexivity|]. cbn [forallb] in H. apply andb_true_iff in H as [H1 H2]. cbn [fill ids]. rewrite put_id by exact H1. auto.
Qed.
Lemma is_id_starts g : is_id g = true -> starts g = false.
Proof. rewrite is_id_slot, starts_slot. destruct (slot_of (g_tag g)); try discriminate; reflexivity. Qed.
Lemma find_app {A} p (a b : list A) : find p (a ++ b) = match find p a with Some x => Some x | None => find p b end.
Proof. induction a as [|x a IH]; [reflexivity|]. cbn [app find]. destruct (p x); auto. Qed.
Lemma find_ids l : forallb is_id l = true -> find starts l = None.
Proof.
  induction l as [|g l IH]; [reflexivity|]. cbn [forallb find]. intro H. apply andb_true_iff in H as [H1 H2]. rewrite (is_id_starts g H1). auto.
Qed.
Definition joined (l : list grp) : list (list grp) := match blocks l with (before, b :: bs) => (before ++ b) :: bs | (_, []) => [] end.
Lemma final_before l : forall pre st, Forall (fun g => creation g = false) l -> quiet st -> sane (ps_built st) -> ps_class st = None ->
  forallb is_id pre = true -> ps_cur st = ids pre [] ->
  option_map ps_built (final l st) =
   if forallb is_id (fst (blocks l)) then
     match snd (blocks l) with
     | [] => Some (ps_built st)
     | b :: bs => run_blocks ((pre ++ fst (blocks l) ++ b) :: bs) (ps_built st)
     end
   else None.
Proof.
  unfold final.
  induction l as [|g l IH]; intros pre st F Q S C P E.
  - cbn. rewrite (flush_none st (proj1 Q) C). reflexivity.
  - apply Forall_cons_iff in F as [F1 F2]. cbn [own_effects]. rewrite blocks_cons. destruct (starts g) eqn:G.
    + cbn [fst snd forallb app]. destruct (own_effect_start g st G) as (c' & K & ->). rewrite (flush_none st (proj1 Q) C).
      cbn [run_blocks]. unfold block_element.
      assert (B : block_class (pre ++ g :: fst (blocks l)) = Some c').
      { unfold block_class. rewrite find_app, (find_ids pre P). cbn [find]. rewrite G. exact K. }
      rewrite B, fill_app, (fill_ids c' pre [] P), <- E. cbn [fill]. destruct (put c' g (ps_cur st)) as [d|]; [|reflexivity]. cbn [option_map].
      pose proof (final_inside l c' (with_cur d (with_class c' st)) F2 Q S eq_refl) as X. unfold final in X. rewrite X. cbn [ps_cur ps_built with_cur with_class].
      destruct (fill c' (fst (blocks l)) d) as [d'|]; [|reflexivity]. destruct (make c' d') as [e'|]; [|reflexivity].
      destruct (run_blocks _ _); reflexivity.
    + cbn [fst snd forallb]. destruct (is_id g) eqn:I.
      * unfold own_effect. rewrite I. cbn [andb].
        rewrite (IH (pre ++ [g])); auto.
        -- cbn [ps_built with_cur]. destruct (forallb is_id (fst (blocks l))); [|reflexivity]. destruct (snd (blocks l)); [reflexivity|]. rewrite <- app_assoc. reflexivity.
        -- rewrite forallb_app. cbn [forallb]. rewrite P, I. reflexivity.
        -- cbn [ps_cur with_cur]. rewrite E. clear. generalize (@nil (pystr * tval)). induction pre as [|x pre IH]; intro d; [reflexivity|]. cbn [app ids]. apply IH.
      * cbn [andb]. assert (X : own_effect O g st = None).
        { unfold own_effect. rewrite I. unfold effect. rewrite starts_slot in G. rewrite creation_slot in F1. rewrite is_id_slot in I. unfold matches_class. rewrite C.
          destruct (slot_of (g_tag g)); try discriminate; reflexivity. }
        rewrite X. reflexivity.
Qed.

(** ** The whole document *)
Lemma element_not_creation gs : Forall (fun g => creation g = false) (element_attributes gs).
Proof. apply Forall_forall. intros g H. unfold element_attributes in H. apply filter_In in H as [_ H]. apply negb_true_iff in H. exact H. Qed.
Lemma own_effects_quiet gs : forall st st', quiet st -> own_effects O gs st = Some st' -> quiet st'.
Proof.
  induction gs as [|g gs IH]; intros st st' Q; cbn [own_effects]; [congruence|]. destruct (own_effect O g st) as [st1|] eqn:E; [|discriminate]. apply IH.
  unfold own_effect in E. destruct (is_id g); [injection E as <-; exact Q|eapply effect_quiet; eauto].
Qed.
Definition assembled (ci : creation_info) (b : built) : document :=
  {| do_ci := ci; do_packages := opt_list (b_packages b); do_files := b_files b; do_snippets := b_snippets b;
     do_annotations := b_annotations b; do_relationships := b_relationships b; do_extracted := b_extracted b |}.
Lemma parse_blocks gs lines d : List.length lines = List.length gs ->
  ((do st <- acts O gs lines init_state; finish st) = Ok d <->
   exists t ci b, ci_puts O gs [] = Some t /\ construct_creation_info t = Ok ci
     /\ Forall (fun g => g_tag g = T_SPDXID) (fst (blocks (element_attributes gs)))
     /\ run_blocks (element_blocks gs) no_elements = Some b /\ d = assembled ci b).
Proof.
  intro L. rewrite (parse_effects O gs lines d L).
  pose proof (final_before (element_attributes gs) [] init_state (element_not_creation gs) init_quiet) as FB.
  specialize (FB ltac:(discriminate) eq_refl eq_refl eq_refl). cbn [app] in FB. unfold final in FB. change (ps_built init_state) with no_elements in FB.
  assert (EB : element_blocks gs = match snd (blocks (element_attributes gs)) with [] => [] | b :: bs => (fst (blocks (element_attributes gs)) ++ b) :: bs end).
  { unfold element_blocks. destruct (blocks (element_attributes gs)) as [x [|y z]]; reflexivity. }
  assert (FI : forallb is_id (fst (blocks (element_attributes gs))) = true <-> Forall (fun g => g_tag g = T_SPDXID) (fst (blocks (element_attributes gs)))).
  { rewrite forallb_forall, Forall_forall. split; intros H g Hg; specialize (H g Hg); unfold is_id, tag_eqb in *; destruct (tag_eq_dec (g_tag g) T_SPDXID); congruence. }
  split.
  - intros (st & E & K). apply effects_iff in E as (t & st1 & E1 & E2 & ->). rewrite E2 in FB. unfold ending in K. rewrite flush_ci in K.
    destruct (flush st1) as [st2|]; [|discriminate K]. cbn [option_map ps_ci with_ci] in K. cbn [option_map] in FB.
    destruct (construct_creation_info t) as [ci|] eqn:C; [|discriminate K]. cbv zeta in K. injection K as <-.
    destruct (forallb is_id _) eqn:I; [|discriminate FB]. exists t, ci, (ps_built st2). split; [exact E1|]. split; [exact C|]. split; [apply FI; reflexivity|].
    split; [|reflexivity]. rewrite EB, FB. destruct (snd (blocks (element_attributes gs))); reflexivity.
  - intros (t & ci & b & E1 & C & I & R & ->). apply FI in I. rewrite I in FB.
    destruct (own_effects O (element_attributes gs) init_state) as [st1|] eqn:E2.
    + exists (with_ci t st1). split; [apply effects_iff; eauto|]. unfold ending. rewrite flush_ci.
      destruct (flush st1) as [st2|].
      * cbn [option_map ps_ci with_ci]. rewrite C. cbv zeta. cbn [option_map] in FB.
        assert (X : ps_built st2 = b) by (rewrite EB in R; destruct (snd (blocks (element_attributes gs))); [cbn [run_blocks] in R|]; congruence).
        change (ps_built (with_ci t st2)) with (ps_built st2). rewrite X. reflexivity.
      * exfalso. cbn [option_map] in FB. rewrite EB in R. destruct (snd (blocks (element_attributes gs))); [discriminate FB|]. congruence.
    + exfalso. cbn [option_map] in FB. rewrite EB in R. destruct (snd (blocks (element_attributes gs))); [discriminate FB|]. congruence.
Qed.
End WithOracles.

(** ** Which elements a document has *)
Definition adds (es : list element) (b : built) : built := fold_left (fun b e => add e b) es b.
Lemma run_blocks_iff O bs : forall b b', run_blocks O bs b = Some b' <-> exists es, Forall2 (fun x e => block_element O x = Some e) bs es /\ b' = adds es b.
Proof.
  induction bs as [|x bs IH]; intros b b'; cbn [run_blocks].
  - split; [intro H; injection H as <-; exists []; split; [constructor|reflexivity]|]. intros (es & H & ->). inversion H. reflexivity.
  - split.
    + destruct (block_element O x) as [e|] eqn:E; [|discriminate]. intro H. apply IH in H as (es & H & ->). exists (e :: es). split; [constructor; auto|reflexivity].
    + intros (es & H & ->). inversion H as [|? e ? es' E H']; subst. rewrite E. apply IH. exists es'. auto.
Qed.
Lemma rel_in_In r l : rel_in r l = true <-> In r l.
Proof.
  unfold rel_in. rewrite existsb_exists. split.
  - intros (x & H & E). unfold eqb_of in E. destruct (relationship_eq_dec r x); [congruence|discriminate].
  - intro H. exists r. split; auto. unfold eqb_of. destruct (relationship_eq_dec r r); congruence.
Qed.
Definition owner_of (b : built) : option pystr := match option_map (@rev package) (b_packages b) with Some (p :: _) => Some (pk_id p) | _ => None end.
Lemma owner_add e b : owner_of (add e b) = match e with E_Package p => Some (pk_id p) | _ => owner_of b end.
Proof.
  destruct e; try reflexivity.
  - unfold owner_of. cbn [add set_packages b_packages option_map]. rewrite rev_app_distr. reflexivity.
  - cbn [add]. cbv zeta. unfold owner_of. destruct (option_map (@rev package) (b_packages b)) as [[|p l]|] eqn:E; cbn [b_packages set_files]; rewrite ?E; try reflexivity.
    destruct (rel_in _ _); cbn [b_packages set_files with_rels]; rewrite E; reflexivity.
Qed.
Lemma adds_fields es : forall b,
  opt_list (b_packages (adds es b)) = opt_list (b_packages b) ++ packages_of es /\ b_files (adds es b) = b_files b ++ files_of es
  /\ b_snippets (adds es b) = b_snippets b ++ snippets_of es /\ b_annotations (adds es b) = b_annotations b ++ annotations_of es
  /\ b_extracted (adds es b) = b_extracted b ++ extracted_of es.
Proof.
  induction es as [|e es IH]; intro b.
  - cbn. rewrite !app_nil_r. auto.
  - change (adds (e :: es) b) with (adds es (add e b)). destruct (IH (add e b)) as (-> & -> & -> & -> & ->).
    assert (X : opt_list (b_packages (add e b)) = opt_list (b_packages b) ++ packages_of [e] /\ b_files (add e b) = b_files b ++ files_of [e]
      /\ b_snippets (add e b) = b_snippets b ++ snippets_of [e] /\ b_annotations (add e b) = b_annotations b ++ annotations_of [e]
      /\ b_extracted (add e b) = b_extracted b ++ extracted_of [e]).
    { destruct e; cbn [packages_of files_of snippets_of annotations_of extracted_of flat_map app]; rewrite ?app_nil_r; try (repeat split; reflexivity).
      cbn [add]. cbv zeta. destruct (option_map (@rev package) (b_packages b)) as [[|p l]|]; try (repeat split; reflexivity). destruct (rel_in _ _); repeat split; reflexivity. }
    destruct X as (-> & -> & -> & -> & ->). rewrite <- !app_assoc.
    change (packages_of (e :: es)) with (packages_of ([e] ++ es)). change (files_of (e :: es)) with (files_of ([e] ++ es)). change (snippets_of (e :: es)) with (snippets_of ([e] ++ es)).
    change (annotations_of (e :: es)) with (annotations_of ([e] ++ es)). change (extracted_of (e :: es)) with (extracted_of ([e] ++ es)).
    unfold packages_of, files_of, snippets_of, annotations_of, extracted_of. rewrite !flat_map_app. repeat split.
Qed.
Lemma adds_gathered es : forall b, Gathered (owner_of b) (b_relationships b) es (b_relationships (adds es b)).
Proof.
  induction es as [|e es IH]; intro b; [constructor|]. change (adds (e :: es) b) with (adds es (add e b)). specialize (IH (add e b)). rewrite owner_add in IH.
  destruct e; try (constructor; exact IH).
  cbn [add] in *. cbv zeta in *. unfold owner_of in *. destruct (option_map (@rev package) (b_packages b)) as [[|p l]|] eqn:E; try (apply Ga_alone; exact IH).
  destruct (rel_in (contained (pk_id p) (fi_id f)) (b_relationships b)) eqn:R.
  - apply Ga_known; [apply rel_in_In; exact R|exact IH].
  - apply Ga_new; [intro K; apply rel_in_In in K; congruence|exact IH].
Qed.
Lemma gathered_fun es : forall o l r r', Gathered o l es r -> Gathered o l es r' -> r = r'.
Proof.
  induction es as [|e es IH]; intros o l r r' H H'; inversion H; subst; inversion H'; subst; try reflexivity; try contradiction; eauto.
Qed.
Lemma says_elements gs ci b es : Forall2 (fun x e => block_element ci x = Some e) gs es -> b = adds es no_elements ->
  opt_list (b_packages b) = packages_of es /\ b_files b = files_of es /\ b_snippets b = snippets_of es /\ b_annotations b = annotations_of es
  /\ b_extracted b = extracted_of es /\ Gathered None [] es (b_relationships b).
Proof.
  intros _ ->. destruct (adds_fields es no_elements) as (A & B & C & D & E). repeat split; auto. exact (adds_gathered es no_elements).
Qed.
