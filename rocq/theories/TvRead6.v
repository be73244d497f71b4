(** What the blocks of elements mean. *)
From Verif Require Import Py PyFacts PyRe PyReFacts PyReSound Data Oracles Basics Json Construct JsonConv JsonParse JsonSpec JsonRead
  TvWriter TvLexer TvSpec TvTokSpec TvLexFacts TvLexValues TvFieldFacts TvSpecialFacts TvParser TvParseFacts TvErrors TvRepeat TvRaises TvReadSpec TvRead TvRead2 TvRead3 TvRead4 TvRead5.

(** ** Keyword arguments *)
Lemma assoc_in {V} k (v : V) d : In (k, v) d -> assoc k d <> None.
Proof.
  induction d as [|[k' v'] d IH]; intros H; [destruct H|]. cbn [assoc]. destruct (str_eqb k k') eqn:E; [discriminate|]. destruct H as [H|H]; auto.
  injection H as -> ->. rewrite str_eqb_refl in E. discriminate E.
Qed.
Lemma kwargs_iff {A} cls req opt d (c : chk A) a : kwargs cls req opt d c = Ok a <->
  Forall (fun kv => In (fst kv) (req ++ opt)) d /\ Forall (fun k => assoc k d <> None) req /\ c = COk a.
Proof.
  unfold kwargs. split.
  - destruct (find _ d) as [[k v]|] eqn:F; [discriminate|]. destruct (filter _ req) as [|m l] eqn:G; [|discriminate]. rewrite construct_ok. intros ->. repeat split.
    + apply Forall_forall. intros kv Hk. apply (find_none _ _ F) in Hk. apply negb_false_iff in Hk. apply str_in_In. exact Hk.
    + apply Forall_forall. intros k Hk E. assert (I : In k (filter (fun k => match assoc k d with Some _ => false | None => true end) req)) by (apply filter_In; rewrite E; auto). rewrite G in I. destruct I.
  - intros (H1 & H2 & ->). destruct (find _ d) as [[k v]|] eqn:F.
    + exfalso. apply find_some in F as [F1 F2]. rewrite Forall_forall in H1. apply H1 in F1. apply str_in_In in F1. cbn [fst] in *. rewrite F1 in F2. discriminate F2.
    + destruct (filter _ req) as [|m l] eqn:G; [reflexivity|]. exfalso. assert (I : In m (filter (fun k => match assoc k d with Some _ => false | None => true end) req)) by (rewrite G; left; reflexivity).
      apply filter_In in I as [I1 I2]. rewrite Forall_forall in H2. specialize (H2 m I1). destruct (assoc m d); congruence.
Qed.
Lemma in_assoc_some d (names : list pystr) : (forall k, assoc k d <> None -> In k names) -> Forall (fun kv : pystr * tval => In (fst kv) names) d.
Proof. intro H. apply Forall_forall. intros [k v] Hk. apply H. eapply assoc_in; eauto. Qed.

(** ** Items *)
Lemma items_eq {X} (K : list X -> tval) (T : option tval -> chk (list X)) : (forall l, T (Some (K l)) = COk l) -> forall xs ys, T (Some (K xs)) = COk ys <-> Forall2 eq xs ys.
Proof.
  intros H xs ys. rewrite H. split.
  - intro E. injection E as <-. induction xs; constructor; auto.
  - intro F. f_equal. induction F; congruence.
Qed.
Lemma items_license c f xs ys : t_licenses c f (Some (VLics xs)) = COk ys <-> Forall2 (fun x y => x = Some y) xs ys.
Proof.
  cbn [t_licenses]. unfold c_items. split.
  - destruct (all_some xs) as [l|] eqn:E; [|discriminate]. intro H. injection H as <-. revert l E. induction xs as [|[x|] xs IH]; cbn; intros l E; try discriminate E.
    + injection E as <-. constructor.
    + destruct (all_some xs); [|discriminate E]. injection E as <-. constructor; auto.
  - intro F. assert (E : all_some xs = Some ys) by (induction F as [|x y xs ys -> F IH]; [reflexivity|]; cbn; rewrite IH; reflexivity). rewrite E. reflexivity.
Qed.

Section WithOracles.
Variable O : oracles.
(** ** Shapes of the classes *)
Definition cshape (c : clazz) (t : tag) : shape :=
  match slot_of t with
  | L_Set c' n | L_Start c' n => if clazz_eqb c' c then Sh_set n else Sh_fail
  | L_App c' n => if clazz_eqb c' c then Sh_app n else Sh_fail
  | L_Id => Sh_over $"spdx_id"
  | _ => Sh_fail
  end.
Definition ci_shape (t : tag) : shape :=
  match slot_of t with
  | L_CiSet n => Sh_set n
  | L_CiApp n => Sh_app n
  | L_Id => Sh_first $"spdx_id"
  | _ => Sh_skip
  end.
Lemma put_op c g d : c <> C_Relationship -> put O c g d = do_op (the_op O (cshape c) g) d.
Proof.
  intro N. unfold put, the_op, cshape. destruct (slot_of (g_tag g)) as [n|n|c' n|c' n|c' n| | |]; try reflexivity; try (destruct (clazz_eqb c' c); reflexivity).
  destruct c; try reflexivity. congruence.
Qed.
Lemma fill_ops c gs : c <> C_Relationship -> forall d, fill O c gs d = do_ops (map (the_op O (cshape c)) gs) d.
Proof. intro N. induction gs as [|g gs IH]; intro d; [reflexivity|]. cbn [fill map do_ops]. rewrite put_op by exact N. destruct (do_op _ d); auto. Qed.
Lemma ci_put_op g d : ci_put O g d = do_op (the_op O ci_shape g) d.
Proof. unfold ci_put, the_op, ci_shape. destruct (slot_of (g_tag g)); reflexivity. Qed.
Lemma ci_puts_ops gs : forall d, ci_puts O gs d = do_ops (map (the_op O ci_shape) gs) d.
Proof. induction gs as [|g gs IH]; intro d; [reflexivity|]. cbn [ci_puts map do_ops]. rewrite ci_put_op. destruct (do_op _ d); auto. Qed.
Lemma not_failed sh gs : forall d d', do_ops (map (the_op O sh) gs) d = Some d' -> Forall (fun g => sh (g_tag g) <> Sh_fail) gs.
Proof.
  induction gs as [|g gs IH]; intros d d' H; [constructor|]. cbn [map do_ops] in H. destruct (do_op (the_op O sh g) d) as [d1|] eqn:E; [|discriminate H]. constructor; eauto.
  intro K. unfold the_op in E. rewrite K in E. discriminate E.
Qed.
Definition known_names (sh : tag -> shape) (names : list pystr) (tags : list tag) : bool :=
  forallb (fun t => match sh t with Sh_fail => false | s => match shape_name s with Some m => str_in m names | None => true end end) tags.
Lemma names_other sh names tags n : known_names sh names tags = true -> ~ In n names -> forallb (fun x => other_name n (sh x)) tags = true.
Proof.
  unfold known_names. rewrite !forallb_forall. intros H N t Ht. specialize (H t Ht). unfold other_name. destruct (sh t) as [m|m|m|m| |]; cbn [shape_name] in *; auto;
  apply negb_true_iff; apply eqb_neq; intros ->; apply N; apply str_in_In; exact H.
Qed.
Lemma have_dict sh names tags gs : known_names sh names tags = true -> Only tags gs -> Forall (fun n => cells n (map (the_op O sh) gs) None <> None) names ->
  exists d, do_ops (map (the_op O sh) gs) [] = Some d /\ (forall n, cells n (map (the_op O sh) gs) None = Some (assoc n d)) /\ Forall (fun kv => In (fst kv) names) d.
Proof.
  intros K Ho H. rewrite Forall_forall in H.
  assert (X : forall n, ~ In n names -> cells n (map (the_op O sh) gs) None = Some None).
  { intros n N. exact (no_entry O sh n tags gs Ho None (names_other sh names tags n K N)). }
  destruct (do_ops_some (map (the_op O sh) gs) []) as [d E].
  { intro n. cbn [assoc]. destruct (in_dec str_dec n names) as [I|N]; [apply H; exact I|]. rewrite (X n N). discriminate. }
  exists d. split; auto. pose proof (do_ops_cells _ _ _ E) as C. cbn [assoc] in C. split; auto. apply in_assoc_some. intros k Hk.
  destruct (in_dec str_dec k names) as [I|N]; auto. specialize (C k). rewrite (X k N) in C. congruence.
Qed.
Lemma reads_defined {Y} sh n gs (T : option tval -> chk Y) y : Reads O sh n gs T y -> cells n (map (the_op O sh) gs) None <> None.
Proof. intros (o & E & _). congruence. Qed.
Lemma reads_at {Y} sh n gs (T : option tval -> chk Y) y d : Reads O sh n gs T y -> (forall n, cells n (map (the_op O sh) gs) None = Some (assoc n d)) -> T (assoc n d) = COk y.
Proof. intros (o & E & H) C. rewrite C in E. injection E as ->. exact H. Qed.

(** ** Identifiers that two tags give *)
Lemma cells_app n a b x : cells n (a ++ b) x = match cells n a x with Some y => cells n b y | None => None end.
Proof. revert x. induction a as [|o a IH]; intro x; cbn [app cells]; [reflexivity|]. destruct (cell1 n o x); auto. Qed.
Section Ids.
Variables (sh : tag -> shape) (t : tag).
Notation n := $"spdx_id".
Definition id_check (tags : list tag) : bool :=
  forallb (fun x => if tag_eqb x t then same_shape (sh x) (Sh_set n) else if tag_eqb x T_SPDXID then same_shape (sh x) (Sh_over n) else other_name n (sh x)) tags.
Definition IdCase (g : grp) : Prop :=
  g_tag g = t /\ the_op O sh g = Op_set n (Some (VStr (tk_value (g_val g))))
  \/ g_tag g <> t /\ g_tag g = T_SPDXID /\ the_op O sh g = Op_over n (VStr (tk_value (g_val g)))
  \/ g_tag g <> t /\ g_tag g <> T_SPDXID /\ apart (the_op O sh) n g.
Lemma id_cases tags gs : id_check tags = true -> Only tags gs -> (forall g, In g gs -> g_tag g = t -> val_of O g = Some (VStr (tk_value (g_val g)))) -> Forall IdCase gs.
Proof.
  intros C Ho V. apply Forall_forall. intros g Hg. unfold Only in Ho. rewrite Forall_forall in Ho. pose proof (Ho g Hg) as I. unfold id_check in C. rewrite forallb_forall in C. specialize (C _ I).
  unfold IdCase. destruct (tag_eqb (g_tag g) t) eqn:E.
  - left. apply tag_eqb_spec in E. split; auto. apply same_shape_eq in C. unfold the_op. rewrite C, (V g Hg E). reflexivity.
  - right. assert (N : g_tag g <> t) by (intro K; apply tag_eqb_spec in K; congruence). destruct (tag_eqb (g_tag g) T_SPDXID) eqn:E2.
    + left. apply tag_eqb_spec in E2. repeat split; auto. apply same_shape_eq in C. unfold the_op. rewrite C. reflexivity.
    + right. repeat split; auto; [intro K; apply tag_eqb_spec in K; congruence|]. apply other_apart. exact C.
Qed.
Lemma with_tag_app x a b : with_tag x (a ++ b) = with_tag x a ++ with_tag x b.
Proof. unfold with_tag. apply filter_app. Qed.
Lemma with_tag_yes x g gs : g_tag g = x -> with_tag x (g :: gs) = g :: with_tag x gs.
Proof. intro E. rewrite with_tag_cons. assert (T : tag_eqb (g_tag g) x = true) by (apply tag_eqb_spec; exact E). rewrite T. reflexivity. Qed.
Lemma with_tag_no x g gs : g_tag g <> x -> with_tag x (g :: gs) = with_tag x gs.
Proof. intro E. rewrite with_tag_cons, (tag_eqb_no _ _ E). reflexivity. Qed.
(** without the tag *)
Lemma ids_only gs : Forall IdCase gs -> with_tag t gs = [] -> forall x,
  cells n (map (the_op O sh) gs) x = Some (match rev (with_tag T_SPDXID gs) with [] => x | g :: _ => Some (VStr (tk_value (g_val g))) end).
Proof.
  intros H W x. apply over_entry. induction H as [|g gs [[A B]|[(N & A & B)|(N & A & B)]] H IH]; constructor; auto.
  - rewrite (with_tag_yes t g gs A) in W. discriminate W.
  - rewrite (with_tag_yes t g gs A) in W. discriminate W.
  - rewrite (with_tag_no t g gs N) in W. auto.
  - rewrite (with_tag_no t g gs N) in W. auto.
Qed.
Lemma ids_again gs : Forall IdCase gs -> forall v y, cells n (map (the_op O sh) gs) (Some v) = Some y -> with_tag t gs = [].
Proof.
  induction 1 as [|g gs [[A B]|[(N & A & B)|(N & A & B)]] H IH]; intros v y C; [reflexivity|..]; cbn [map cells] in C.
  - rewrite B in C. cbn [cell1] in C. rewrite str_eqb_refl in C. discriminate C.
  - rewrite B in C. cbn [cell1] in C. rewrite str_eqb_refl in C. rewrite (with_tag_no t g gs N). eapply IH; eauto.
  - rewrite (B (Some v)) in C. rewrite (with_tag_no t g gs N). eapply IH; eauto.
Qed.
Lemma first_t gs : with_tag t gs = [] \/ exists a g b, gs = a ++ g :: b /\ g_tag g = t /\ with_tag t a = [].
Proof.
  induction gs as [|g gs IH]; [left; reflexivity|]. destruct (tag_eqb (g_tag g) t) eqn:E.
  - apply tag_eqb_spec in E. right. exists [], g, gs. auto.
  - assert (N : g_tag g <> t) by (intro K; apply tag_eqb_spec in K; congruence). destruct IH as [W|(a & g' & b & -> & A & B)]; [left; rewrite with_tag_no; auto|].
    right. exists (g :: a), g', b. repeat split; auto. rewrite with_tag_no; auto.
Qed.
Lemma rev_nil {A} (l : list A) : rev l = [] -> l = [].
Proof. intro H. apply (f_equal (@rev A)) in H. rewrite rev_involutive in H. exact H. Qed.
Lemma rev_cons {A} (l : list A) x r : rev l = x :: r -> l = rev r ++ [x].
Proof. intro H. apply (f_equal (@rev A)) in H. rewrite rev_involutive in H. exact H. Qed.
Lemma id_from gs (T : option tval -> chk pystr) s : t <> T_SPDXID -> Forall IdCase gs -> (forall v y, T v = COk y <-> v = Some (VStr y)) ->
  (Reads O sh n gs T s <-> IdFrom t gs s \/ with_tag t gs = [] /\ LastId gs s).
Proof.
  intros NT H HT. unfold Reads. split.
  - intros (o & C & E). apply HT in E. subst o. destruct (first_t gs) as [W|(a & g & b & -> & A & W)].
    + right. split; auto. rewrite (ids_only gs H W) in C. destruct (rev (with_tag T_SPDXID gs)) as [|g l] eqn:R; [discriminate C|]. apply rev_cons in R. exists (rev l), g. split; auto. unfold SaysLine. congruence.
    + left. apply Forall_app in H as [H1 H2]. apply Forall_cons_iff in H2 as [Hg H2]. rewrite map_app, cells_app in C. cbn [map cells] in C. rewrite (ids_only a H1 W) in C.
      destruct Hg as [[_ B]|[(N & _)|(N & _)]]; try contradiction. rewrite B in C. cbn [cell1] in C. rewrite str_eqb_refl in C. destruct (rev (with_tag T_SPDXID a)) as [|x l] eqn:R; [|discriminate C].
      apply rev_nil in R. pose proof (ids_again b H2 _ _ C) as Wb. rewrite (ids_only b H2 Wb) in C. exists a, g, b. repeat split; auto.
      destruct (rev (with_tag T_SPDXID b)) as [|x l] eqn:R2.
      * right. split; [apply rev_nil; exact R2|]. unfold SaysLine. congruence.
      * left. apply rev_cons in R2. exists (rev l), x. split; auto. unfold SaysLine. congruence.
  - assert (L : forall l, Forall IdCase l -> with_tag t l = [] -> LastId l s -> forall x, cells n (map (the_op O sh) l) x = Some (Some (VStr s))).
    { intros l Hl W (l' & g & E & ->) x. rewrite (ids_only l Hl W), E, rev_app_distr. reflexivity. }
    intros [(a & g & b & -> & A & Wa & Wb & Ia & D)|[W D]].
    + exists (Some (VStr s)). split; [|apply HT; reflexivity]. apply Forall_app in H as [H1 H2]. apply Forall_cons_iff in H2 as [Hg H2].
      rewrite map_app, cells_app. cbn [map cells]. rewrite (ids_only a H1 Wa), Ia. cbn [rev]. destruct Hg as [[_ B]|[(N & _)|(N & _)]]; try contradiction. rewrite B. cbn [cell1]. rewrite str_eqb_refl.
      destruct D as [D|[D S]]; [apply L; auto|]. rewrite (ids_only b H2 Wb), D. cbn [rev]. rewrite S. reflexivity.
    + exists (Some (VStr s)). split; [|apply HT; reflexivity]. apply L; auto.
Qed.
End Ids.
Lemma t_str_iff c f v y : t_str c f v = COk y <-> v = Some (VStr y).
Proof. unfold t_str. destruct v as [[]|]; split; intro H; try discriminate; congruence. Qed.
Ltac acc F Ht := let vk := fresh in let E := fresh in let A := fresh in
  destruct F as [[(vk & E & A) _] _]; rewrite Ht in E; injection E as <-; exact A.
Ltac means Hf :=
  let g := fresh "g" in let y := fresh "y" in let Hg := fresh in let Ht := fresh "Ht" in let F := fresh "F" in
  intros g y Hg Ht; pose proof (Hf g Hg) as F; unfold val_of; rewrite Ht; cbv beta iota zeta;
  first [ apply m_line | apply m_line2; acc F Ht | apply m_opt_line; acc F Ht | apply m_text; exact F | apply m_opt_text; exact F | apply m_word; exact F
        | apply m_opt_word; exact F | apply m_opt_name; [exact F|acc F Ht] | apply m_date | apply m_opt_date | apply m_opt_version | apply m_actor | apply m_opt_actor
        | apply m_analyzed | apply m_opt_purpose | apply m_ann_type | apply m_range; [exact F|acc F Ht] | apply m_opt_range; [exact F|acc F Ht] | apply m_opt_code
        | apply m_opt_license
        | apply e_line | apply e_text; exact F | apply e_license | apply e_type | apply e_actor | apply e_checksum | apply e_doc_ref | apply e_ref; exact F ].
Ltac itemform := let g := fresh in let Hg := fresh in let Ht := fresh in let v := fresh in let E := fresh in
  intros g Hg Ht v E; unfold val_of in E; rewrite Ht in E; cbv beta iota zeta in E;
  match type of E with
  | Some _ = _ => injection E as <-; eauto
  | option_map _ ?x = _ => destruct x; [cbn [option_map] in E; injection E as <-; eauto|discriminate E]
  end.
Ltac at_field := intros; repeat match goal with H : Reads _ _ _ _ _ _ |- _ => apply reads_defined in H end.

Definition t_data_license (c f : pystr) (v : option tval) : chk pystr := match v with None => COk $"CC0-1.0" | v => t_str c f v end.
Lemma m_data c f g y : (exists v, Some (VStr (tk_value (g_val g))) = Some v /\ t_data_license c f (Some v) = COk y) <-> SaysLine g y.
Proof. exact (m_line c f g y). Qed.
Section Fields.
Variable gs : list grp.
Hypothesis Hf : forall g, In g gs -> Fine g.

(** *** package *)
Lemma f_pk_id s : Only package_tags gs -> (Reads O (cshape C_Package) $"spdx_id" gs (t_str $"Package" $"spdx_id") s <-> LastId gs s).
Proof. intro Ho. apply (field_last O (cshape C_Package) $"spdx_id" T_SPDXID package_tags gs Ho); [vm_compute; reflexivity|apply t_str_iff]. Qed.
Lemma f_pk_name y : Only package_tags gs -> (Reads O (cshape C_Package) $"name" gs (t_str $"Package" $"name") y <-> One SaysLine T_PackageName gs y).
Proof. intro Ho. apply (field_one O (cshape C_Package) $"name" T_PackageName package_tags gs Ho); [vm_compute; reflexivity|means Hf|discriminate]. Qed.
Lemma f_pk_download y : Only package_tags gs -> (Reads O (cshape C_Package) $"download_location" gs (t_nn $"Package" $"download_location") y <-> One SaysWord T_PackageDownloadLocation gs y).
Proof. intro Ho. apply (field_one O (cshape C_Package) $"download_location" T_PackageDownloadLocation package_tags gs Ho); [vm_compute; reflexivity|means Hf|discriminate]. Qed.
Lemma f_pk_version y : Only package_tags gs -> (Reads O (cshape C_Package) $"version" gs (t_opt_str $"Package" $"version") y <-> Optional SaysLine T_PackageVersion gs y).
Proof. intro Ho. apply (field_optional O (cshape C_Package) $"version" T_PackageVersion package_tags gs Ho); [vm_compute; reflexivity|means Hf|reflexivity]. Qed.
Lemma f_pk_file_name y : Only package_tags gs -> (Reads O (cshape C_Package) $"file_name" gs (t_opt_str $"Package" $"file_name") y <-> Optional SaysLine T_PackageFileName gs y).
Proof. intro Ho. apply (field_optional O (cshape C_Package) $"file_name" T_PackageFileName package_tags gs Ho); [vm_compute; reflexivity|means Hf|reflexivity]. Qed.
Lemma f_pk_supplier y : Only package_tags gs -> (Reads O (cshape C_Package) $"supplier" gs (t_opt_actor $"Package" $"supplier") y <-> Optional SaysActorOrNot T_PackageSupplier gs y).
Proof. intro Ho. apply (field_optional O (cshape C_Package) $"supplier" T_PackageSupplier package_tags gs Ho); [vm_compute; reflexivity|means Hf|reflexivity]. Qed.
Lemma f_pk_originator y : Only package_tags gs -> (Reads O (cshape C_Package) $"originator" gs (t_opt_actor $"Package" $"originator") y <-> Optional SaysActorOrNot T_PackageOriginator gs y).
Proof. intro Ho. apply (field_optional O (cshape C_Package) $"originator" T_PackageOriginator package_tags gs Ho); [vm_compute; reflexivity|means Hf|reflexivity]. Qed.
Lemma f_pk_files_analyzed y : Only package_tags gs -> (Reads O (cshape C_Package) $"files_analyzed" gs (t_files_analyzed $"Package" $"files_analyzed") y <-> Default SaysAnalyzed T_FilesAnalyzed gs true y).
Proof. intro Ho. apply (field_default O (cshape C_Package) $"files_analyzed" T_FilesAnalyzed package_tags gs Ho); [vm_compute; reflexivity|means Hf|reflexivity]. Qed.
Lemma f_pk_verif y : Only package_tags gs -> (Reads O (cshape C_Package) $"verification_code" gs (t_opt_verif $"Package" $"verification_code") y <-> Optional SaysCode T_PackageVerificationCode gs y).
Proof. intro Ho. apply (field_optional O (cshape C_Package) $"verification_code" T_PackageVerificationCode package_tags gs Ho); [vm_compute; reflexivity|means Hf|reflexivity]. Qed.
Lemma f_pk_checksums ys : Only package_tags gs -> (forall o, cells $"checksums" (map (the_op O (cshape C_Package)) gs) None = Some o -> t_checksums $"Package" $"checksums" o = COk ys -> Each SaysChecksum T_PackageChecksum gs ys /\ (o = None <-> ys = []))
  /\ (Each SaysChecksum T_PackageChecksum gs ys -> Reads O (cshape C_Package) $"checksums" gs (t_checksums $"Package" $"checksums") ys /\ (ys <> [] -> cells $"checksums" (map (the_op O (cshape C_Package)) gs) None <> Some None)).
Proof.
  intros Ho. destruct (field_each O (cshape C_Package) $"checksums" T_PackageChecksum package_tags gs Ho VChecksums eq (t_checksums $"Package" $"checksums") SaysChecksum ys) as [A B]; [vm_compute; reflexivity|reflexivity|intros a b E; injection E; auto|itemform|means Hf|apply (items_eq VChecksums (t_checksums $"Package" $"checksums")); reflexivity|intros y H; injection H as <-; reflexivity|].
  split; [exact A|]. intro E. apply B; [exact E|left; reflexivity].
Qed.
Lemma f_pk_homepage y : Only package_tags gs -> (Reads O (cshape C_Package) $"homepage" gs (t_opt_nn $"Package" $"homepage") y <-> Optional SaysWord T_PackageHomePage gs y).
Proof. intro Ho. apply (field_optional O (cshape C_Package) $"homepage" T_PackageHomePage package_tags gs Ho); [vm_compute; reflexivity|means Hf|reflexivity]. Qed.
Lemma f_pk_source_info y : Only package_tags gs -> (Reads O (cshape C_Package) $"source_info" gs (t_opt_str $"Package" $"source_info") y <-> Optional SaysText T_PackageSourceInfo gs y).
Proof. intro Ho. apply (field_optional O (cshape C_Package) $"source_info" T_PackageSourceInfo package_tags gs Ho); [vm_compute; reflexivity|means Hf|reflexivity]. Qed.
Lemma f_pk_concluded y : Only package_tags gs -> (Reads O (cshape C_Package) $"license_concluded" gs (t_opt_license $"Package" $"license_concluded") y <-> Default (SaysOptLicense O) T_PackageLicenseConcluded gs None y).
Proof. intro Ho. apply (field_default O (cshape C_Package) $"license_concluded" T_PackageLicenseConcluded package_tags gs Ho); [vm_compute; reflexivity|means Hf|reflexivity]. Qed.
Lemma f_pk_info ys : Only package_tags gs -> (forall o, cells $"license_info_from_files" (map (the_op O (cshape C_Package)) gs) None = Some o -> t_licenses $"Package" $"license_info_from_files" o = COk ys -> Each (SaysLicense O) T_PackageLicenseInfoFromFiles gs ys /\ (o = None <-> ys = []))
  /\ (Each (SaysLicense O) T_PackageLicenseInfoFromFiles gs ys -> Reads O (cshape C_Package) $"license_info_from_files" gs (t_licenses $"Package" $"license_info_from_files") ys /\ (ys <> [] -> cells $"license_info_from_files" (map (the_op O (cshape C_Package)) gs) None <> Some None)).
Proof.
  intros Ho. destruct (field_each O (cshape C_Package) $"license_info_from_files" T_PackageLicenseInfoFromFiles package_tags gs Ho VLics (fun x y => x = Some y) (t_licenses $"Package" $"license_info_from_files") (SaysLicense O) ys) as [A B]; [vm_compute; reflexivity|reflexivity|intros a b E; injection E; auto|itemform|means Hf|apply items_license|intros y H; injection H as <-; reflexivity|].
  split; [exact A|]. intro E. apply B; [exact E|left; reflexivity].
Qed.
Lemma f_pk_declared y : Only package_tags gs -> (Reads O (cshape C_Package) $"license_declared" gs (t_opt_license $"Package" $"license_declared") y <-> Default (SaysOptLicense O) T_PackageLicenseDeclared gs None y).
Proof. intro Ho. apply (field_default O (cshape C_Package) $"license_declared" T_PackageLicenseDeclared package_tags gs Ho); [vm_compute; reflexivity|means Hf|reflexivity]. Qed.
Lemma f_pk_lic_comment y : Only package_tags gs -> (Reads O (cshape C_Package) $"license_comment" gs (t_opt_str $"Package" $"license_comment") y <-> Optional SaysText T_PackageLicenseComments gs y).
Proof. intro Ho. apply (field_optional O (cshape C_Package) $"license_comment" T_PackageLicenseComments package_tags gs Ho); [vm_compute; reflexivity|means Hf|reflexivity]. Qed.
Lemma f_pk_copyright y : Only package_tags gs -> (Reads O (cshape C_Package) $"copyright_text" gs (t_opt_nn $"Package" $"copyright_text") y <-> Optional SaysWord T_PackageCopyrightText gs y).
Proof. intro Ho. apply (field_optional O (cshape C_Package) $"copyright_text" T_PackageCopyrightText package_tags gs Ho); [vm_compute; reflexivity|means Hf|reflexivity]. Qed.
Lemma f_pk_summary y : Only package_tags gs -> (Reads O (cshape C_Package) $"summary" gs (t_opt_str $"Package" $"summary") y <-> Optional SaysText T_PackageSummary gs y).
Proof. intro Ho. apply (field_optional O (cshape C_Package) $"summary" T_PackageSummary package_tags gs Ho); [vm_compute; reflexivity|means Hf|reflexivity]. Qed.
Lemma f_pk_description y : Only package_tags gs -> (Reads O (cshape C_Package) $"description" gs (t_opt_str $"Package" $"description") y <-> Optional SaysText T_PackageDescription gs y).
Proof. intro Ho. apply (field_optional O (cshape C_Package) $"description" T_PackageDescription package_tags gs Ho); [vm_compute; reflexivity|means Hf|reflexivity]. Qed.
Lemma f_pk_comment y : Only package_tags gs -> (Reads O (cshape C_Package) $"comment" gs (t_opt_str $"Package" $"comment") y <-> Optional SaysText T_PackageComment gs y).
Proof. intro Ho. apply (field_optional O (cshape C_Package) $"comment" T_PackageComment package_tags gs Ho); [vm_compute; reflexivity|means Hf|reflexivity]. Qed.
Lemma f_pk_refs ys : Only package_tags gs -> (forall o, cells $"external_references" (map (the_op O (cshape C_Package)) gs) None = Some o -> t_ext_refs $"Package" $"external_references" o = COk ys -> Each SaysRef T_ExternalRef gs ys /\ (o = None <-> ys = []))
  /\ (Each SaysRef T_ExternalRef gs ys -> Reads O (cshape C_Package) $"external_references" gs (t_ext_refs $"Package" $"external_references") ys /\ (ys <> [] -> cells $"external_references" (map (the_op O (cshape C_Package)) gs) None <> Some None)).
Proof.
  intros Ho. destruct (field_each O (cshape C_Package) $"external_references" T_ExternalRef package_tags gs Ho VExtRefs eq (t_ext_refs $"Package" $"external_references") SaysRef ys) as [A B]; [vm_compute; reflexivity|reflexivity|intros a b E; injection E; auto|itemform|means Hf|apply (items_eq VExtRefs (t_ext_refs $"Package" $"external_references")); reflexivity|intros y H; injection H as <-; reflexivity|].
  split; [exact A|]. intro E. apply B; [exact E|left; reflexivity].
Qed.
Lemma f_pk_attribution ys : Only package_tags gs -> (forall o, cells $"attribution_texts" (map (the_op O (cshape C_Package)) gs) None = Some o -> t_strs $"Package" $"attribution_texts" o = COk ys -> Each SaysText T_PackageAttributionText gs ys /\ (o = None <-> ys = []))
  /\ (Each SaysText T_PackageAttributionText gs ys -> Reads O (cshape C_Package) $"attribution_texts" gs (t_strs $"Package" $"attribution_texts") ys /\ (ys <> [] -> cells $"attribution_texts" (map (the_op O (cshape C_Package)) gs) None <> Some None)).
Proof.
  intros Ho. destruct (field_each O (cshape C_Package) $"attribution_texts" T_PackageAttributionText package_tags gs Ho VStrs eq (t_strs $"Package" $"attribution_texts") SaysText ys) as [A B]; [vm_compute; reflexivity|reflexivity|intros a b E; injection E; auto|itemform|means Hf|apply (items_eq VStrs (t_strs $"Package" $"attribution_texts")); reflexivity|intros y H; injection H as <-; reflexivity|].
  split; [exact A|]. intro E. apply B; [exact E|left; reflexivity].
Qed.
Lemma f_pk_purpose y : Only package_tags gs -> (Reads O (cshape C_Package) $"primary_package_purpose" gs (t_opt_purpose $"Package" $"primary_package_purpose") y <-> Optional SaysPurpose T_PrimaryPackagePurpose gs y).
Proof. intro Ho. apply (field_optional O (cshape C_Package) $"primary_package_purpose" T_PrimaryPackagePurpose package_tags gs Ho); [vm_compute; reflexivity|means Hf|reflexivity]. Qed.
Lemma f_pk_release y : Only package_tags gs -> (Reads O (cshape C_Package) $"release_date" gs (t_opt_date $"Package" $"release_date") y <-> Optional SaysDate T_ReleaseDate gs y).
Proof. intro Ho. apply (field_optional O (cshape C_Package) $"release_date" T_ReleaseDate package_tags gs Ho); [vm_compute; reflexivity|means Hf|reflexivity]. Qed.
Lemma f_pk_built y : Only package_tags gs -> (Reads O (cshape C_Package) $"built_date" gs (t_opt_date $"Package" $"built_date") y <-> Optional SaysDate T_BuiltDate gs y).
Proof. intro Ho. apply (field_optional O (cshape C_Package) $"built_date" T_BuiltDate package_tags gs Ho); [vm_compute; reflexivity|means Hf|reflexivity]. Qed.
Lemma f_pk_valid_until y : Only package_tags gs -> (Reads O (cshape C_Package) $"valid_until_date" gs (t_opt_date $"Package" $"valid_until_date") y <-> Optional SaysDate T_ValidUntilDate gs y).
Proof. intro Ho. apply (field_optional O (cshape C_Package) $"valid_until_date" T_ValidUntilDate package_tags gs Ho); [vm_compute; reflexivity|means Hf|reflexivity]. Qed.
(** *** file *)
Lemma f_fi_name y : Only file_tags gs -> (Reads O (cshape C_File) $"name" gs (t_str $"File" $"name") y <-> One SaysLine T_FileName gs y).
Proof. intro Ho. apply (field_one O (cshape C_File) $"name" T_FileName file_tags gs Ho); [vm_compute; reflexivity|means Hf|discriminate]. Qed.
Lemma f_fi_id s : Only file_tags gs -> (Reads O (cshape C_File) $"spdx_id" gs (t_str $"File" $"spdx_id") s <-> LastId gs s).
Proof. intro Ho. apply (field_last O (cshape C_File) $"spdx_id" T_SPDXID file_tags gs Ho); [vm_compute; reflexivity|apply t_str_iff]. Qed.
Lemma f_fi_checksums ys : Only file_tags gs -> (forall o, cells $"checksums" (map (the_op O (cshape C_File)) gs) None = Some o -> t_checksums $"File" $"checksums" o = COk ys -> Each SaysChecksum T_FileChecksum gs ys /\ (o = None <-> ys = []))
  /\ (Each SaysChecksum T_FileChecksum gs ys -> Reads O (cshape C_File) $"checksums" gs (t_checksums $"File" $"checksums") ys /\ (ys <> [] -> cells $"checksums" (map (the_op O (cshape C_File)) gs) None <> Some None)).
Proof.
  intros Ho. destruct (field_each O (cshape C_File) $"checksums" T_FileChecksum file_tags gs Ho VChecksums eq (t_checksums $"File" $"checksums") SaysChecksum ys) as [A B]; [vm_compute; reflexivity|reflexivity|intros a b E; injection E; auto|itemform|means Hf|apply (items_eq VChecksums (t_checksums $"File" $"checksums")); reflexivity|intros y H; injection H as <-; reflexivity|].
  split; [exact A|]. intro E. apply B; [exact E|left; reflexivity].
Qed.
Lemma f_fi_types ys : Only file_tags gs -> (forall o, cells $"file_types" (map (the_op O (cshape C_File)) gs) None = Some o -> t_types $"File" $"file_types" o = COk ys -> Each SaysFileType T_FileType gs ys /\ (o = None <-> ys = []))
  /\ (Each SaysFileType T_FileType gs ys -> Reads O (cshape C_File) $"file_types" gs (t_types $"File" $"file_types") ys /\ (ys <> [] -> cells $"file_types" (map (the_op O (cshape C_File)) gs) None <> Some None)).
Proof.
  intros Ho. destruct (field_each O (cshape C_File) $"file_types" T_FileType file_tags gs Ho VTypes eq (t_types $"File" $"file_types") SaysFileType ys) as [A B]; [vm_compute; reflexivity|reflexivity|intros a b E; injection E; auto|itemform|means Hf|apply (items_eq VTypes (t_types $"File" $"file_types")); reflexivity|intros y H; injection H as <-; reflexivity|].
  split; [exact A|]. intro E. apply B; [exact E|left; reflexivity].
Qed.
Lemma f_fi_concluded y : Only file_tags gs -> (Reads O (cshape C_File) $"license_concluded" gs (t_opt_license $"File" $"license_concluded") y <-> Default (SaysOptLicense O) T_LicenseConcluded gs None y).
Proof. intro Ho. apply (field_default O (cshape C_File) $"license_concluded" T_LicenseConcluded file_tags gs Ho); [vm_compute; reflexivity|means Hf|reflexivity]. Qed.
Lemma f_fi_info ys : Only file_tags gs -> (forall o, cells $"license_info_in_file" (map (the_op O (cshape C_File)) gs) None = Some o -> t_licenses $"File" $"license_info_in_file" o = COk ys -> Each (SaysLicense O) T_LicenseInfoInFile gs ys /\ (o = None <-> ys = []))
  /\ (Each (SaysLicense O) T_LicenseInfoInFile gs ys -> Reads O (cshape C_File) $"license_info_in_file" gs (t_licenses $"File" $"license_info_in_file") ys /\ (ys <> [] -> cells $"license_info_in_file" (map (the_op O (cshape C_File)) gs) None <> Some None)).
Proof.
  intros Ho. destruct (field_each O (cshape C_File) $"license_info_in_file" T_LicenseInfoInFile file_tags gs Ho VLics (fun x y => x = Some y) (t_licenses $"File" $"license_info_in_file") (SaysLicense O) ys) as [A B]; [vm_compute; reflexivity|reflexivity|intros a b E; injection E; auto|itemform|means Hf|apply items_license|intros y H; injection H as <-; reflexivity|].
  split; [exact A|]. intro E. apply B; [exact E|left; reflexivity].
Qed.
Lemma f_fi_lic_comment y : Only file_tags gs -> (Reads O (cshape C_File) $"license_comment" gs (t_opt_str $"File" $"license_comment") y <-> Optional SaysText T_LicenseComments gs y).
Proof. intro Ho. apply (field_optional O (cshape C_File) $"license_comment" T_LicenseComments file_tags gs Ho); [vm_compute; reflexivity|means Hf|reflexivity]. Qed.
Lemma f_fi_copyright y : Only file_tags gs -> (Reads O (cshape C_File) $"copyright_text" gs (t_opt_nn $"File" $"copyright_text") y <-> Optional SaysWord T_FileCopyrightText gs y).
Proof. intro Ho. apply (field_optional O (cshape C_File) $"copyright_text" T_FileCopyrightText file_tags gs Ho); [vm_compute; reflexivity|means Hf|reflexivity]. Qed.
Lemma f_fi_comment y : Only file_tags gs -> (Reads O (cshape C_File) $"comment" gs (t_opt_str $"File" $"comment") y <-> Optional SaysText T_FileComment gs y).
Proof. intro Ho. apply (field_optional O (cshape C_File) $"comment" T_FileComment file_tags gs Ho); [vm_compute; reflexivity|means Hf|reflexivity]. Qed.
Lemma f_fi_notice y : Only file_tags gs -> (Reads O (cshape C_File) $"notice" gs (t_opt_str $"File" $"notice") y <-> Optional SaysText T_FileNotice gs y).
Proof. intro Ho. apply (field_optional O (cshape C_File) $"notice" T_FileNotice file_tags gs Ho); [vm_compute; reflexivity|means Hf|reflexivity]. Qed.
Lemma f_fi_contributors ys : Only file_tags gs -> (forall o, cells $"contributors" (map (the_op O (cshape C_File)) gs) None = Some o -> t_strs $"File" $"contributors" o = COk ys -> Each SaysLine T_FileContributor gs ys /\ (o = None <-> ys = []))
  /\ (Each SaysLine T_FileContributor gs ys -> Reads O (cshape C_File) $"contributors" gs (t_strs $"File" $"contributors") ys /\ (ys <> [] -> cells $"contributors" (map (the_op O (cshape C_File)) gs) None <> Some None)).
Proof.
  intros Ho. destruct (field_each O (cshape C_File) $"contributors" T_FileContributor file_tags gs Ho VStrs eq (t_strs $"File" $"contributors") SaysLine ys) as [A B]; [vm_compute; reflexivity|reflexivity|intros a b E; injection E; auto|itemform|means Hf|apply (items_eq VStrs (t_strs $"File" $"contributors")); reflexivity|intros y H; injection H as <-; reflexivity|].
  split; [exact A|]. intro E. apply B; [exact E|left; reflexivity].
Qed.
Lemma f_fi_attribution ys : Only file_tags gs -> (forall o, cells $"attribution_texts" (map (the_op O (cshape C_File)) gs) None = Some o -> t_strs $"File" $"attribution_texts" o = COk ys -> Each SaysText T_FileAttributionText gs ys /\ (o = None <-> ys = []))
  /\ (Each SaysText T_FileAttributionText gs ys -> Reads O (cshape C_File) $"attribution_texts" gs (t_strs $"File" $"attribution_texts") ys /\ (ys <> [] -> cells $"attribution_texts" (map (the_op O (cshape C_File)) gs) None <> Some None)).
Proof.
  intros Ho. destruct (field_each O (cshape C_File) $"attribution_texts" T_FileAttributionText file_tags gs Ho VStrs eq (t_strs $"File" $"attribution_texts") SaysText ys) as [A B]; [vm_compute; reflexivity|reflexivity|intros a b E; injection E; auto|itemform|means Hf|apply (items_eq VStrs (t_strs $"File" $"attribution_texts")); reflexivity|intros y H; injection H as <-; reflexivity|].
  split; [exact A|]. intro E. apply B; [exact E|left; reflexivity].
Qed.
(** *** snippet *)
Lemma f_sn_id s : Only snippet_tags gs -> (Reads O (cshape C_Snippet) $"spdx_id" gs (t_str $"Snippet" $"spdx_id") s <-> IdFrom T_SnippetSPDXID gs s \/ with_tag T_SnippetSPDXID gs = [] /\ LastId gs s).
Proof.
  intro Ho. apply id_from; [discriminate| |apply t_str_iff]. apply (id_cases (cshape C_Snippet) T_SnippetSPDXID snippet_tags gs); [vm_compute; reflexivity|exact Ho|].
  intros g Hg Ht. pose proof (Hf g Hg) as F. unfold val_of. rewrite Ht. cbv beta iota zeta. rewrite line_text; [reflexivity|acc F Ht].
Qed.
Lemma f_sn_file y : Only snippet_tags gs -> (Reads O (cshape C_Snippet) $"file_spdx_id" gs (t_str $"Snippet" $"file_spdx_id") y <-> One SaysLine T_SnippetFromFileSPDXID gs y).
Proof. intro Ho. apply (field_one O (cshape C_Snippet) $"file_spdx_id" T_SnippetFromFileSPDXID snippet_tags gs Ho); [vm_compute; reflexivity|means Hf|discriminate]. Qed.
Lemma f_sn_bytes y : Only snippet_tags gs -> (Reads O (cshape C_Snippet) $"byte_range" gs (t_range $"Snippet" $"byte_range") y <-> One SaysRange T_SnippetByteRange gs y).
Proof. intro Ho. apply (field_one O (cshape C_Snippet) $"byte_range" T_SnippetByteRange snippet_tags gs Ho); [vm_compute; reflexivity|means Hf|discriminate]. Qed.
Lemma f_sn_lines y : Only snippet_tags gs -> (Reads O (cshape C_Snippet) $"line_range" gs (t_opt_range $"Snippet" $"line_range") y <-> Optional SaysRange T_SnippetLineRange gs y).
Proof. intro Ho. apply (field_optional O (cshape C_Snippet) $"line_range" T_SnippetLineRange snippet_tags gs Ho); [vm_compute; reflexivity|means Hf|reflexivity]. Qed.
Lemma f_sn_concluded y : Only snippet_tags gs -> (Reads O (cshape C_Snippet) $"license_concluded" gs (t_opt_license $"Snippet" $"license_concluded") y <-> Default (SaysOptLicense O) T_SnippetLicenseConcluded gs None y).
Proof. intro Ho. apply (field_default O (cshape C_Snippet) $"license_concluded" T_SnippetLicenseConcluded snippet_tags gs Ho); [vm_compute; reflexivity|means Hf|reflexivity]. Qed.
Lemma f_sn_info ys : Only snippet_tags gs -> (forall o, cells $"license_info_in_snippet" (map (the_op O (cshape C_Snippet)) gs) None = Some o -> t_licenses $"Snippet" $"license_info_in_snippet" o = COk ys -> Each (SaysLicense O) T_LicenseInfoInSnippet gs ys /\ (o = None <-> ys = []))
  /\ (Each (SaysLicense O) T_LicenseInfoInSnippet gs ys -> Reads O (cshape C_Snippet) $"license_info_in_snippet" gs (t_licenses $"Snippet" $"license_info_in_snippet") ys /\ (ys <> [] -> cells $"license_info_in_snippet" (map (the_op O (cshape C_Snippet)) gs) None <> Some None)).
Proof.
  intros Ho. destruct (field_each O (cshape C_Snippet) $"license_info_in_snippet" T_LicenseInfoInSnippet snippet_tags gs Ho VLics (fun x y => x = Some y) (t_licenses $"Snippet" $"license_info_in_snippet") (SaysLicense O) ys) as [A B]; [vm_compute; reflexivity|reflexivity|intros a b E; injection E; auto|itemform|means Hf|apply items_license|intros y H; injection H as <-; reflexivity|].
  split; [exact A|]. intro E. apply B; [exact E|left; reflexivity].
Qed.
Lemma f_sn_lic_comment y : Only snippet_tags gs -> (Reads O (cshape C_Snippet) $"license_comment" gs (t_opt_str $"Snippet" $"license_comment") y <-> Optional SaysText T_SnippetLicenseComments gs y).
Proof. intro Ho. apply (field_optional O (cshape C_Snippet) $"license_comment" T_SnippetLicenseComments snippet_tags gs Ho); [vm_compute; reflexivity|means Hf|reflexivity]. Qed.
Lemma f_sn_copyright y : Only snippet_tags gs -> (Reads O (cshape C_Snippet) $"copyright_text" gs (t_opt_nn $"Snippet" $"copyright_text") y <-> Optional SaysWord T_SnippetCopyrightText gs y).
Proof. intro Ho. apply (field_optional O (cshape C_Snippet) $"copyright_text" T_SnippetCopyrightText snippet_tags gs Ho); [vm_compute; reflexivity|means Hf|reflexivity]. Qed.
Lemma f_sn_comment y : Only snippet_tags gs -> (Reads O (cshape C_Snippet) $"comment" gs (t_opt_str $"Snippet" $"comment") y <-> Optional SaysText T_SnippetComment gs y).
Proof. intro Ho. apply (field_optional O (cshape C_Snippet) $"comment" T_SnippetComment snippet_tags gs Ho); [vm_compute; reflexivity|means Hf|reflexivity]. Qed.
Lemma f_sn_name y : Only snippet_tags gs -> (Reads O (cshape C_Snippet) $"name" gs (t_opt_str $"Snippet" $"name") y <-> Optional SaysLine T_SnippetName gs y).
Proof. intro Ho. apply (field_optional O (cshape C_Snippet) $"name" T_SnippetName snippet_tags gs Ho); [vm_compute; reflexivity|means Hf|reflexivity]. Qed.
Lemma f_sn_attribution ys : Only snippet_tags gs -> (forall o, cells $"attribution_texts" (map (the_op O (cshape C_Snippet)) gs) None = Some o -> t_strs $"Snippet" $"attribution_texts" o = COk ys -> Each SaysText T_SnippetAttributionText gs ys /\ (o = None <-> ys = []))
  /\ (Each SaysText T_SnippetAttributionText gs ys -> Reads O (cshape C_Snippet) $"attribution_texts" gs (t_strs $"Snippet" $"attribution_texts") ys /\ (ys <> [] -> cells $"attribution_texts" (map (the_op O (cshape C_Snippet)) gs) None <> Some None)).
Proof.
  intros Ho. destruct (field_each O (cshape C_Snippet) $"attribution_texts" T_SnippetAttributionText snippet_tags gs Ho VStrs eq (t_strs $"Snippet" $"attribution_texts") SaysText ys) as [A B]; [vm_compute; reflexivity|reflexivity|intros a b E; injection E; auto|itemform|means Hf|apply (items_eq VStrs (t_strs $"Snippet" $"attribution_texts")); reflexivity|intros y H; injection H as <-; reflexivity|].
  split; [exact A|]. intro E. apply B; [exact E|left; reflexivity].
Qed.
(** *** annotation *)
Lemma f_an_id s : Only annotation_tags gs -> (Reads O (cshape C_Annotation) $"spdx_id" gs (t_str $"Annotation" $"spdx_id") s <-> IdFrom T_SPDXREF gs s \/ with_tag T_SPDXREF gs = [] /\ LastId gs s).
Proof.
  intro Ho. apply id_from; [discriminate| |apply t_str_iff]. apply (id_cases (cshape C_Annotation) T_SPDXREF annotation_tags gs); [vm_compute; reflexivity|exact Ho|].
  intros g Hg Ht. pose proof (Hf g Hg) as F. unfold val_of. rewrite Ht. cbv beta iota zeta. rewrite line_text; [reflexivity|acc F Ht].
Qed.
Lemma f_an_type y : Only annotation_tags gs -> (Reads O (cshape C_Annotation) $"annotation_type" gs (t_ann_type $"Annotation" $"annotation_type") y <-> One SaysAnnotationType T_AnnotationType gs y).
Proof. intro Ho. apply (field_one O (cshape C_Annotation) $"annotation_type" T_AnnotationType annotation_tags gs Ho); [vm_compute; reflexivity|means Hf|discriminate]. Qed.
Lemma f_an_annotator y : Only annotation_tags gs -> (Reads O (cshape C_Annotation) $"annotator" gs (t_actor $"Annotation" $"annotator") y <-> One SaysActor T_Annotator gs y).
Proof. intro Ho. apply (field_one O (cshape C_Annotation) $"annotator" T_Annotator annotation_tags gs Ho); [vm_compute; reflexivity|means Hf|discriminate]. Qed.
Lemma f_an_date y : Only annotation_tags gs -> (Reads O (cshape C_Annotation) $"annotation_date" gs (t_date $"Annotation" $"annotation_date") y <-> One SaysDate T_AnnotationDate gs y).
Proof. intro Ho. apply (field_one O (cshape C_Annotation) $"annotation_date" T_AnnotationDate annotation_tags gs Ho); [vm_compute; reflexivity|means Hf|discriminate]. Qed.
Lemma f_an_comment y : Only annotation_tags gs -> (Reads O (cshape C_Annotation) $"annotation_comment" gs (t_str $"Annotation" $"annotation_comment") y <-> One SaysText T_AnnotationComment gs y).
Proof. intro Ho. apply (field_one O (cshape C_Annotation) $"annotation_comment" T_AnnotationComment annotation_tags gs Ho); [vm_compute; reflexivity|means Hf|discriminate]. Qed.
(** *** extracted *)
Lemma f_el_id y : Only extracted_tags gs -> (Reads O (cshape C_Extracted) $"license_id" gs (t_opt_str $"ExtractedLicensingInfo" $"license_id") y <-> Optional SaysLine T_LicenseID gs y).
Proof. intro Ho. apply (field_optional O (cshape C_Extracted) $"license_id" T_LicenseID extracted_tags gs Ho); [vm_compute; reflexivity|means Hf|reflexivity]. Qed.
Lemma f_el_text y : Only extracted_tags gs -> (Reads O (cshape C_Extracted) $"extracted_text" gs (t_opt_str $"ExtractedLicensingInfo" $"extracted_text") y <-> Optional SaysText T_ExtractedText gs y).
Proof. intro Ho. apply (field_optional O (cshape C_Extracted) $"extracted_text" T_ExtractedText extracted_tags gs Ho); [vm_compute; reflexivity|means Hf|reflexivity]. Qed.
Lemma f_el_name y : Only extracted_tags gs -> (Reads O (cshape C_Extracted) $"license_name" gs (t_opt_na $"ExtractedLicensingInfo" $"license_name") y <-> Optional SaysName T_LicenseName gs y).
Proof. intro Ho. apply (field_optional O (cshape C_Extracted) $"license_name" T_LicenseName extracted_tags gs Ho); [vm_compute; reflexivity|means Hf|reflexivity]. Qed.
Lemma f_el_xrefs ys : Only extracted_tags gs -> (forall o, cells $"cross_references" (map (the_op O (cshape C_Extracted)) gs) None = Some o -> t_strs $"ExtractedLicensingInfo" $"cross_references" o = COk ys -> Each SaysLine T_LicenseCrossReference gs ys /\ (o = None <-> ys = []))
  /\ (Each SaysLine T_LicenseCrossReference gs ys -> Reads O (cshape C_Extracted) $"cross_references" gs (t_strs $"ExtractedLicensingInfo" $"cross_references") ys /\ (ys <> [] -> cells $"cross_references" (map (the_op O (cshape C_Extracted)) gs) None <> Some None)).
Proof.
  intros Ho. destruct (field_each O (cshape C_Extracted) $"cross_references" T_LicenseCrossReference extracted_tags gs Ho VStrs eq (t_strs $"ExtractedLicensingInfo" $"cross_references") SaysLine ys) as [A B]; [vm_compute; reflexivity|reflexivity|intros a b E; injection E; auto|itemform|means Hf|apply (items_eq VStrs (t_strs $"ExtractedLicensingInfo" $"cross_references")); reflexivity|intros y H; injection H as <-; reflexivity|].
  split; [exact A|]. intro E. apply B; [exact E|left; reflexivity].
Qed.
Lemma f_el_comment y : Only extracted_tags gs -> (Reads O (cshape C_Extracted) $"comment" gs (t_opt_str $"ExtractedLicensingInfo" $"comment") y <-> Optional SaysText T_LicenseComment gs y).
Proof. intro Ho. apply (field_optional O (cshape C_Extracted) $"comment" T_LicenseComment extracted_tags gs Ho); [vm_compute; reflexivity|means Hf|reflexivity]. Qed.
(** *** creation_info *)
Lemma f_ci_version y : Only tag_all gs -> (Reads O ci_shape $"spdx_version" gs (t_str $"CreationInfo" $"spdx_version") y <-> One SaysLine T_SPDXVersion gs y).
Proof. intro Ho. apply (field_one O ci_shape $"spdx_version" T_SPDXVersion tag_all gs Ho); [vm_compute; reflexivity|means Hf|discriminate]. Qed.
Lemma f_ci_id s : Only tag_all gs -> (Reads O ci_shape $"spdx_id" gs (t_str $"CreationInfo" $"spdx_id") s <-> exists g l, with_tag T_SPDXID gs = g :: l /\ SaysLine g s).
Proof. intro Ho. apply (field_first O ci_shape $"spdx_id" T_SPDXID tag_all gs Ho); [vm_compute; reflexivity|apply t_str_iff]. Qed.
Lemma f_ci_name y : Only tag_all gs -> (Reads O ci_shape $"name" gs (t_str $"CreationInfo" $"name") y <-> One SaysLine T_DocumentName gs y).
Proof. intro Ho. apply (field_one O ci_shape $"name" T_DocumentName tag_all gs Ho); [vm_compute; reflexivity|means Hf|discriminate]. Qed.
Lemma f_ci_namespace y : Only tag_all gs -> (Reads O ci_shape $"document_namespace" gs (t_str $"CreationInfo" $"document_namespace") y <-> One SaysLine T_DocumentNamespace gs y).
Proof. intro Ho. apply (field_one O ci_shape $"document_namespace" T_DocumentNamespace tag_all gs Ho); [vm_compute; reflexivity|means Hf|discriminate]. Qed.
Lemma f_ci_creators ys : Only tag_all gs -> (forall o, cells $"creators" (map (the_op O ci_shape) gs) None = Some o -> t_actors $"CreationInfo" $"creators" o = COk ys -> Each SaysActor T_Creator gs ys /\ (o = None <-> ys = []))
  /\ (Each SaysActor T_Creator gs ys -> ys <> [] -> Reads O ci_shape $"creators" gs (t_actors $"CreationInfo" $"creators") ys /\ (ys <> [] -> cells $"creators" (map (the_op O ci_shape) gs) None <> Some None)).
Proof.
  intros Ho. destruct (field_each O ci_shape $"creators" T_Creator tag_all gs Ho VActors eq (t_actors $"CreationInfo" $"creators") SaysActor ys) as [A B]; [vm_compute; reflexivity|reflexivity|intros a b E; injection E; auto|itemform|means Hf|apply (items_eq VActors (t_actors $"CreationInfo" $"creators")); reflexivity|discriminate|].
  split; [exact A|]. intros E N. apply B; [exact E|right; exact N].
Qed.
Lemma f_ci_created y : Only tag_all gs -> (Reads O ci_shape $"created" gs (t_date $"CreationInfo" $"created") y <-> One SaysDate T_Created gs y).
Proof. intro Ho. apply (field_one O ci_shape $"created" T_Created tag_all gs Ho); [vm_compute; reflexivity|means Hf|discriminate]. Qed.
Lemma f_ci_creator_comment y : Only tag_all gs -> (Reads O ci_shape $"creator_comment" gs (t_opt_str $"CreationInfo" $"creator_comment") y <-> Optional SaysText T_CreatorComment gs y).
Proof. intro Ho. apply (field_optional O ci_shape $"creator_comment" T_CreatorComment tag_all gs Ho); [vm_compute; reflexivity|means Hf|reflexivity]. Qed.
Lemma f_ci_data_license y : Only tag_all gs -> (Reads O ci_shape $"data_license" gs (t_data_license $"CreationInfo" $"data_license") y <-> Default SaysLine T_DataLicense gs $"CC0-1.0" y).
Proof. intro Ho. apply (field_default O ci_shape $"data_license" T_DataLicense tag_all gs Ho); [vm_compute; reflexivity| |reflexivity]. intros g y' Hg Ht. unfold val_of. rewrite Ht. apply m_data. Qed.
Lemma f_ci_refs ys : Only tag_all gs -> (forall o, cells $"external_document_refs" (map (the_op O ci_shape) gs) None = Some o -> t_doc_refs $"CreationInfo" $"external_document_refs" o = COk ys -> Each SaysDocRef T_ExternalDocumentRef gs ys /\ (o = None <-> ys = []))
  /\ (Each SaysDocRef T_ExternalDocumentRef gs ys -> Reads O ci_shape $"external_document_refs" gs (t_doc_refs $"CreationInfo" $"external_document_refs") ys /\ (ys <> [] -> cells $"external_document_refs" (map (the_op O ci_shape) gs) None <> Some None)).
Proof.
  intros Ho. destruct (field_each O ci_shape $"external_document_refs" T_ExternalDocumentRef tag_all gs Ho VDocRefs eq (t_doc_refs $"CreationInfo" $"external_document_refs") SaysDocRef ys) as [A B]; [vm_compute; reflexivity|reflexivity|intros a b E; injection E; auto|itemform|means Hf|apply (items_eq VDocRefs (t_doc_refs $"CreationInfo" $"external_document_refs")); reflexivity|intros y H; injection H as <-; reflexivity|].
  split; [exact A|]. intro E. apply B; [exact E|left; reflexivity].
Qed.
Lemma f_ci_list_version y : Only tag_all gs -> (Reads O ci_shape $"license_list_version" gs (t_opt_version $"CreationInfo" $"license_list_version") y <-> Optional SaysVersion T_LicenseListVersion gs y).
Proof. intro Ho. apply (field_optional O ci_shape $"license_list_version" T_LicenseListVersion tag_all gs Ho); [vm_compute; reflexivity|means Hf|reflexivity]. Qed.
Lemma f_ci_doc_comment y : Only tag_all gs -> (Reads O ci_shape $"document_comment" gs (t_opt_str $"CreationInfo" $"document_comment") y <-> Optional SaysText T_DocumentComment gs y).
Proof. intro Ho. apply (field_optional O ci_shape $"document_comment" T_DocumentComment tag_all gs Ho); [vm_compute; reflexivity|means Hf|reflexivity]. Qed.
End Fields.
End WithOracles.
