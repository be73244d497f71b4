(** Every written element is read back (2): whole elements. *)
From Verif Require Import Py PyFacts PyRe PyReFacts Data Oracles Basics BasicsSpec BasicsFacts ActorFacts Json Construct JsonConv JsonParse JsonSpec
  JsonRound TvWriter TvLexer TvSpec TvTokSpec TvLexFacts TvLexValues TvParser TvParseFacts TvFieldFacts TvElemFacts TvSpecialFacts.

(** ** Constructors applied to a table of arguments *)
Definition get (k : pystr) (L : list (pystr * option tval)) : option tval := match assoc k L with Some v => v | None => None end.
Lemma ap_ok {A B} (f : chk (A -> B)) (x : chk A) g a : f = COk g -> x = COk a -> f <*> x = COk (g a).
Proof. intros -> ->. reflexivity. Qed.
Section Args.
Variables (c f : pystr) (k : pystr) (L : list (pystr * option tval)).
Hypothesis D : keys_distinct L = true.
Lemma g_str s : get k L = Some (VStr s) -> t_str c f (assoc k (table L)) = COk s.
Proof. rewrite table_assoc by exact D. unfold get. intros ->. reflexivity. Qed.
Lemma g_opt_str o : get k L = option_map VStr o -> t_opt_str c f (assoc k (table L)) = COk o.
Proof. rewrite table_assoc by exact D. unfold get. intros ->. destruct o; reflexivity. Qed.
Lemma g_nn x : get k L = Some (nn_tval x) -> t_nn c f (assoc k (table L)) = COk x.
Proof. rewrite table_assoc by exact D. unfold get. intros ->. destruct x; reflexivity. Qed.
Lemma g_opt_nn o : get k L = option_map nn_tval o -> t_opt_nn c f (assoc k (table L)) = COk o.
Proof. rewrite table_assoc by exact D. unfold get. intros ->. destruct o as [[]|]; reflexivity. Qed.
Definition na_tval (x : na pystr) : tval := match x with AVal s => VStr s | ANoAssertion => VNoAssertion end.
Lemma g_opt_na o : get k L = option_map na_tval o -> t_opt_na c f (assoc k (table L)) = COk o.
Proof. rewrite table_assoc by exact D. unfold get. intros ->. destruct o as [[]|]; reflexivity. Qed.
Lemma g_opt_actor o : get k L = option_map ana_tval o -> t_opt_actor c f (assoc k (table L)) = COk o.
Proof. rewrite table_assoc by exact D. unfold get. intros ->. destruct o as [[]|]; reflexivity. Qed.
Lemma g_opt_license o : get k L = option_map lic_tval o -> t_opt_license c f (assoc k (table L)) = COk o.
Proof. rewrite table_assoc by exact D. unfold get. intros ->. destruct o as [[]|]; reflexivity. Qed.
Lemma g_strs l : get k L = entry VStrs l -> t_strs c f (assoc k (table L)) = COk l.
Proof. rewrite table_assoc by exact D. unfold get. intros ->. destruct l; reflexivity. Qed.
Lemma c_items_some {A} (l : list A) : c_items c f (map Some l) = COk l.
Proof. unfold c_items. assert (E : all_some (map Some l) = Some l) by (induction l as [|x l IH]; cbn; [|rewrite IH]; reflexivity). rewrite E. reflexivity. Qed.
Lemma g_licenses l : get k L = entry VLicenses l -> t_licenses c f (assoc k (table L)) = COk l.
Proof. rewrite table_assoc by exact D. unfold get. intros ->. destruct l; [reflexivity|]. apply c_items_some. Qed.
Lemma g_types l : get k L = entry VTypes l -> t_types c f (assoc k (table L)) = COk l.
Proof. rewrite table_assoc by exact D. unfold get. intros ->. destruct l; reflexivity. Qed.
Lemma g_checksums l : get k L = entry VChecksums l -> t_checksums c f (assoc k (table L)) = COk l.
Proof. rewrite table_assoc by exact D. unfold get. intros ->. destruct l; reflexivity. Qed.
Lemma g_ext_refs l : get k L = entry VExtRefs l -> t_ext_refs c f (assoc k (table L)) = COk l.
Proof. rewrite table_assoc by exact D. unfold get. intros ->. destruct l; reflexivity. Qed.
Lemma g_doc_refs l : get k L = entry VDocRefs l -> t_doc_refs c f (assoc k (table L)) = COk l.
Proof. rewrite table_assoc by exact D. unfold get. intros ->. destruct l; reflexivity. Qed.
Lemma g_actors l : get k L = Some (VActors l) -> t_actors c f (assoc k (table L)) = COk l.
Proof. rewrite table_assoc by exact D. unfold get. intros ->. reflexivity. Qed.
Lemma g_actor a : get k L = Some (VActor a) -> t_actor c f (assoc k (table L)) = COk a.
Proof. rewrite table_assoc by exact D. unfold get. intros ->. reflexivity. Qed.
Lemma g_date d : get k L = Some (VDate d) -> t_date c f (assoc k (table L)) = COk d.
Proof. rewrite table_assoc by exact D. unfold get. intros ->. reflexivity. Qed.
Lemma g_opt_date o : get k L = option_map VDate o -> t_opt_date c f (assoc k (table L)) = COk o.
Proof. rewrite table_assoc by exact D. unfold get. intros ->. destruct o; reflexivity. Qed.
Lemma g_opt_version o : get k L = option_map VVersion o -> t_opt_version c f (assoc k (table L)) = COk o.
Proof. rewrite table_assoc by exact D. unfold get. intros ->. destruct o; reflexivity. Qed.
Lemma g_files_analyzed x : get k L = Some (VBool x) -> t_files_analyzed c f (assoc k (table L)) = COk x.
Proof. rewrite table_assoc by exact D. unfold get. intros ->. reflexivity. Qed.
Lemma g_opt_verif o : get k L = option_map VVerif o -> t_opt_verif c f (assoc k (table L)) = COk o.
Proof. rewrite table_assoc by exact D. unfold get. intros ->. destruct o; reflexivity. Qed.
Lemma g_opt_purpose o : get k L = option_map VPurpose o -> t_opt_purpose c f (assoc k (table L)) = COk o.
Proof. rewrite table_assoc by exact D. unfold get. intros ->. destruct o; reflexivity. Qed.
Lemma g_range r : get k L = Some (VRange' r) -> t_range c f (assoc k (table L)) = COk r.
Proof. rewrite table_assoc by exact D. unfold get. intros ->. destruct r; reflexivity. Qed.
Lemma g_opt_range o : get k L = option_map VRange' o -> t_opt_range c f (assoc k (table L)) = COk o.
Proof. rewrite table_assoc by exact D. unfold get. intros ->. destruct o as [[]|]; reflexivity. Qed.
Lemma g_ann_type t : get k L = Some (VAnnType t) -> t_ann_type c f (assoc k (table L)) = COk t.
Proof. rewrite table_assoc by exact D. unfold get. intros ->. reflexivity. Qed.
Lemma g_rel_type t : get k L = Some (VRelType t) -> t_rel_type c f (assoc k (table L)) = COk t.
Proof. rewrite table_assoc by exact D. unfold get. intros ->. reflexivity. Qed.
End Args.
Ltac args D := first
  [ apply (ap_ok _ _ _ _); [args D|args D] | reflexivity
  | apply (g_str _ _ _ _ D); reflexivity | apply (g_opt_str _ _ _ _ D); reflexivity | apply (g_nn _ _ _ _ D); reflexivity
  | apply (g_opt_nn _ _ _ _ D); reflexivity | apply (g_opt_na _ _ _ _ D); reflexivity | apply (g_opt_actor _ _ _ _ D); reflexivity
  | apply (g_opt_license _ _ _ _ D); reflexivity | apply (g_strs _ _ _ _ D); reflexivity | apply (g_licenses _ _ _ _ D); reflexivity
  | apply (g_types _ _ _ _ D); reflexivity | apply (g_checksums _ _ _ _ D); reflexivity | apply (g_ext_refs _ _ _ _ D); reflexivity
  | apply (g_doc_refs _ _ _ _ D); reflexivity | apply (g_actors _ _ _ _ D); reflexivity | apply (g_actor _ _ _ _ D); reflexivity
  | apply (g_date _ _ _ _ D); reflexivity | apply (g_opt_date _ _ _ _ D); reflexivity | apply (g_opt_version _ _ _ _ D); reflexivity
  | apply (g_files_analyzed _ _ _ _ D); reflexivity | apply (g_opt_verif _ _ _ _ D); reflexivity | apply (g_opt_purpose _ _ _ _ D); reflexivity
  | apply (g_range _ _ _ _ D); reflexivity | apply (g_opt_range _ _ _ _ D); reflexivity | apply (g_ann_type _ _ _ _ D); reflexivity
  | apply (g_rel_type _ _ _ _ D); reflexivity ].

(** ** Completing an element *)
Definition add_package (p : package) (b : built) : built := set_packages (opt_list (b_packages b) ++ [p]) b.
Definition add_snippet (s : snippet) (b : built) : built := set_snippets (b_snippets b ++ [s]) b.
Definition add_annotation (a : annotation) (b : built) : built := set_annotations (b_annotations b ++ [a]) b.
Definition add_relationship (r : relationship) (b : built) : built := set_relationships (b_relationships b ++ [r]) b.
Definition add_extracted (e : extracted) (b : built) : built := set_extracted (b_extracted b ++ [e]) b.
Definition add_contains (f : file) (b : built) : built :=
  match rev (opt_list (b_packages b)) with
  | [] => b
  | p :: _ => if rel_in (contains_rel p f) (b_relationships b) then b else add_relationship (contains_rel p f) b
  end.
Definition add_file (f : file) (b : built) : built := add_contains f (set_files (b_files b ++ [f]) b).
(** the packages are never an empty list *)
Definition Sane (b : built) : Prop := b_packages b <> Some [].

Lemma closed_package b ci L p : construct_package (table L) = Ok p -> Closed (est b ci C_Package L) ci (add_package p b).
Proof. intro H. split; auto. unfold construct_current_element. cbn [ps_class est ps_cur_log raise_if_named raise_if build_element ps_cur]. rewrite H. reflexivity. Qed.
Lemma closed_snippet b ci L p : construct_snippet (table L) = Ok p -> Closed (est b ci C_Snippet L) ci (add_snippet p b).
Proof. intro H. split; auto. unfold construct_current_element. cbn [ps_class est ps_cur_log raise_if_named raise_if build_element ps_cur]. rewrite H. reflexivity. Qed.
Lemma closed_annotation b ci L p : construct_annotation (table L) = Ok p -> Closed (est b ci C_Annotation L) ci (add_annotation p b).
Proof. intro H. split; auto. unfold construct_current_element. cbn [ps_class est ps_cur_log raise_if_named raise_if build_element ps_cur]. rewrite H. reflexivity. Qed.
Lemma closed_relationship b ci L p : construct_relationship (table L) = Ok p -> Closed (est b ci C_Relationship L) ci (add_relationship p b).
Proof. intro H. split; auto. unfold construct_current_element. cbn [ps_class est ps_cur_log raise_if_named raise_if build_element ps_cur]. rewrite H. reflexivity. Qed.
Lemma closed_extracted b ci L p : construct_extracted (table L) = Ok p -> Closed (est b ci C_Extracted L) ci (add_extracted p b).
Proof. intro H. split; auto. unfold construct_current_element. cbn [ps_class est ps_cur_log raise_if_named raise_if build_element ps_cur]. rewrite H. reflexivity. Qed.
Lemma closed_file b ci L f : Sane b -> construct_file (table L) = Ok f -> Closed (est b ci C_File L) ci (add_file f b).
Proof.
  intros Hb H. split; auto. unfold construct_current_element. cbn [ps_class est ps_cur_log raise_if_named raise_if build_element ps_cur]. rewrite H.
  cbn [add_element bind]. unfold add_file, add_contains, build_contains. cbn [ps_built est with_built set_files b_packages b_relationships].
  destruct (b_packages b) as [l|] eqn:E; cbn [opt_list rev]; [|reflexivity].
  destruct (rev l) as [|p l'] eqn:Er.
  - exfalso. apply Hb. rewrite E. rewrite <- (rev_involutive l), Er. reflexivity.
  - fold (contains_rel p f). destruct (rel_in _ _); [reflexivity|].
    unfold new_element, with_built, base, add_relationship, set_relationships, set_files, est.
    cbn [ps_log ps_class ps_cur_log ps_cur ps_ci_log ps_ci ps_built b_packages b_files b_snippets b_annotations b_relationships b_extracted].
    rewrite E. reflexivity.
Qed.

Lemma construct_ok {A} cls (c : chk A) x : c = COk x -> construct cls c = Ok x.
Proof. intros ->. reflexivity. Qed.

Section WithOracles.
Variable O : oracles.
Notation Steps := (Steps O).

(** after the document, w adds an element *)
Definition Adds (w : result pystr) (u : built -> built) : Prop :=
  forall st ci b y, assoc $"spdx_id" ci = Some y -> Sane b -> Closed st ci b -> exists st', Steps w st st' /\ Closed st' ci (u b).

Section Opt.
Variables (b : built) (ci : tdict) (c : clazz) (L : list (pystr * option tval)).
Notation st := (est b ci c L).
Lemma f_opt_line t o f : IfSome Line o -> value_kind t = Some K_line -> tag_data_model_field t = Some (Some c, f) -> is_start_tag t = false ->
  str_in f (map fst L) = false -> (forall line v, act O t line (line_tok v) None st = generic_value t line v (Ok (VStr v)) st) ->
  Steps (write_opt (tag_name t) o) st (est b ci c (L ++ [(f, option_map VStr o)])).
Proof. intros H Hk Hf Hs Hn Ha. unfold write_opt. apply (optional O Line); auto. intros v Hv. apply f_line; auto. Qed.
Lemma f_opt_text t o f : IfSome Text o -> value_kind t = Some K_text_or_line -> tag_data_model_field t = Some (Some c, f) -> is_start_tag t = false ->
  str_in f (map fst L) = false ->
  (forall line k, act O t line k None st = generic_value t line (text_or_line_value k) (Ok (VStr (text_or_line_value k))) st) ->
  Steps (write_opt_text (tag_name t) o) st (est b ci c (L ++ [(f, option_map VStr o)])).
Proof. intros H Hk Hf Hs Hn Ha. unfold write_opt_text. apply (optional O Text); auto. intros v Hv. apply f_text; auto. Qed.
Lemma f_opt_nn t o f : IfSome TvLine o -> value_kind t = Some K_line_or_na_or_none -> tag_data_model_field t = Some (Some c, f) -> is_start_tag t = false ->
  str_in f (map fst L) = false -> (forall line k, act O t line k None st = generic_value t line (tk_value k) (Ok (line_value k)) st) ->
  Steps (write_opt (tag_name t) (option_map text_str o)) st (est b ci c (L ++ [(f, option_map nn_tval o)])).
Proof. intros H Hk Hf Hs Hn Ha. rewrite write_opt_eq. apply (optional O TvLine); auto. intros v Hv. apply f_nn; auto. Qed.
End Opt.

Theorem adds_package p : TvPackage O p -> Adds (write_package O p) (add_package p).
Proof.
  intros [[H1 _] H2 H3 H4 H5 H6 H7 H8 H9 H10 H11 H12 H13 H14 H15 H16 H17 H18 H19 H20 H21 H22 H23 H24] st ci b y Hy Hs Hc.
  eexists. split.
  - unfold write_package.
    eapply Steps_writes; [apply (Steps_heading O $"# Package Information"); reflexivity|].
    eapply Steps_writes; [apply (start_generic O T_PackageName K_line (pk_name p) (line_tok (pk_name p)) (VStr (pk_name p)) st b ci C_Package $"name");
      auto using ValTok_line, line_CR; try (intro line; exists (pk_name p); reflexivity)|].
    eapply Steps_writes; [eapply f_spdx_id; eauto; reflexivity|].
    eapply Steps_writes; [apply (f_opt_line _ _ _ _ T_PackageVersion _ $"version"); auto|].
    eapply Steps_writes; [apply (f_opt_line _ _ _ _ T_PackageFileName _ $"file_name"); auto|].
    eapply Steps_writes; [apply (f_opt_actor O _ _ _ _ T_PackageSupplier _ $"supplier"); auto|].
    eapply Steps_writes; [apply (f_opt_actor O _ _ _ _ T_PackageOriginator _ $"originator"); auto|].
    eapply Steps_writes; [apply (f_nn O _ _ _ _ T_PackageDownloadLocation _ $"download_location"); auto|].
    eapply Steps_writes; [apply f_files_analyzed; auto|].
    eapply Steps_writes; [apply f_verif; auto|].
    eapply Steps_writes; [apply (f_checksums O _ _ _ _ T_PackageChecksum); auto|].
    eapply Steps_writes; [apply (f_opt_nn _ _ _ _ T_PackageHomePage _ $"homepage"); auto|].
    eapply Steps_writes; [apply (f_opt_text _ _ _ _ T_PackageSourceInfo _ $"source_info"); auto|].
    eapply Steps_writes; [apply (f_opt_license O _ _ _ _ T_PackageLicenseConcluded _ $"license_concluded"); auto|].
    eapply Steps_writes; [apply (f_licenses O _ _ _ _ T_PackageLicenseInfoFromFiles _ $"license_info_from_files"); auto|].
    eapply Steps_writes; [apply (f_opt_license O _ _ _ _ T_PackageLicenseDeclared _ $"license_declared"); auto|].
    eapply Steps_writes; [apply (f_opt_text _ _ _ _ T_PackageLicenseComments _ $"license_comment"); auto|].
    eapply Steps_writes; [apply (f_text_value O _ _ _ _ T_PackageCopyrightText _ $"copyright_text"); auto|].
    eapply Steps_writes; [apply (f_opt_text _ _ _ _ T_PackageSummary _ $"summary"); auto|].
    eapply Steps_writes; [apply (f_opt_text _ _ _ _ T_PackageDescription _ $"description"); auto|].
    eapply Steps_writes; [apply (f_opt_text _ _ _ _ T_PackageComment _ $"comment"); auto|].
    eapply Steps_writes; [apply f_ext_refs; auto|].
    eapply Steps_writes; [apply (f_texts O _ _ _ _ T_PackageAttributionText _ $"attribution_texts"); auto|].
    eapply Steps_writes; [apply f_purpose; auto|].
    eapply Steps_writes; [apply (f_opt_date O _ _ _ _ T_ReleaseDate _ $"release_date"); auto|].
    eapply Steps_writes; [apply (f_opt_date O _ _ _ _ T_BuiltDate _ $"built_date"); auto|].
    eapply Steps_writes; [apply (f_opt_date O _ _ _ _ T_ValidUntilDate _ $"valid_until_date"); auto|].
    apply Steps_done.
  - cbn [app]. apply closed_package. unfold construct_package. rewrite kwargs_table by reflexivity. apply construct_ok.
    match goal with |- context [table ?L] => assert (D : keys_distinct L = true) by reflexivity end.
    transitivity (COk (Build_package (pk_id p) (pk_name p) (pk_download p) (pk_version p) (pk_file_name p) (pk_supplier p) (pk_originator p)
      (pk_files_analyzed p) (pk_verif p) (pk_checksums p) (pk_homepage p) (pk_source_info p) (pk_concluded p) (pk_info p) (pk_declared p)
      (pk_lic_comment p) (pk_copyright p) (pk_summary p) (pk_description p) (pk_comment p) (pk_refs p) (pk_attribution p) (pk_purpose p)
      (pk_release p) (pk_built p) (pk_valid_until p))); [|destruct p; reflexivity].
    args D.
Qed.
End WithOracles.
