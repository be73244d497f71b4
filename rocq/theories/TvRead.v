(** Reading tag-value attributes without any message: the effect of each attribute on the parser's state. *)
From Verif Require Import Py PyFacts PyRe Data Oracles Basics Json Construct JsonConv JsonParse JsonSpec
  TvWriter TvLexer TvSpec TvTokSpec TvLexFacts TvLexValues TvParser TvParseFacts TvErrors TvRepeat.

(** no message so far *)
Definition quiet (st : pstate) : Prop := ps_log st = [] /\ ps_cur_log st = [] /\ ps_ci_log st = [].

(** ** Where values are kept *)
Inductive slot :=
| L_CiSet (n : pystr) | L_CiApp (n : pystr) | L_Set (c : clazz) (n : pystr) | L_App (c : clazz) (n : pystr)
| L_Start (c : clazz) (n : pystr) | L_Id | L_Rel | L_None.
Definition slot_of (t : tag) : slot :=
  match t with
  | T_SPDXID => L_Id
  | T_Relationship => L_Rel
  | T_RelationshipComment | T_ExternalRefComment => L_None
  | T_DocumentComment | T_CreatorComment | T_DocumentNamespace | T_DataLicense | T_SPDXVersion | T_DocumentName
  | T_LicenseListVersion | T_Created => L_CiSet (get_property_name t)
  | T_ExternalDocumentRef => L_CiApp $"external_document_refs"
  | T_Creator => L_CiApp $"creators"
  | T_LicenseCrossReference => L_App C_Extracted $"cross_references"
  | T_FileContributor => L_App C_File $"contributors"
  | T_FileAttributionText => L_App C_File $"attribution_texts"
  | T_LicenseInfoInFile => L_App C_File $"license_info_in_file"
  | T_FileType => L_App C_File $"file_types"
  | T_FileChecksum => L_App C_File $"checksums"
  | T_PackageAttributionText => L_App C_Package $"attribution_texts"
  | T_ExternalRef => L_App C_Package $"external_references"
  | T_PackageLicenseInfoFromFiles => L_App C_Package $"license_info_from_files"
  | T_PackageChecksum => L_App C_Package $"checksums"
  | T_SnippetAttributionText => L_App C_Snippet $"attribution_texts"
  | T_LicenseInfoInSnippet => L_App C_Snippet $"license_info_in_snippet"
  | T_PackageVerificationCode => L_Set C_Package $"verification_code"
  | T_FilesAnalyzed => L_Set C_Package $"files_analyzed"
  | T_PackageName => L_Start C_Package $"name"
  | T_FileName => L_Start C_File $"name"
  | T_SnippetSPDXID => L_Start C_Snippet $"spdx_id"
  | T_LicenseID => L_Start C_Extracted $"license_id"
  | T_Annotator => L_Start C_Annotation $"annotator"
  | T_AnnotationDate | T_AnnotationComment | T_AnnotationType | T_SPDXREF => L_Set C_Annotation (get_property_name t)
  | T_LicenseConcluded | T_FileCopyrightText | T_LicenseComments | T_FileComment | T_FileNotice =>
      L_Set C_File (get_property_name t)
  | T_ExtractedText | T_LicenseName | T_LicenseComment => L_Set C_Extracted (get_property_name t)
  | T_SnippetName | T_SnippetComment | T_SnippetCopyrightText | T_SnippetLicenseComments | T_SnippetFromFileSPDXID
  | T_SnippetLicenseConcluded | T_SnippetByteRange | T_SnippetLineRange => L_Set C_Snippet (get_property_name t)
  | _ => L_Set C_Package (get_property_name t)
  end.

Section WithOracles.
Variable O : oracles.
(** ** Values that are read without a message *)
Definition good {A} (r : result A) : option A := match r with Ok a => Some a | Raise _ => None end.
Definition quiet_license (k : token) : option (option license) :=
  match license_value O k with Ok ([], l) => Some l | _ => None end.
Definition doc_ref_of (v : pystr) : option ext_doc_ref :=
  match re_match ext_doc_ref_re v with
  | None => None
  | Some g => match split_on #" " (strip (group_or_empty 1 g)) with
              | [id; uri] => match tv_parse_checksum (strip (group_or_empty 2 g)) with
                             | Ok c => Some {| edr_id := id; edr_uri := uri; edr_checksum := c |}
                             | Raise _ => None
                             end
              | _ => None
              end
  end.
Definition ext_ref_of (v : pystr) (comment : option pystr) : option ext_pkg_ref :=
  match split_on #" " v with
  | [category; ty; locator] =>
      option_map (fun c => {| er_category := c; er_type := ty; er_locator := locator; er_comment := comment |})
        (enum_lookup ref_category_all ref_category_name (replace $"-" $"_" category))
  | _ => None
  end.
Definition code_of (v : pystr) : option verif_code :=
  match re_match verif_code_re v with
  | None => None
  | Some g => Some {| vc_value := group_or_empty 1 g;
                      vc_excluded := match group 3 g with Some ((_ :: _) as x) => split_on #"," x | _ => [] end |}
  end.
Definition range_of (v : pystr) : option tval :=
  match re_match range_re (strip v) with
  | None => None
  | Some _ => match dec_val (hd [] (split_on #":" v)), dec_val (last (split_on #":" v) []) with
              | Some a, Some b => Some (VRange (Z.of_N a) (Z.of_N b))
              | _, _ => None
              end
  end.
Definition val_of (g : grp) : option tval :=
  let k := g_val g in
  let v := tk_value k in
  let txt := text_or_line_value k in
  match g_tag g with
  | T_DocumentNamespace | T_DataLicense | T_SPDXVersion | T_DocumentName | T_SPDXID => Some (VStr v)
  | T_LicenseListVersion => option_map VVersion (good (version_from_string v))
  | T_ExternalDocumentRef => option_map (fun r => VDocRefs [r]) (doc_ref_of v)
  | T_Creator => option_map (fun a => VActors [a]) (good (parse_actor v))
  | T_Created | T_BuiltDate | T_ReleaseDate | T_ValidUntilDate | T_AnnotationDate =>
      option_map VDate (good (datetime_from_str v))
  | T_LicenseCrossReference | T_FileContributor => Some (VStrs [v])
  | T_FileAttributionText | T_PackageAttributionText | T_SnippetAttributionText => Some (VStrs [txt])
  | T_LicenseInfoInFile | T_PackageLicenseInfoFromFiles | T_LicenseInfoInSnippet =>
      option_map (fun l => VLics [l]) (quiet_license k)
  | T_FileType => option_map (fun t => VTypes [t]) (enum_lookup file_type_all file_type_name (strip v))
  | T_FileChecksum | T_PackageChecksum => option_map (fun c => VChecksums [c]) (good (tv_parse_checksum v))
  | T_ExternalRef => option_map (fun r => VExtRefs [r]) (ext_ref_of v (option_map text_or_line_value (g_com g)))
  | T_PackageVerificationCode => option_map VVerif (code_of v)
  | T_FilesAnalyzed =>
      if str_eqb v $"true" then Some (VBool true) else if str_eqb v $"false" then Some (VBool false) else None
  | T_PrimaryPackagePurpose => option_map VPurpose (enum_lookup purpose_all purpose_name (replace $"-" $"_" v))
  | T_SnippetByteRange | T_SnippetLineRange => range_of v
  | T_Annotator => option_map VActor (good (parse_actor v))
  | T_AnnotationType => option_map VAnnType (enum_lookup annotation_type_all annotation_type_name v)
  | T_LicenseConcluded | T_PackageLicenseDeclared | T_PackageLicenseConcluded | T_SnippetLicenseConcluded =>
      option_map license_tval (quiet_license k)
  | T_PackageOriginator | T_PackageSupplier => good (actor_value k)
  | T_FileCopyrightText | T_PackageHomePage | T_PackageDownloadLocation | T_PackageCopyrightText
  | T_SnippetCopyrightText | T_LicenseName => Some (line_value k)
  | _ => Some (VStr txt)
  end.
(** the dictionary of a relationship *)
Definition rel_put (g : grp) (d : tdict) : option tdict :=
  match split_on #" " (tk_value (g_val g)) with
  | [id; ty; related] =>
      match enum_lookup rel_type_all rel_type_name ty with
      | Some t =>
          let r := if str_eqb related $"NONE" then VNone
                   else if str_eqb related $"NOASSERTION" then VNoAssertion else VStr related in
          let d := dict_set $"spdx_element_id" (VStr id)
                     (dict_set $"related_spdx_element_id" r (dict_set $"relationship_type" (VRelType t) d)) in
          Some (match option_map text_or_line_value (g_com g) with Some c => dict_set $"comment" (VStr c) d | None => d end)
      | None => None
      end
  | _ => None
  end.

(** ** Effects *)
Definition put_once (n : pystr) (v : option tval) (d : tdict) : option tdict :=
  match v, assoc n d with Some x, None => Some (dict_set n x d) | _, _ => None end.
Definition put_more (n : pystr) (v : option tval) (d : tdict) : option tdict :=
  match v with
  | Some x => match append_val (assoc n d) x with Ok y => Some (dict_set n y d) | Raise _ => None end
  | None => None
  end.
Definition flush (st : pstate) : option pstate :=
  match construct_current_element st with
  | Ok st' => match ps_log st' with [] => Some st' | _ => None end
  | Raise _ => None
  end.
Definition effect (g : grp) (st : pstate) : option pstate :=
  match slot_of (g_tag g) with
  | L_CiSet n => option_map (fun d => with_ci d st) (put_once n (val_of g) (ps_ci st))
  | L_CiApp n => option_map (fun d => with_ci d st) (put_more n (val_of g) (ps_ci st))
  | L_Set c n => if matches_class c st then option_map (fun d => with_cur d st) (put_once n (val_of g) (ps_cur st)) else None
  | L_App c n => if matches_class c st then option_map (fun d => with_cur d st) (put_more n (val_of g) (ps_cur st)) else None
  | L_Start c n =>
      match flush st with
      | Some st1 => option_map (fun d => with_cur d (with_class c st1)) (put_once n (val_of g) (ps_cur st1))
      | None => None
      end
  | L_Id => Some (spdx_id_action (tk_value (g_val g)) st)
  | L_Rel =>
      match flush st with
      | Some st1 => option_map (fun d => with_cur d (with_class C_Relationship st1)) (rel_put g (ps_cur st1))
      | None => None
      end
  | L_None => None
  end.

(** ** Messages are bad *)
Lemma state_eta st : st = {| ps_log := ps_log st; ps_class := ps_class st; ps_cur_log := ps_cur_log st; ps_cur := ps_cur st;
  ps_ci_log := ps_ci_log st; ps_ci := ps_ci st; ps_built := ps_built st |}.
Proof. destruct st; reflexivity. Qed.
Lemma log_nil st : log [] st = st.
Proof. unfold log. rewrite app_nil_r. symmetry. apply state_eta. Qed.
Lemma log_cur_nil st : log_cur [] st = st.
Proof. unfold log_cur. rewrite app_nil_r. symmetry. apply state_eta. Qed.
Lemma log_ci_nil st : log_ci [] st = st.
Proof. unfold log_ci. rewrite app_nil_r. symmetry. apply state_eta. Qed.
Lemma app_end {A} (l : list A) m : l ++ [m] <> [].
Proof. destruct l; discriminate. Qed.
Lemma bad_log m st : Bad (log [m] st).
Proof. left. cbn. apply app_end. Qed.
Lemma bad_log_ci m st : Bad (log_ci [m] st).
Proof. right. left. cbn. apply app_end. Qed.
Lemma bad_log_cur m st : ps_class st <> None -> Bad (log_cur [m] st).
Proof. right. right. split; cbn; auto. apply app_end. Qed.
Lemma matches_some c st : matches_class c st = true -> ps_class st = Some c.
Proof. unfold matches_class. destruct (ps_class st) as [x|]; [|discriminate]. unfold clazz_eqb. destruct (clazz_eq_dec c x); congruence. Qed.
Lemma quiet_not_bad st : quiet st -> ~ Bad st.
Proof. intros (A & B & C) [H|[H|[H _]]]; contradiction. Qed.

Lemma set_value_quiet t line shown v d d' : set_value t line shown v d = Ok ([], d') <-> put_once (get_property_name t) (good v) d = Some d'.
Proof.
  unfold set_value, put_once. destruct (assoc (get_property_name t) d) as [x|].
  - split; [discriminate|]. destruct (good v); discriminate.
  - destruct v as [x|e]; cbn [good].
    + split; intro H; injection H as <-; reflexivity.
    + split; [|discriminate]. destruct e; discriminate.
Qed.
Lemma set_value_messages t line shown v d ms d' : set_value t line shown v d = Ok (ms, d') -> ms = [] \/ exists m, ms = [m].
Proof.
  intro H. apply set_value_cases in H as [(_ & -> & _)|[(_ & x & _ & -> & _)|(_ & (m & ->) & _)]]; eauto.
Qed.
Lemma set_cur_effect t line shown v st st' : ps_class st <> None -> quiet st ->
  (set_cur t line shown v st = Ok st' /\ ~ Bad st' <-> option_map (fun d => with_cur d st) (put_once (get_property_name t) (good v) (ps_cur st)) = Some st').
Proof.
  intros C Q. unfold set_cur. split.
  - intros [H B]. destruct (set_value t line shown v (ps_cur st)) as [[ms d]|] eqn:E; [|discriminate H]. cbn [bind] in H. injection H as <-.
    destruct (set_value_messages _ _ _ _ _ _ _ E) as [->|[m ->]].
    + apply set_value_quiet in E. rewrite E, log_cur_nil. reflexivity.
    + exfalso. apply B. apply bad_log_cur. exact C.
  - destruct (put_once _ _ _) as [d|] eqn:E; [|discriminate]. cbn [option_map]. intro H. injection H as <-. apply (set_value_quiet t line shown) in E.
    rewrite E. cbn [bind]. rewrite log_cur_nil. split; auto. apply quiet_not_bad. exact Q.
Qed.
Lemma set_ci_effect t line shown v st st' : quiet st ->
  (set_ci t line shown v st = Ok st' /\ ~ Bad st' <-> option_map (fun d => with_ci d st) (put_once (get_property_name t) (good v) (ps_ci st)) = Some st').
Proof.
  intros Q. unfold set_ci. split.
  - intros [H B]. destruct (set_value t line shown v (ps_ci st)) as [[ms d]|] eqn:E; [|discriminate H]. cbn [bind] in H. injection H as <-.
    destruct (set_value_messages _ _ _ _ _ _ _ E) as [->|[m ->]].
    + apply set_value_quiet in E. rewrite E, log_ci_nil. reflexivity.
    + exfalso. apply B. apply bad_log_ci.
  - destruct (put_once _ _ _) as [d|] eqn:E; [|discriminate]. cbn [option_map]. intro H. injection H as <-. apply (set_value_quiet t line shown) in E.
    rewrite E. cbn [bind]. rewrite log_ci_nil. split; auto. apply quiet_not_bad. exact Q.
Qed.
Lemma append_cur_effect n v st st' : quiet st ->
  (append_cur n v st = Ok st' /\ ~ Bad st' <-> option_map (fun d => with_cur d st) (put_more n (Some v) (ps_cur st)) = Some st').
Proof.
  intros Q. unfold append_cur, put_more. destruct (append_val _ v) as [x|e]; cbn [bind option_map]; split.
  - intros [H _]. injection H as <-. reflexivity.
  - intro H. injection H as <-. split; auto. apply quiet_not_bad. exact Q.
  - intros [H _]. discriminate.
  - discriminate.
Qed.
Lemma append_ci_effect n v st st' : quiet st ->
  (append_ci n v st = Ok st' /\ ~ Bad st' <-> option_map (fun d => with_ci d st) (put_more n (Some v) (ps_ci st)) = Some st').
Proof.
  intros Q. unfold append_ci, put_more. destruct (append_val _ v) as [x|e]; cbn [bind option_map]; split.
  - intros [H _]. injection H as <-. reflexivity.
  - intro H. injection H as <-. split; auto. apply quiet_not_bad. exact Q.
  - intros [H _]. discriminate.
  - discriminate.
Qed.
(** an action in the scope of a class *)
Lemma in_class_effect c line st body st' (r : option pstate) :
  (ps_class st = Some c -> (body st = Ok st' /\ ~ Bad st' <-> r = Some st')) ->
  (in_class c line st body = Ok st' /\ ~ Bad st' <-> (if matches_class c st then r else None) = Some st').
Proof.
  intro H. unfold in_class. destruct (matches_class c st) eqn:E.
  - apply H. apply matches_some. exact E.
  - split; [|discriminate]. intros [K B]. injection K as <-. destruct B. apply bad_log.
Qed.
Lemma put_once_none n d : put_once n None d = None. Proof. reflexivity. Qed.
Lemma put_more_none n d : put_more n None d = None. Proof. reflexivity. Qed.
Lemma never (r : result pstate) st' : (forall st1, r = Ok st1 -> Bad st1) -> (r = Ok st' /\ ~ Bad st' <-> None = Some st').
Proof. intro H. split; [|discriminate]. intros [K B]. destruct B. auto. Qed.

(** ** Beginning an element *)
Lemma build_contains_other i st : ps_ci_log (build_contains i st) = ps_ci_log st /\ ps_cur_log (build_contains i st) = ps_cur_log st.
Proof. unfold build_contains. destruct (b_packages (ps_built st)) as [l|]; [|auto]. destruct (rev l); [auto|]. destruct (rel_in _ _); auto. Qed.
Lemma build_other c st st' : build_element c st = Ok st' -> ps_ci_log st' = ps_ci_log st.
Proof.
  intro H. destruct c; cbn [build_element] in H; unfold add_element in H; destruct (_ (ps_cur st)) as [x|[]]; try discriminate H; injection H as <-; auto.
  exact (proj1 (build_contains_other (fi_id x) (with_built (set_files (b_files (ps_built st) ++ [x]) (ps_built st)) st))).
Qed.
Lemma construct_other st st' : construct_current_element st = Ok st' -> ps_ci_log st' = ps_ci_log st /\ (ps_cur_log st = [] -> ps_cur_log st' = []).
Proof.
  unfold construct_current_element. destruct (ps_class st) as [c|] eqn:Ec.
  - unfold raise_if_named. destruct (ps_cur_log st) as [|m ms] eqn:El.
    + destruct (build_element c st) as [st1|] eqn:E; [|discriminate]. cbn [bind]. intro H. injection H as <-. apply build_other in E. auto.
    + cbn [bind]. intro H. injection H as <-. auto.
  - intro H. injection H as <-. auto.
Qed.
Lemma flush_iff st st1 : flush st = Some st1 <-> construct_current_element st = Ok st1 /\ ps_log st1 = [].
Proof.
  unfold flush. destruct (construct_current_element st) as [x|]; [|split; [discriminate|intros [H _]; discriminate]].
  destruct (ps_log x) eqn:E; split; try discriminate.
  - intro H. injection H as <-. auto.
  - intros [H _]. injection H as <-. reflexivity.
  - intros [H K]. injection H as <-. congruence.
Qed.
Lemma flush_quiet st st1 : quiet st -> flush st = Some st1 -> quiet st1.
Proof.
  intros (_ & B & C) H. apply flush_iff in H as [H K]. apply construct_other in H as [H1 H2]. split; [exact K|]. split; [auto|congruence].
Qed.
Lemma start_effect c st body r st' : quiet st ->
  (forall st1, flush st = Some st1 -> (body (with_class c st1) = Ok st' /\ ~ Bad st' <-> r st1 = Some st')) ->
  (forall st1, body st1 = Ok st' -> Bad st1 -> Bad st') ->
  ((do st1 <- initialize_new_current_element c st; body st1) = Ok st' /\ ~ Bad st' <-> match flush st with Some st1 => r st1 | None => None end = Some st').
Proof.
  intros Q H1 H2. unfold initialize_new_current_element. split.
  - intros [H B]. destruct (construct_current_element st) as [st1|] eqn:E; [|discriminate H]. cbn [bind] in H.
    assert (F : flush st = Some st1).
    { apply flush_iff. split; auto. destruct (ps_log st1) eqn:L; auto. exfalso. apply B. apply (H2 _ H). left. cbn. rewrite L. discriminate. }
    rewrite F. apply H1; auto.
  - destruct (flush st) as [st1|] eqn:F; [|discriminate]. intro H. apply H1 in H; auto. apply flush_iff in F as [-> _]. cbn [bind]. exact H.
Qed.
Lemma set_cur_bad t line shown v st st' : set_cur t line shown v st = Ok st' -> Bad st -> Bad st'.
Proof. intros H B. apply set_cur_ext in H as [H _]. eapply Ext_Bad; eauto. Qed.
Lemma in_class_bad c line st body st' : (forall st1, body st = Ok st1 -> Bad st -> Bad st1) -> in_class c line st body = Ok st' -> Bad st -> Bad st'.
Proof. intros H. unfold in_class. destruct (matches_class c st); [apply H|]. intro K. injection K as <-. intros _. apply bad_log. Qed.
Lemma generic_effect t line shown v st st' c n : tag_data_model_field t = Some (Some c, n) -> is_start_tag t = false -> quiet st ->
  (generic_value t line shown v st = Ok st' /\ ~ Bad st' <-> (if matches_class c st then option_map (fun d => with_cur d st) (put_once n (good v) (ps_cur st)) else None) = Some st').
Proof.
  intros E S Q. unfold generic_value. rewrite E, S. cbn [bind]. apply in_class_effect. intro C.
  assert (N : n = get_property_name t) by (unfold get_property_name; rewrite E; reflexivity). subst n. apply set_cur_effect; [congruence|exact Q].
Qed.
Lemma generic_start t line shown v st st' c n : tag_data_model_field t = Some (Some c, n) -> is_start_tag t = true -> quiet st ->
  (generic_value t line shown v st = Ok st' /\ ~ Bad st' <->
   match flush st with Some st1 => option_map (fun d => with_cur d (with_class c st1)) (put_once n (good v) (ps_cur st1)) | None => None end = Some st').
Proof.
  intros E S Q. unfold generic_value. rewrite E, S.
  assert (N : n = get_property_name t) by (unfold get_property_name; rewrite E; reflexivity). subst n.
  apply start_effect; [exact Q| |].
  - intros st1 F. unfold in_class. assert (M : matches_class c (with_class c st1) = true) by (cbn; unfold clazz_eqb; destruct (clazz_eq_dec c c); congruence).
    rewrite M. apply (set_cur_effect t line shown v (with_class c st1)); [discriminate|]. exact (flush_quiet st st1 Q F).
  - intros st1 H. apply (in_class_bad c line st1 (set_cur t line shown v)); [|exact H]. intros st2. apply set_cur_bad.
Qed.
Lemma generic_license_effect t line k st st' c n : tag_data_model_field t = Some (Some c, n) -> is_start_tag t = false -> quiet st ->
  (generic_license O t line k st = Ok st' /\ ~ Bad st' <->
   (if matches_class c st then option_map (fun d => with_cur d st) (put_once n (option_map license_tval (quiet_license k)) (ps_cur st)) else None) = Some st').
Proof.
  intros E S Q. unfold generic_license, quiet_license. destruct (license_value O k) as [[[|m ms] l]|e]; cbn [bind].
  - rewrite log_cur_nil. cbn [option_map]. apply (generic_effect t line (tk_value k) (Ok (license_tval l))); auto.
  - assert (X : (if matches_class c st then option_map (fun d => with_cur d st) (put_once n (option_map license_tval None) (ps_cur st)) else None) = None) by (destruct (matches_class c st); reflexivity).
    rewrite X. apply never. intros st1 H. unfold generic_value in H. rewrite E, S in H. cbn [bind] in H.
    unfold in_class in H. destruct (matches_class c (log_cur (m :: ms) st)) eqn:M; [|injection H as <-; apply bad_log].
    eapply set_cur_bad; [exact H|]. right. right. split; [cbn; destruct Q as (_ & -> & _); discriminate|]. apply matches_some in M. congruence.
  - split; [intros [H _]; discriminate|]. destruct (matches_class c st); discriminate.
Qed.
Lemma license_list_effect c n line k st st' : quiet st ->
  (license_list O c n line k st = Ok st' /\ ~ Bad st' <->
   (if matches_class c st then option_map (fun d => with_cur d st) (put_more n (option_map (fun l => VLics [l]) (quiet_license k)) (ps_cur st)) else None) = Some st').
Proof.
  intros Q. unfold license_list, quiet_license. destruct (license_value O k) as [[[|m ms] l]|e]; cbn [bind].
  - rewrite log_cur_nil. cbn [option_map]. apply in_class_effect. intro C. apply append_cur_effect. exact Q.
  - assert (X : (if matches_class c st then option_map (fun d => with_cur d st) (put_more n (option_map (fun l => VLics [l]) None) (ps_cur st)) else None) = None) by (destruct (matches_class c st); reflexivity).
    rewrite X. apply never. intros st1 H. unfold in_class in H. destruct (matches_class c (log_cur (m :: ms) st)) eqn:M; [|injection H as <-; apply bad_log].
    unfold append_cur in H. destruct (append_val _ _) as [x|]; [|discriminate H]. cbn [bind] in H. injection H as <-.
    right. right. split; [cbn; destruct Q as (_ & -> & _); discriminate|]. apply matches_some in M. cbn in *. congruence.
  - split; [intros [H _]; discriminate|]. destruct (matches_class c st); discriminate.
Qed.
Lemma bind_value {A} (r : result A) (f : A -> tval) : good (do x <- r; Ok (f x)) = option_map f (good r).
Proof. destruct r; reflexivity. Qed.
Lemma bad_cur m st c : ps_class st = Some c -> Bad (log_cur [m] st).
Proof. intro H. apply bad_log_cur. congruence. Qed.
Ltac noted := apply never; let H := fresh in intros ? H; injection H as <-; first [apply bad_log | apply bad_log_ci | eapply bad_cur; eassumption].
Lemma set_quiet n v st st' : quiet st -> assoc n (ps_cur st) = None ->
  (Ok (with_cur (dict_set n v (ps_cur st)) st) = Ok st' /\ ~ Bad st' <-> option_map (fun d => with_cur d st) (put_once n (Some v) (ps_cur st)) = Some st').
Proof.
  intros Q A. unfold put_once. rewrite A. cbn [option_map]. split.
  - intros [H _]. injection H as <-. reflexivity.
  - intro H. injection H as <-. split; auto. apply quiet_not_bad. exact Q.
Qed.
Lemma put_once_twice n v d x : assoc n d = Some x -> put_once n v d = None.
Proof. intro H. unfold put_once. rewrite H. destruct v; reflexivity. Qed.

Lemma doc_ref_effect line v st st' : quiet st ->
  (external_document_ref line v st = Ok st' /\ ~ Bad st' <->
   option_map (fun d => with_ci d st) (put_more $"external_document_refs" (option_map (fun r => VDocRefs [r]) (doc_ref_of v)) (ps_ci st)) = Some st').
Proof.
  intro Q. unfold external_document_ref, doc_ref_of. destruct (re_match ext_doc_ref_re v) as [g|]; [|cbn [option_map]; noted].
  destruct (split_on #" " _) as [|a [|b [|]]]; try (cbn [option_map]; noted).
  destruct (tv_parse_checksum _) as [c|e]; cbn [bind option_map].
  - apply append_ci_effect. exact Q.
  - split; [intros [H _]; discriminate|discriminate].
Qed.
Lemma enum_good {A} all name (inj : A -> tval) v : good (enum_value all name inj v) = option_map inj (enum_lookup all name v).
Proof. unfold enum_value. destruct (enum_lookup all name v); reflexivity. Qed.
Lemma relationship_effect g line st st' : quiet st ->
  (relationship_action line (tk_value (g_val g)) (option_map text_or_line_value (g_com g)) st = Ok st' /\ ~ Bad st' <->
   match flush st with Some st1 => option_map (fun d => with_cur d (with_class C_Relationship st1)) (rel_put g (ps_cur st1)) | None => None end = Some st').
Proof.
  intro Q. unfold relationship_action. apply start_effect; [exact Q| |].
  - intros st1 F. pose proof (flush_quiet st st1 Q F) as Q1. unfold rel_put.
    assert (C : ps_class (with_class C_Relationship st1) = Some C_Relationship) by reflexivity.
    assert (Q2 : quiet (with_class C_Relationship st1)) by exact Q1. revert C Q2. change (ps_cur st1) with (ps_cur (with_class C_Relationship st1)). generalize (with_class C_Relationship st1). intros st2 C Q2.
    destruct (split_on #" " _) as [|a [|b [|d [|]]]]; try (cbn [option_map]; noted).
    destruct (enum_lookup rel_type_all rel_type_name b) as [t|]; cbv zeta.
    + cbn [option_map]. split.
      * intros [H _]. injection H as <-. reflexivity.
      * intro H. injection H as <-. split; [reflexivity|]. apply quiet_not_bad. exact Q2.
    + cbn [option_map]. apply never. intros st3 H. injection H as <-. right. right. split; cbn; [apply app_end|congruence].
  - intros st1 H B. destruct (split_on _ _) as [|a [|b [|d [|]]]]; try (injection H as <-; eapply Ext_Bad; [apply Ext_log_cur|exact B]).
    cbv zeta in H. assert (X : forall y d', Bad y -> Bad (with_cur d' y)) by (intros y d'; exact (fun z => z)).
    destruct (enum_lookup rel_type_all rel_type_name b); injection H as <-; apply X; [apply X; exact B|eapply Ext_Bad; [apply Ext_log_cur|exact B]].
Qed.
Lemma analyzed_effect line v st st' : quiet st ->
  (files_analyzed line v st = Ok st' /\ ~ Bad st' <->
   (if matches_class C_Package st then option_map (fun d => with_cur d st) (put_once $"files_analyzed"
      (if str_eqb v $"true" then Some (VBool true) else if str_eqb v $"false" then Some (VBool false) else None) (ps_cur st)) else None) = Some st').
Proof.
  intro Q. unfold files_analyzed. apply in_class_effect. intro C. destruct (assoc $"files_analyzed" (ps_cur st)) eqn:E.
  - rewrite (put_once_twice _ _ _ _ E). cbn [option_map]. noted.
  - destruct (str_eqb v _); [apply set_quiet; auto|]. destruct (str_eqb v _); [apply set_quiet; auto|]. cbn [put_once option_map]. noted.
Qed.
Lemma code_effect line v st st' : quiet st ->
  (verification_code line v st = Ok st' /\ ~ Bad st' <->
   (if matches_class C_Package st then option_map (fun d => with_cur d st) (put_once $"verification_code" (option_map VVerif (code_of v)) (ps_cur st)) else None) = Some st').
Proof.
  intro Q. unfold verification_code, code_of. apply in_class_effect. intro C. destruct (assoc $"verification_code" (ps_cur st)) eqn:E.
  - rewrite (put_once_twice _ _ _ _ E). cbn [option_map]. noted.
  - destruct (re_match verif_code_re v) as [g|]; [|cbn [put_once option_map]; noted]. cbv zeta. apply set_quiet; auto.
Qed.
Lemma range_effect t line v st st' : quiet st ->
  (snippet_range t line v st = Ok st' /\ ~ Bad st' <->
   (if matches_class C_Snippet st then option_map (fun d => with_cur d st) (put_once (get_property_name t) (range_of v) (ps_cur st)) else None) = Some st').
Proof.
  intro Q. unfold snippet_range, range_of. apply in_class_effect. intro C. cbv zeta. destruct (assoc (get_property_name t) (ps_cur st)) eqn:E.
  - rewrite (put_once_twice _ _ _ _ E). cbn [option_map]. noted.
  - destruct (re_match range_re (strip v)) as [g|]; [|cbn [put_once option_map]; noted].
    destruct (dec_val _) as [a|]; [|split; [intros [H _]; discriminate|discriminate]].
    destruct (dec_val _) as [b|]; [|split; [intros [H _]; discriminate|discriminate]]. apply set_quiet; auto.
Qed.
Lemma ext_ref_effect line v c st st' : quiet st ->
  (pkg_external_ref line v c st = Ok st' /\ ~ Bad st' <->
   (if matches_class C_Package st then option_map (fun d => with_cur d st) (put_more $"external_references" (option_map (fun r => VExtRefs [r]) (ext_ref_of v c)) (ps_cur st)) else None) = Some st').
Proof.
  intro Q. unfold pkg_external_ref, ext_ref_of. apply in_class_effect. intro C.
  destruct (split_on #" " _) as [|a [|b [|d [|]]]]; try (cbn [option_map put_more]; noted).
  destruct (enum_lookup ref_category_all _ _); cbn [option_map]; [apply append_cur_effect; exact Q|cbn [put_more option_map]; noted].
Qed.
Lemma file_type_effect line v st st' : quiet st ->
  (file_type_action line v st = Ok st' /\ ~ Bad st' <->
   (if matches_class C_File st then option_map (fun d => with_cur d st) (put_more $"file_types" (option_map (fun t => VTypes [t]) (enum_lookup file_type_all file_type_name (strip v))) (ps_cur st)) else None) = Some st').
Proof.
  intro Q. unfold file_type_action. apply in_class_effect. intro C.
  destruct (enum_lookup file_type_all _ _); cbn [option_map]; [apply append_cur_effect; exact Q|cbn [put_more option_map]; noted].
Qed.
Lemma checksum_effect c line v st st' : quiet st ->
  (checksum_action c line v st = Ok st' /\ ~ Bad st' <->
   (if matches_class c st then option_map (fun d => with_cur d st) (put_more $"checksums" (option_map (fun c => VChecksums [c]) (good (tv_parse_checksum v))) (ps_cur st)) else None) = Some st').
Proof.
  intro Q. unfold checksum_action. apply in_class_effect. intro C.
  destruct (tv_parse_checksum v); cbn [bind good option_map]; [apply append_cur_effect; exact Q|split; [intros [H _]; discriminate|discriminate]].
Qed.
Lemma attribution_effect line v st st' : quiet st ->
  (pkg_attribution_text line v st = Ok st' /\ ~ Bad st' <->
   (if matches_class C_Package st then option_map (fun d => with_cur d st) (put_more $"attribution_texts" (Some (VStrs [v])) (ps_cur st)) else None) = Some st').
Proof.
  intro Q. unfold pkg_attribution_text. destruct (matches_class C_Package st); [apply append_cur_effect; exact Q|].
  apply never. intros st1 H. unfold append_cur in H. destruct (append_val _ _); [|discriminate H]. cbn [bind] in H. injection H as <-. left. cbn. apply app_end.
Qed.
Lemma actor_effect t line k st st' c n : tag_data_model_field t = Some (Some c, n) -> is_start_tag t = false -> quiet st ->
  ((do a <- actor_value k; generic_value t line (tk_value k) (Ok a) st) = Ok st' /\ ~ Bad st' <->
   (if matches_class c st then option_map (fun d => with_cur d st) (put_once n (good (actor_value k)) (ps_cur st)) else None) = Some st').
Proof.
  intros E S Q. destruct (actor_value k) as [a|e]; cbn [bind good].
  - apply (generic_effect t line (tk_value k) (Ok a)); auto.
  - split; [intros [H _]; discriminate|]. destruct (matches_class c st); discriminate.
Qed.
Lemma annotator_effect line v st st' : quiet st ->
  (annotator_action line v st = Ok st' /\ ~ Bad st' <->
   match flush st with Some st1 => option_map (fun d => with_cur d (with_class C_Annotation st1)) (put_once $"annotator" (option_map VActor (good (parse_actor v))) (ps_cur st1)) | None => None end = Some st').
Proof.
  intro Q. unfold annotator_action. apply start_effect; [exact Q| |].
  - intros st1 F. rewrite <- bind_value. apply (set_cur_effect T_Annotator line v (do a <- parse_actor v; Ok (VActor a)) (with_class C_Annotation st1)); [discriminate|]. exact (flush_quiet st st1 Q F).
  - intros st1. apply set_cur_bad.
Qed.

Lemma act_effect g line st st' : quiet st ->
  (act O (g_tag g) line (g_val g) (g_com g) st = Ok st' /\ ~ Bad st' <-> effect g st = Some st').
Proof.
  intro Q. destruct g as [t k c]. cbn [g_tag g_val g_com]. unfold effect, val_of. cbn [g_tag g_val g_com].
  destruct t; cbn [slot_of act];
  try (apply set_ci_effect; exact Q; fail);
  try (apply (generic_effect _ line _ (Ok _)); [reflexivity|reflexivity|exact Q]; fail);
  try (apply (generic_start _ line _ (Ok _)); [reflexivity|reflexivity|exact Q]; fail);
  try (apply generic_license_effect; [reflexivity|reflexivity|exact Q]; fail);
  try (apply license_list_effect; exact Q; fail);
  try (unfold text_list; apply in_class_effect; intro C; apply append_cur_effect; exact Q; fail).
  all: try (unfold date_value; rewrite <- bind_value; first [apply set_ci_effect; exact Q | apply in_class_effect; intro C; apply set_cur_effect; [congruence|exact Q]]; fail).
  all: try (rewrite <- enum_good; apply in_class_effect; intro C; apply set_cur_effect; [congruence|exact Q]; fail).
  all: try (apply checksum_effect; exact Q). all: try (apply range_effect; exact Q).
  all: try (apply (actor_effect _ line k); [reflexivity|reflexivity|exact Q]).
  all: try (apply never; intros st1 H; discriminate H).
  - split; [intros [H _]; injection H as <-; reflexivity|]. intro H. injection H as <-. split; auto. apply quiet_not_bad.
    unfold spdx_id_action. destruct (assoc _ _); exact Q.
  - apply doc_ref_effect; exact Q.
  - destruct (parse_actor (tk_value k)); cbn [bind good option_map]; [apply append_ci_effect; exact Q|split; [intros [H _]; discriminate|discriminate]].
  - apply annotator_effect; exact Q.
  - apply (relationship_effect {| g_tag := T_Relationship; g_val := k; g_com := c |}). exact Q.
  - apply analyzed_effect; exact Q.
  - apply code_effect; exact Q.
  - apply ext_ref_effect; exact Q.
  - apply attribution_effect; exact Q.
  - apply file_type_effect; exact Q.
Qed.

(** ** Sequences *)
Lemma effect_quiet g st st' : quiet st -> effect g st = Some st' -> quiet st'.
Proof.
  intros Q. unfold effect. destruct (slot_of (g_tag g)) as [n|n|c n|c n|c n| | |].
  - destruct (put_once _ _ _); [|discriminate]. intro H. injection H as <-. exact Q.
  - destruct (put_more _ _ _); [|discriminate]. intro H. injection H as <-. exact Q.
  - destruct (matches_class c st); [|discriminate]. destruct (put_once _ _ _); [|discriminate]. intro H. injection H as <-. exact Q.
  - destruct (matches_class c st); [|discriminate]. destruct (put_more _ _ _); [|discriminate]. intro H. injection H as <-. exact Q.
  - destruct (flush st) as [st1|] eqn:F; [|discriminate]. destruct (put_once _ _ _); [|discriminate]. intro H. injection H as <-. exact (flush_quiet st st1 Q F).
  - intro H. injection H as <-. unfold spdx_id_action. destruct (assoc _ _); exact Q.
  - destruct (flush st) as [st1|] eqn:F; [|discriminate]. destruct (rel_put _ _); [|discriminate]. intro H. injection H as <-. exact (flush_quiet st st1 Q F).
  - discriminate.
Qed.
Fixpoint effects (gs : list grp) (st : pstate) : option pstate :=
  match gs with [] => Some st | g :: gs' => match effect g st with Some st1 => effects gs' st1 | None => None end end.
Lemma acts_effects gs : forall lines st st', List.length lines = List.length gs -> quiet st ->
  (acts O gs lines st = Ok st' /\ ~ Bad st' <-> effects gs st = Some st').
Proof.
  induction gs as [|g gs IH]; intros [|n lines] st st' L Q; try discriminate L; cbn [acts effects].
  - split; [intros [H _]; congruence|]. intro H. injection H as <-. split; auto. apply quiet_not_bad. exact Q.
  - injection L as L. split.
    + intros [H B]. destruct (act O (g_tag g) n (g_val g) (g_com g) st) as [st1|] eqn:E; [|discriminate H]. cbn [bind] in H.
      assert (B1 : ~ Bad st1) by (intro B1; apply B; apply (acts_kept O gs lines st1 st' H); exact B1).
      assert (E1 : effect g st = Some st1) by (apply (act_effect g n st st1 Q); auto). rewrite E1. apply (IH lines); auto. eapply effect_quiet; eauto.
    + destruct (effect g st) as [st1|] eqn:E; [|discriminate]. intro H. pose proof (effect_quiet _ _ _ Q E) as Q1. apply (act_effect g n st st1 Q) in E as [-> _]. cbn [bind].
      apply IH; auto.
Qed.
(** the document at the end *)
Definition ending (st : pstate) : option document :=
  match flush st with
  | Some st1 =>
      match construct_creation_info (ps_ci st1) with
      | Ok ci => let b := ps_built st1 in
                 Some {| do_ci := ci; do_packages := opt_list (b_packages b); do_files := b_files b; do_snippets := b_snippets b;
                         do_annotations := b_annotations b; do_relationships := b_relationships b; do_extracted := b_extracted b |}
      | Raise _ => None
      end
  | None => None
  end.
Lemma finish_ending st d : quiet st -> (finish st = Ok d <-> ending st = Some d).
Proof.
  intro Q. unfold finish, ending, flush. destruct (construct_current_element st) as [st1|e] eqn:E; cbn [bind]; [|split; discriminate].
  apply construct_other in E as [E _]. destruct Q as (_ & _ & Q). rewrite E, Q. unfold raise_if. destruct (ps_log st1); cbn [bind]; [|split; discriminate].
  destruct (construct_creation_info (ps_ci st1)) as [ci|]; cbn [bind]; split; try discriminate; intro H; injection H as <-; reflexivity.
Qed.
Lemma init_quiet : quiet init_state. Proof. split; [|split]; reflexivity. Qed.
Lemma parse_effects gs lines d : List.length lines = List.length gs ->
  ((do st <- acts O gs lines init_state; finish st) = Ok d <-> exists st, effects gs init_state = Some st /\ ending st = Some d).
Proof.
  intro L. split.
  - destruct (acts O gs lines init_state) as [st|] eqn:E; [|discriminate]. cbn [bind]. intro H.
    assert (B : ~ Bad st) by (intro B; apply finish_bad in B as [e B]; congruence).
    assert (X : effects gs init_state = Some st) by (apply (acts_effects gs lines); auto using init_quiet).
    exists st. split; auto. apply finish_ending; auto. clear - X. revert X. generalize init_quiet. generalize init_state.
    induction gs as [|g gs IH]; cbn [effects]; intros st0 Q H; [congruence|]. destruct (effect g st0) as [st1|] eqn:E; [|discriminate H]. eapply IH; [|exact H]. eapply effect_quiet; eauto.
  - intros (st & X & H). pose proof X as Y. apply (acts_effects gs lines init_state st L init_quiet) in X as [-> B]. cbn [bind]. apply finish_ending; auto.
    clear - Y. revert Y. generalize init_quiet. generalize init_state.
    induction gs as [|g gs IH]; cbn [effects]; intros st0 Q H; [congruence|]. destruct (effect g st0) as [st1|] eqn:E; [|discriminate H]. eapply IH; [|exact H]. eapply effect_quiet; eauto.
Qed.
End WithOracles.
