(** Converters and parsers of JSON-like dictionaries are inverse to each other, element by element. *)
From Verif Require Import Py Data Oracles Basics DocUtils Json Construct JsonConv JsonParse PyFacts BasicsSpec BasicsFacts
  ActorFacts StampFacts JsonSpec JsonFacts.

(** ** Leaves *)
Lemma plain_date_iso d : PlainDate d -> exists s, s <> [] /\ datetime_to_iso_string d = Ok s /\ datetime_from_str s = Ok d.
Proof.
  intros (V & U & F). pose proof (stamp_naive d V F) as (s & H1 & H2). exists s.
  assert (E : whole_seconds d = d) by (destruct d; unfold whole_seconds; cbn in *; subst; reflexivity).
  rewrite E in H2. repeat split; auto. intros ->. vm_compute in H2. discriminate.
Qed.
Lemma strip_has s c : In c s -> is_space c = false -> strip s <> [].
Proof.
  intros I H. unfold strip. assert (E : exists d u, lstrip s = d :: u /\ is_space d = false).
  { unfold lstrip. induction s as [|x s IH]; [destruct I|]. cbn. destruct (is_space x) eqn:E; [|eauto].
    destruct I as [->|I]; [congruence|auto]. }
  destruct E as (d & u & E & Hd). rewrite E. intro K. apply (strip_nonempty d u Hd).
  unfold strip, lstrip. cbn. rewrite Hd. exact K.
Qed.
Lemma license_reads O l : LicenseReads O l ->
  jtruthy (JStr (lic_str O l)) = true /\ parse_license_expression O (JStr (lic_str O l)) = Ok (Some l).
Proof.
  destruct l as [e| |]; cbn [LicenseReads]; [|intros _; split; vm_compute; reflexivity..].
  intros (H1 & (c & I & Hc) & H2 & H3). unfold lic_str. cbn [nn_to_str]. split.
  - cbn. destruct (o_lic_str O e); [destruct I|reflexivity].
  - unfold parse_license_expression. rewrite (proj2 (str_eqb_neq _ _) H3), (proj2 (str_eqb_neq _ _) H2).
    unfold licensing_parse. pose proof (strip_has _ c I Hc) as N. destruct (strip (o_lic_str O e)); [congruence|].
    rewrite H1. reflexivity.
Qed.
Lemma text_reads x : PlainText x -> field_or_nn (JStr (text_str x)) = match x with NVal s => NVal (JStr s) | NNoAssertion => NNoAssertion | NNone => NNone end.
Proof.
  destruct x as [s| |]; cbn [PlainText]; [|reflexivity..]. intros (H1 & H2). unfold field_or_nn, text_str. cbn [nn_to_str jis].
  rewrite (proj2 (str_eqb_neq _ _) H2), (proj2 (str_eqb_neq _ _) H1). reflexivity.
Qed.
Lemma c_nn_text cls fld x : PlainText x -> c_nn cls fld (field_or_nn (JStr (text_str x))) = COk x.
Proof. intro H. rewrite (text_reads x H). destruct x; reflexivity. Qed.
Definition ojs (o : option pystr) : option json := match o with Some s => Some (JStr s) | None => None end.
Lemma c_opt_nn_text cls fld o : IfSome PlainText o -> c_opt_nn cls fld (field_or_nn (oj (ojs (option_map text_str o)))) = COk o.
Proof.
  destruct o as [x|]; [|reflexivity]. cbn [IfSome option_map ojs oj]. intro H.
  pose proof (c_nn_text cls fld x H) as E. pose proof (text_reads x H) as F.
  destruct x as [s| |]; rewrite F in *; reflexivity.
Qed.
Lemma c_opt_na_name cls fld o : IfSome PlainName o ->
  c_opt_na cls fld (field_or_na (oj (ojs (option_map (na_to_str (fun s => s)) o)))) = COk o.
Proof.
  destruct o as [[s|]|]; [|reflexivity..]. cbn [IfSome PlainName option_map na_to_str ojs oj]. intro H.
  unfold field_or_na. cbn [jis]. rewrite (proj2 (str_eqb_neq _ _) H). reflexivity.
Qed.
Lemma field_license O o : IfSome (LicenseReads O) o ->
  parse_field (oj (ojs (option_map (lic_str O) o))) (parse_license_expression O) = Ok ([], option_map Some o).
Proof.
  destruct o as [l|]; [|reflexivity]. cbn [IfSome option_map ojs oj]. intro H. apply license_reads in H as (H1 & H2).
  unfold parse_field. rewrite H1, H2. reflexivity.
Qed.
Definition oflat {A} (o : option A) : flat_opt (option_map Some o) = o := match o with Some _ => eq_refl | None => eq_refl end.
Lemma Forall2_map_Forall {A B C} (P : A -> Prop) (f : B -> result C) (g : A -> B) (h : A -> C) l :
  (forall x, P x -> f (g x) = Ok (h x)) -> Forall P l -> Forall2 (fun j a => f j = Ok a) (map g l) (map h l).
Proof. intros H. induction 1; cbn; constructor; auto. Qed.
Lemma fields_license O l : Forall (LicenseReads O) l ->
  exists r, parse_field_list (oj (or_none (strs (map (lic_str O) l)))) (parse_license_expression O) = Ok ([], r)
            /\ forall cls fld, c_items cls fld (opt_list r) = COk l.
Proof.
  intro H. rewrite (parse_field_list_or_none _ _ (map Some l)).
  - eexists. split; [reflexivity|]. intros. destruct l as [|x l]; [reflexivity|]. cbn [map].
    unfold c_items, opt_list. change (Some x :: map Some l) with (map Some (x :: l)). rewrite all_some_Some. reflexivity.
  - unfold strs. rewrite map_map. eapply Forall2_map_Forall; [|exact H]. intros x Hx. apply license_reads in Hx. tauto.
Qed.
Lemma field_date o : IfSome PlainDate o -> exists v, opt_date o = Ok v /\ parse_field (oj v) j_date = Ok ([], o).
Proof.
  destruct o as [d|]; cbn [IfSome opt_date]; [|intros _; eexists; split; reflexivity].
  intro H. apply plain_date_iso in H as (s & H1 & H2 & H3). rewrite H2. cbn [bind]. eexists. split; [reflexivity|].
  cbn [oj]. unfold parse_field. destruct s; [congruence|]. cbn [jtruthy truthy_list negb j_date on_str]. unfold j_date, on_str. rewrite H3.
  reflexivity.
Qed.
Lemma field_date1 d : PlainDate d -> exists s, datetime_to_iso_string d = Ok s /\ parse_field (JStr s) j_date = Ok ([], Some d).
Proof.
  intro H. destruct (field_date (Some d) H) as (v & H1 & H2). cbn [opt_date] in H1.
  destruct (datetime_to_iso_string d) as [s|e]; [|discriminate]. cbn in H1. injection H1 as <-. eauto.
Qed.
Lemma actor_str_truthy a : jtruthy (JStr (actor_str a)) = true.
Proof. unfold actor_str. destruct (ac_type a); reflexivity. Qed.
Lemma j_actor_reads a : ReadableActor a -> j_actor (JStr (actor_str a)) = Ok a.
Proof. intro H. apply actor_round_trip in H. exact H. Qed.
Lemma field_actor_na o : IfSome ReadableNA o ->
  parse_field (oj (ojs (option_map (na_to_str actor_str) o))) actor_or_no_assertion = Ok ([], o).
Proof.
  destruct o as [[a|]|]; [|vm_compute; reflexivity..]. cbn [IfSome ReadableNA option_map na_to_str ojs oj]. intro H.
  unfold parse_field. rewrite actor_str_truthy. cbn [negb]. unfold actor_or_no_assertion.
  assert (E : jis (JStr (actor_str a)) $"NOASSERTION" = false)
    by (cbn [jis]; unfold actor_str; destruct (ac_type a); reflexivity).
  rewrite E, j_actor_reads by exact H. reflexivity.
Qed.
Lemma field_actor a : ReadableActor a -> parse_field (JStr (actor_str a)) j_actor = Ok ([], Some a).
Proof. intro H. unfold parse_field. rewrite actor_str_truthy, (j_actor_reads a H). reflexivity. Qed.
Lemma fields_actors l : l <> [] -> Forall ReadableActor l ->
  parse_field_list (oj (or_none (strs (map actor_str l)))) j_actor = Ok ([], Some l).
Proof.
  intros N H. rewrite (parse_field_list_or_none _ _ l).
  - destruct l; [congruence|reflexivity].
  - unfold strs. rewrite map_map. rewrite <- (map_id l) at 2. eapply Forall2_map_Forall; [|exact H]. apply j_actor_reads.
Qed.
Lemma field_version o : parse_field (oj (ojs (option_map version_str o))) parse_version = Ok ([], o).
Proof.
  destruct o as [v|]; [|reflexivity]. cbn [option_map ojs oj]. unfold parse_field, parse_version. cbn [on_str].
  rewrite version_round_trip. unfold version_str. cbn [jtruthy]. pose proof (str_of_N_nonempty (v_major v)) as N.
  destruct (str_of_N (v_major v)); [congruence|reflexivity].
Qed.

(** a list property *)
Lemma convert_list_Forall2 {A} (f : A -> result json) l js : Forall2 (fun a j => f a = Ok j) l js -> convert_list f l = Ok (or_none js).
Proof. intro H. unfold convert_list. apply map_result_Forall2 in H. rewrite H. reflexivity. Qed.

Ltac table :=
  match goal with |- Forall2 _ ?a ?b => repeat (apply Forall2_cons; [split; [vm_compute; reflexivity|cbn [snd]]|]) end;
  try apply Forall2_nil.

(** ** Checksums *)
Definition checksum_obj (c : checksum) : json :=
  JObj (present [($"algorithm", Some (JStr (algorithm_to_json_string (ck_alg c)))); ($"checksumValue", Some (JStr (ck_value c)))]).
Lemma convert_checksum_obj c : convert_checksum c = Ok (checksum_obj c).
Proof. apply convert_table; [|reflexivity]. unfold checksum_props, the_str. table; reflexivity. Qed.
Lemma parse_checksum_obj c : parse_checksum (checksum_obj c) = Ok c.
Proof. destruct c as [a v]. destruct a; reflexivity. Qed.

(** the parse of each object is the object itself *)
Definition Reads {A} (conv : A -> result json) (parse : json -> result A) (x : A) (j : json) : Prop :=
  conv x = Ok j /\ parse j = Ok x.
Lemma reads_list {A} conv parse (l : list A) : Forall (fun x => exists j, Reads conv parse x j) l ->
  exists js, convert_list conv l = Ok (or_none js) /\ Forall2 (fun j a => parse j = Ok a) js l.
Proof.
  intro H. assert (E : exists js, Forall2 (fun a j => conv a = Ok j) l js /\ Forall2 (fun j a => parse j = Ok a) js l).
  { induction H as [|x l (j & H1 & H2) _ (js & IH1 & IH2)]; [exists []; split; constructor|].
    exists (j :: js). split; constructor; auto. }
  destruct E as (js & E1 & E2). exists js. split; [|exact E2]. apply convert_list_Forall2. exact E1.
Qed.
Lemma checksums_reads l : exists v, convert_list convert_checksum l = Ok v
  /\ parse_field_list (oj v) parse_checksum = Ok ([], match l with [] => None | _ => Some l end).
Proof.
  destruct (reads_list convert_checksum parse_checksum l) as (js & H1 & H2).
  { apply Forall_forall. intros c _. exists (checksum_obj c). split; [apply convert_checksum_obj|apply parse_checksum_obj]. }
  eexists. split; [exact H1|]. apply parse_field_list_or_none. exact H2.
Qed.
Lemma Forall2_swap {A B} (P : A -> B -> Prop) l m : Forall2 P l m -> Forall2 (fun b a => P a b) m l.
Proof. induction 1; constructor; auto. Qed.

Lemma raise_if_named_nil n : raise_if_named [] n = Ok tt. Proof. reflexivity. Qed.

(** ** Annotations.  The id of an annotation is not written; the parser takes that of the enclosing object. *)
Lemma annotation_reads a : JsonAnnotation a -> exists j, Reads convert_annotation (parse_annotation (JStr (an_id a))) a j.
Proof.
  intros [Ha Hd]. destruct (field_date1 _ Hd) as (s & H1 & H2).
  exists (JObj (present [($"annotationDate", Some (JStr s)); ($"annotationType", Some (JStr (annotation_type_name (an_type a))));
                         ($"annotator", Some (JStr (actor_str (an_annotator a)))); ($"comment", Some (JStr (an_comment a)))])).
  split.
  - apply convert_table; [|vm_compute; reflexivity]. unfold annotation_props, the_str. rewrite H1. table; reflexivity.
  - pose proof (field_actor _ Ha) as H3. generalize dependent (actor_str (an_annotator a)). intros as_ H3.
    assert (H4 : parse_field (JStr (annotation_type_name (an_type a))) parse_annotation_type = Ok ([], Some (an_type a)))
      by (destruct (an_type a); reflexivity).
    generalize dependent (annotation_type_name (an_type a)). intros tn H4.
    unfold parse_annotation. repeat run1. destruct a; reflexivity.
Qed.
Lemma annotations_reads id l : Forall JsonAnnotation l -> (forall a, In a l -> an_id a = id) ->
  exists v, convert_list convert_annotation l = Ok v
    /\ parse_field_list (oj_default (JArr []) v) (parse_annotation (JStr id)) = Ok ([], match l with [] => None | _ => Some l end)
    /\ (v = None <-> l = []).
Proof.
  intros H E. destruct (reads_list convert_annotation (parse_annotation (JStr id)) l) as (js & H1 & H2).
  { apply Forall_forall. intros a I. destruct (annotation_reads a) as (j & H1); [eapply Forall_forall in H; eauto|].
    rewrite (E a I) in H1. eauto. }
  eexists. split; [exact H1|]. split.
  - rewrite <- (parse_field_list_or_none _ js l H2). destruct js; reflexivity.
  - destruct H2; cbn; split; congruence.
Qed.

(** ** External document references *)
Lemma external_document_ref_reads r : exists j, Reads convert_external_document_ref parse_external_document_ref r j /\ jtruthy j = true.
Proof.
  exists (JObj (present [($"externalDocumentId", Some (JStr (edr_id r))); ($"spdxDocument", Some (JStr (edr_uri r)));
                         ($"checksum", Some (checksum_obj (edr_checksum r)))])).
  split; [split|reflexivity].
  - apply convert_table; [|vm_compute; reflexivity]. unfold external_document_ref_props, the_str. rewrite convert_checksum_obj. table; reflexivity.
  - unfold parse_external_document_ref.
    assert (H : parse_field (checksum_obj (edr_checksum r)) parse_checksum = Ok ([], Some (edr_checksum r)))
      by (unfold parse_field; rewrite parse_checksum_obj; reflexivity).
    generalize dependent (checksum_obj (edr_checksum r)). intros j H.
    repeat run1. destruct r; reflexivity.
Qed.
Lemma external_document_refs_reads l : exists v, convert_list convert_external_document_ref l = Ok v
  /\ exists r, parse_field (oj v) parse_external_document_refs = Ok ([], r) /\ forall cls fld, c_items cls fld (opt_list r) = COk l.
Proof.
  assert (E : exists js, Forall2 (fun a j => convert_external_document_ref a = Ok j) l js
                         /\ external_document_refs_loop js = Ok ([], map Some l)).
  { induction l as [|x l (js & I1 & I2)]; [exists []; split; [constructor|reflexivity]|].
    destruct (external_document_ref_reads x) as (j & (R1 & R2) & R3). exists (j :: js). split; [constructor; auto|].
    cbn [external_document_refs_loop]. unfold parse_field. rewrite R3, R2. cbn [negb bind]. rewrite I2. reflexivity. }
  destruct E as (js & E1 & E2). rewrite (convert_list_Forall2 _ _ _ E1). eexists. split; [reflexivity|].
  destruct js as [|j js].
  - inversion E1; subst. eexists. split; reflexivity.
  - cbn [or_none oj]. unfold parse_field, parse_external_document_refs. cbn [jtruthy truthy_list negb jiter bind]. rewrite E2.
    cbn [bind raise_if]. eexists. split; [reflexivity|]. intros. cbn [opt_list]. unfold c_items. rewrite all_some_Some. reflexivity.
Qed.

(** ** Extracted licensing info *)
Lemma extracted_reads e : IfSome PlainName (el_name e) -> exists j, Reads convert_extracted parse_extracted e j.
Proof.
  intro H. exists (JObj (present [($"comment", ojs (el_comment e)); ($"extractedText", ojs (el_text e)); ($"licenseId", ojs (el_id e));
      ($"name", ojs (option_map (na_to_str (fun s => s)) (el_name e))); ($"seeAlsos", or_none (strs (el_xrefs e)))])). split.
  - apply convert_table; [|vm_compute; reflexivity]. unfold extracted_props, opt_str. table; reflexivity.
  - pose proof (fun cls fld => c_opt_na_name cls fld _ H) as H1. pose proof (fun cls fld => c_opt_str_opt cls fld (el_comment e)) as H2.
    pose proof (fun cls fld => c_opt_str_opt cls fld (el_text e)) as H3. pose proof (fun cls fld => c_opt_str_opt cls fld (el_id e)) as H4.
    pose proof (fun cls fld => c_strs_or_none cls fld (el_xrefs e)) as H5.
    fold (ojs (el_comment e)) in H2. fold (ojs (el_text e)) in H3. fold (ojs (el_id e)) in H4.
    generalize dependent (ojs (option_map (na_to_str (fun s => s)) (el_name e))). generalize dependent (or_none (strs (el_xrefs e))).
    generalize dependent (ojs (el_comment e)). generalize dependent (ojs (el_text e)). generalize dependent (ojs (el_id e)).
    intros v1 H4 v2 H3 v3 H2 v4 H5 v5 H1. unfold parse_extracted. repeat run1. rewrite H1, H2, H3, H4, H5.
    destruct e; reflexivity.
Qed.

(** ** External package references *)
Lemma external_package_ref_reads r : exists j, Reads convert_external_package_ref parse_external_ref r j.
Proof.
  exists (JObj (present [($"comment", ojs (er_comment r)); ($"referenceCategory", Some (JStr (ref_category_name (er_category r))));
      ($"referenceLocator", Some (JStr (er_locator r))); ($"referenceType", Some (JStr (er_type r)))])). split.
  - apply convert_table; [|vm_compute; reflexivity]. unfold external_package_ref_props, opt_str, the_str. table; reflexivity.
  - destruct r as [c t l o]. cbn [er_comment er_category er_locator er_type]. destruct c, o; reflexivity.
Qed.
Lemma external_package_refs_reads l : exists v, convert_list convert_external_package_ref l = Ok v
  /\ exists r, parse_field (oj v) parse_external_refs = Ok ([], r) /\ match r with Some r => r | None => ([], []) end = ([], l).
Proof.
  destruct (reads_list convert_external_package_ref parse_external_ref l) as (js & H1 & H2).
  { apply Forall_forall. intros c _. apply external_package_ref_reads. }
  eexists. split; [exact H1|]. destruct H2 as [|j a js l H2 H3]; [eexists; split; reflexivity|].
  cbn [or_none oj]. unfold parse_field, parse_external_refs. cbn [jtruthy truthy_list negb jiter bind].
  rewrite (parse_elements_ok _ (j :: js) (a :: l)) by (constructor; auto). eexists; split; reflexivity.
Qed.

(** ** Verification codes *)
Lemma verif_code_reads v : exists j, Reads convert_verif_code parse_package_verification_code v j /\ jtruthy j = true.
Proof.
  exists (JObj (present [($"packageVerificationCodeExcludedFiles", or_none (strs (vc_excluded v)));
                         ($"packageVerificationCodeValue", Some (JStr (vc_value v)))])). split; [split|].
  - apply convert_table; [|vm_compute; reflexivity]. unfold verif_code_props, the_str. table; reflexivity.
  - pose proof (fun cls fld => c_strs_or_none cls fld (vc_excluded v)) as H. generalize dependent (or_none (strs (vc_excluded v))).
    intros o H. unfold parse_package_verification_code. repeat run1. rewrite H. destruct v; reflexivity.
  - destruct (vc_excluded v); reflexivity.
Qed.
Lemma verif_code_field o : exists v, convert_opt convert_verif_code o = Ok v /\ parse_field (oj v) parse_package_verification_code = Ok ([], o).
Proof.
  destruct o as [c|]; [|eexists; split; reflexivity]. destruct (verif_code_reads c) as (j & (H1 & H2) & H3). cbn [convert_opt].
  rewrite H1. eexists. split; [reflexivity|]. cbn [oj]. unfold parse_field. rewrite H3, H2. reflexivity.
Qed.

(** ** Relationships *)
Lemma relationship_reads r : PlainText (re_related r) -> exists j, Reads convert_relationship parse_relationship r j.
Proof.
  intro H. exists (JObj (present [($"spdxElementId", Some (JStr (re_id r))); ($"comment", ojs (re_comment r));
      ($"relatedSpdxElement", Some (JStr (text_str (re_related r)))); ($"relationshipType", Some (JStr (rel_type_name (re_type r))))])). split.
  - apply convert_table; [|vm_compute; reflexivity]. unfold relationship_props, the_str, opt_str. table; reflexivity.
  - pose proof (fun cls fld => c_nn_text cls fld _ H) as H1. generalize dependent (text_str (re_related r)). intros t H1.
    assert (H2 : parse_field (JStr (rel_type_name (re_type r))) parse_relationship_type = Ok ([], Some (re_type r)))
      by (destruct (re_type r); vm_compute; reflexivity).
    generalize dependent (rel_type_name (re_type r)). intros tn H2.
    pose proof (fun cls fld => c_opt_str_opt cls fld (re_comment r)) as H3. fold (ojs (re_comment r)) in H3.
    generalize dependent (ojs (re_comment r)). intros v H3.
    unfold parse_relationship. repeat run1. rewrite H1, H3.
    destruct r; reflexivity.
Qed.

(** ** Files, packages and snippets.  Besides their own fields they carry their annotations. *)
Record Carries (j : json) (id : pystr) (anns : option json) : Prop := {
  ca_id : jget $"SPDXID" j = Ok (JStr id);
  ca_annotations : jget_default $"annotations" (JArr []) j = Ok (oj_default (JArr []) anns);
  ca_files : jget_default $"hasFiles" (JArr []) j = Ok (JArr []) }.

Ltac carries := constructor; lookup.
Ltac gens H v := generalize dependent v; intros ? H.

Lemma parse_file_types_reads l : exists r, parse_field (oj (or_none (strs (map file_type_name l)))) parse_file_types = Ok ([], r) /\ opt_list r = l.
Proof.
  assert (E : file_types_loop (strs (map file_type_name l)) = Ok ([], l)).
  { induction l as [|x l IH]; [reflexivity|]. cbn [map strs] in *. cbn [file_types_loop].
    assert (E : enum_item file_type_all file_type_name (JStr (file_type_name x)) = Ok (Some x)) by (destruct x; reflexivity).
    rewrite E. cbn [bind]. unfold strs in IH. rewrite IH. reflexivity. }
  destruct l as [|x l]; [eexists; split; reflexivity|]. unfold parse_field, parse_file_types. cbn [or_none strs map oj jtruthy truthy_list negb jiter bind].
  change (JStr (file_type_name x) :: map JStr (map file_type_name l)) with (strs (map file_type_name (x :: l))). rewrite E.
  eexists; split; reflexivity.
Qed.

Lemma file_reads O d f anns : JsonFile O f -> convert_list convert_annotation (annotations_of (fi_id f) d) = Ok anns ->
  exists j, convert_file O d f = Ok j /\ parse_file O j = Ok f /\ Carries j (fi_id f) anns.
Proof.
  intros [Hc Ht Hl Hi] Ha.
  destruct (checksums_reads (fi_checksums f)) as (ck & C1 & C2).
  exists (JObj (present [($"SPDXID", Some (JStr (fi_id f))); ($"annotations", anns); ($"artifactOfs", None);
    ($"attributionTexts", or_none (strs (fi_attribution f)));
    ($"checksums", ck); ($"comment", ojs (fi_comment f)); ($"copyrightText", ojs (option_map text_str (fi_copyright f)));
    ($"fileContributors", or_none (strs (fi_contributors f))); ($"fileDependencies", None); ($"fileName", Some (JStr (fi_name f)));
    ($"fileTypes", or_none (strs (map file_type_name (fi_types f))));
    ($"licenseComments", ojs (fi_lic_comment f)); ($"licenseConcluded", ojs (option_map (lic_str O) (fi_concluded f)));
    ($"licenseInfoInFiles", or_none (strs (map (lic_str O) (fi_info f)))); ($"noticeText", ojs (fi_notice f))])).
  split.
  { apply convert_table; [|vm_compute; reflexivity]. unfold file_props, the_str, opt_str. rewrite Ha, C1. table; reflexivity. }
  pose proof (fun cls fld => c_strs_or_none cls fld (fi_attribution f)) as H1.
  pose proof (fun cls fld => c_opt_str_opt cls fld (fi_comment f)) as H2. fold (ojs (fi_comment f)) in H2.
  pose proof (fun cls fld => c_opt_nn_text cls fld _ Ht) as H3.
  pose proof (fun cls fld => c_strs_or_none cls fld (fi_contributors f)) as H4.
  pose proof (parse_file_types_reads (fi_types f)) as (ts & H5 & H5').
  pose proof (fun cls fld => c_opt_str_opt cls fld (fi_lic_comment f)) as H6. fold (ojs (fi_lic_comment f)) in H6.
  pose proof (field_license O _ Hl) as H7.
  pose proof (fields_license O _ Hi) as (li & H8 & H8').
  pose proof (fun cls fld => c_opt_str_opt cls fld (fi_notice f)) as H9. fold (ojs (fi_notice f)) in H9.
  clear C1 Ha. rename C2 into H10.
  assert (H11 : match fi_checksums f with [] => None | _ :: _ => Some (fi_checksums f) end = Some (fi_checksums f))
    by (destruct (fi_checksums f); [congruence|reflexivity]).
  rewrite H11 in H10.
  gens H1 (or_none (strs (fi_attribution f))). gens H2 (ojs (fi_comment f)). gens H3 (ojs (option_map text_str (fi_copyright f))).
  gens H4 (or_none (strs (fi_contributors f))). gens H5 (or_none (strs (map file_type_name (fi_types f)))).
  gens H6 (ojs (fi_lic_comment f)). gens H7 (ojs (option_map (lic_str O) (fi_concluded f))).
  gens H8 (or_none (strs (map (lic_str O) (fi_info f)))). gens H9 (ojs (fi_notice f)).
  split; [|carries].
  unfold parse_file. repeat run1. eapply step; [apply raise_if_named_nil|]. cbn beta.
  rewrite H1, H2, H3, H4, H5', H6, H8', H9, oflat. destruct f; reflexivity.
Qed.

Lemma snippet_reads O d s anns : JsonSnippet O s -> convert_list convert_annotation (annotations_of (sn_id s) d) = Ok anns ->
  exists j, convert_snippet O d s = Ok j /\ parse_snippet O j = Ok s /\ Carries j (sn_id s) anns.
Proof.
  intros [Ht Hl Hi] Ha.
  exists (JObj (present [($"SPDXID", Some (JStr (sn_id s))); ($"annotations", anns); ($"attributionTexts", or_none (strs (sn_attribution s)));
    ($"comment", ojs (sn_comment s)); ($"copyrightText", ojs (option_map text_str (sn_copyright s)));
    ($"licenseComments", ojs (sn_lic_comment s)); ($"licenseConcluded", ojs (option_map (lic_str O) (sn_concluded s)));
    ($"licenseInfoInSnippets", or_none (strs (map (lic_str O) (sn_info s)))); ($"name", ojs (sn_name s));
    ($"ranges", Some (convert_ranges s)); ($"snippetFromFile", Some (JStr (sn_file s)))])).
  split.
  { apply convert_table; [|vm_compute; reflexivity]. unfold snippet_props, the_str, opt_str. rewrite Ha. table; reflexivity. }
  pose proof (fun cls fld => c_strs_or_none cls fld (sn_attribution s)) as H1.
  pose proof (fun cls fld => c_opt_str_opt cls fld (sn_comment s)) as H2. fold (ojs (sn_comment s)) in H2.
  pose proof (fun cls fld => c_opt_nn_text cls fld _ Ht) as H3.
  pose proof (fun cls fld => c_opt_str_opt cls fld (sn_lic_comment s)) as H6. fold (ojs (sn_lic_comment s)) in H6.
  pose proof (field_license O _ Hl) as H7.
  pose proof (fields_license O _ Hi) as (li & H8 & H8').
  pose proof (fun cls fld => c_opt_str_opt cls fld (sn_name s)) as H9. fold (ojs (sn_name s)) in H9.
  assert (H10 : parse_field (convert_ranges s) parse_ranges
    = Ok ([], Some {| rg_byte := Some (JInt (fst (sn_bytes s)), JInt (snd (sn_bytes s)));
                      rg_line := option_map (fun r => (JInt (fst r), JInt (snd r))) (sn_lines s) |}))
    by (unfold convert_ranges; destruct (sn_lines s); vm_compute; reflexivity).
  gens H1 (or_none (strs (sn_attribution s))). gens H2 (ojs (sn_comment s)). gens H3 (ojs (option_map text_str (sn_copyright s))).
  gens H6 (ojs (sn_lic_comment s)). gens H7 (ojs (option_map (lic_str O) (sn_concluded s))).
  gens H8 (or_none (strs (map (lic_str O) (sn_info s)))). gens H9 (ojs (sn_name s)). gens H10 (convert_ranges s).
  split; [|carries].
  unfold parse_snippet. do 5 run1. cbn beta iota delta [rg_byte rg_line].
  assert (E1 : convert_range_from_str (Some (JInt (fst (sn_bytes s)), JInt (snd (sn_bytes s)))) = Ok (Some (JInt (fst (sn_bytes s)), JInt (snd (sn_bytes s))))) by reflexivity.
  assert (E2 : forall o : option (Z * Z), convert_range_from_str (option_map (fun r => (JInt (fst r), JInt (snd r))) o) = Ok (option_map (fun r => (JInt (fst r), JInt (snd r))) o)) by (intros [?|]; reflexivity).
  specialize (E2 (sn_lines s)). repeat run1. eapply step; [apply raise_if_named_nil|]. cbn beta.
  rewrite H1, H2, H3, H6, H8', H9, oflat. destruct s as [? ? [? ?] [[? ?]|] ? ? ? ? ? ? ?]; reflexivity.
Qed.

Lemma package_reads O d p anns : JsonPackage O p -> convert_list convert_annotation (annotations_of (pk_id p) d) = Ok anns ->
  exists j, convert_package O d p = Ok j /\ parse_package O j = ([], Ok p) /\ Carries j (pk_id p) anns.
Proof.
  intros [Hdl Hhp Hct Hsu Hor Hco Hde Hi Hre Hbu Hva] Ha.
  destruct (checksums_reads (pk_checksums p)) as (ck & C1 & C2).
  destruct (external_package_refs_reads (pk_refs p)) as (rv & R1 & rr & R2 & R3).
  destruct (verif_code_field (pk_verif p)) as (vv & V1 & V2).
  destruct (field_date _ Hre) as (dr & D1 & D1'). destruct (field_date _ Hbu) as (db & D2 & D2'). destruct (field_date _ Hva) as (dv & D3 & D3').
  exists (JObj (present [($"SPDXID", Some (JStr (pk_id p))); ($"annotations", anns); ($"attributionTexts", or_none (strs (pk_attribution p)));
    ($"builtDate", db); ($"checksums", ck); ($"comment", ojs (pk_comment p)); ($"copyrightText", ojs (option_map text_str (pk_copyright p)));
    ($"description", ojs (pk_description p)); ($"downloadLocation", Some (JStr (text_str (pk_download p)))); ($"externalRefs", rv);
    ($"filesAnalyzed", Some (JBool (pk_files_analyzed p))); ($"homepage", ojs (option_map text_str (pk_homepage p)));
    ($"licenseComments", ojs (pk_lic_comment p)); ($"licenseConcluded", ojs (option_map (lic_str O) (pk_concluded p)));
    ($"licenseDeclared", ojs (option_map (lic_str O) (pk_declared p))); ($"licenseInfoFromFiles", or_none (strs (map (lic_str O) (pk_info p))));
    ($"name", Some (JStr (pk_name p))); ($"originator", ojs (option_map (na_to_str actor_str) (pk_originator p)));
    ($"packageFileName", ojs (pk_file_name p)); ($"packageVerificationCode", vv);
    ($"primaryPackagePurpose", ojs (option_map purpose_name (pk_purpose p))); ($"releaseDate", dr); ($"sourceInfo", ojs (pk_source_info p));
    ($"summary", ojs (pk_summary p)); ($"supplier", ojs (option_map (na_to_str actor_str) (pk_supplier p))); ($"validUntilDate", dv);
    ($"versionInfo", ojs (pk_version p))])).
  split.
  { apply convert_table; [|vm_compute; reflexivity]. unfold package_props, the_str, opt_str. rewrite Ha, C1, R1, V1, D1, D2, D3. table; reflexivity. }
  pose proof (fun cls fld => c_strs_or_none cls fld (pk_attribution p)) as H1. gens H1 (or_none (strs (pk_attribution p))).
  pose proof (fun cls fld => c_opt_str_opt cls fld (pk_comment p)) as H2. fold (ojs (pk_comment p)) in H2. gens H2 (ojs (pk_comment p)).
  pose proof (fun cls fld => c_opt_nn_text cls fld _ Hct) as H3. gens H3 (ojs (option_map text_str (pk_copyright p))).
  pose proof (fun cls fld => c_opt_nn_text cls fld _ Hhp) as H4. gens H4 (ojs (option_map text_str (pk_homepage p))).
  pose proof (fun cls fld => c_nn_text cls fld _ Hdl) as H5. gens H5 (text_str (pk_download p)).
  pose proof (fun cls fld => c_opt_str_opt cls fld (pk_lic_comment p)) as H6. fold (ojs (pk_lic_comment p)) in H6. gens H6 (ojs (pk_lic_comment p)).
  pose proof (field_license O _ Hco) as H7. gens H7 (ojs (option_map (lic_str O) (pk_concluded p))).
  pose proof (fields_license O _ Hi) as (li & H8 & H8'). gens H8 (or_none (strs (map (lic_str O) (pk_info p)))).
  pose proof (field_license O _ Hde) as H9. gens H9 (ojs (option_map (lic_str O) (pk_declared p))).
  pose proof (fun cls fld => c_opt_str_opt cls fld (pk_description p)) as H10. fold (ojs (pk_description p)) in H10. gens H10 (ojs (pk_description p)).
  pose proof (fun cls fld => c_opt_str_opt cls fld (pk_file_name p)) as H11. fold (ojs (pk_file_name p)) in H11. gens H11 (ojs (pk_file_name p)).
  pose proof (fun cls fld => c_opt_str_opt cls fld (pk_source_info p)) as H12. fold (ojs (pk_source_info p)) in H12. gens H12 (ojs (pk_source_info p)).
  pose proof (fun cls fld => c_opt_str_opt cls fld (pk_summary p)) as H13. fold (ojs (pk_summary p)) in H13. gens H13 (ojs (pk_summary p)).
  pose proof (fun cls fld => c_opt_str_opt cls fld (pk_version p)) as H14. fold (ojs (pk_version p)) in H14. gens H14 (ojs (pk_version p)).
  pose proof (field_actor_na _ Hsu) as H15. gens H15 (ojs (option_map (na_to_str actor_str) (pk_supplier p))).
  pose proof (field_actor_na _ Hor) as H16. gens H16 (ojs (option_map (na_to_str actor_str) (pk_originator p))).
  assert (H17 : parse_field (oj (ojs (option_map purpose_name (pk_purpose p)))) parse_primary_package_purpose = Ok ([], pk_purpose p))
    by (destruct (pk_purpose p) as [[]|]; vm_compute; reflexivity).
  gens H17 (ojs (option_map purpose_name (pk_purpose p))).
  assert (H18 : opt_list match pk_checksums p with [] => None | _ :: _ => Some (pk_checksums p) end = pk_checksums p)
    by (destruct (pk_checksums p); reflexivity).
  clear Hdl Hhp Hct Hsu Hor Hco Hde Hi Hre Hbu Hva Ha C1 R1 V1 D1 D2 D3.
  split; [|carries].
  unfold parse_package, parse_package_raw.
  match goal with |- match ?x with _ => _ end = _ => enough (E : x = Ok ([], Ok p)) by (rewrite E; reflexivity) end.
  repeat run1. rewrite R3. cbn beta iota. apply (f_equal (fun r => Ok ([], r))). eapply step; [apply raise_if_named_nil|]. cbn beta.
  rewrite H1, H2, H3, H4, H5, H6, H8', H10, H11, H12, H13, H14, H18, !oflat. destruct p; reflexivity.
Qed.
