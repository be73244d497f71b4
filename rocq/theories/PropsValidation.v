(** Property theorems: validation (C01-C08, C21, C47, C48).  Statements use only the API functions of Validation.v and
    the specification in ValidationSpec.v. *)
From Verif Require Import Py Data Oracles DocUtils Validation ValidationSpec MessageSpec Samples.
From Verif Require LocatorFacts ValidationFacts ValidationMore.
From Coq Require Import Sorting.Permutation.

(** ** C01 *)
Theorem C01_checksum_accepts_exactly :
  forall (c : checksum) (parent v : pystr),
    validate_checksum c parent v = [] <-> ValidChecksum v c.
Proof. exact LocatorFacts.validate_checksum_spec. Qed.
Print Assumptions C01_checksum_accepts_exactly.
Example C01_sample : validate_checksum {| ck_alg := CA_SHA1; ck_value := sha1 |} $"SPDXRef-P" $"SPDX-2.2" = []
  /\ validate_checksum {| ck_alg := CA_SHA256; ck_value := sha1 |} $"SPDXRef-P" $"SPDX-2.2" <> []
  /\ validate_checksum {| ck_alg := CA_ADLER32; ck_value := $"deadbeef" |} $"SPDXRef-P" $"SPDX-2.2" <> []
  /\ validate_checksum {| ck_alg := CA_ADLER32; ck_value := $"deadbeef" |} $"SPDXRef-P" $"SPDX-2.3" = [].
Proof. vm_compute. repeat split; discriminate. Qed.

(** A standard BLAKE3 digest (64 hexadecimal digits) is rejected: the lower bound 256 counts digits. *)
Theorem C01_blake3_standard_digest_rejected :
  forall value parent v, List.length value = 64 -> validate_checksum {| ck_alg := CA_BLAKE3; ck_value := value |} parent v <> [].
Proof. exact LocatorFacts.blake3_64_rejected. Qed.
Print Assumptions C01_blake3_standard_digest_rejected.
Example C01_blake3_sample : List.length (repeat #"a" 64) = 64.
Proof. reflexivity. Qed.

(** ** C02 *)
Theorem C02_internal_id_syntax : forall s, is_valid_internal_spdx_id s = true <-> InternalId s.
Proof. exact LocatorFacts.internal_id_spec. Qed.
Print Assumptions C02_internal_id_syntax.
Theorem C02_external_doc_ref_id_syntax : forall s, is_valid_external_doc_ref_id s = true <-> DocRefId s.
Proof. exact LocatorFacts.docref_id_spec. Qed.
Print Assumptions C02_external_doc_ref_id_syntax.
Example C02_sample : is_valid_internal_spdx_id $"SPDXRef-a.b-1" = true /\ is_valid_internal_spdx_id $"SPDXRef-" = false
  /\ is_valid_internal_spdx_id $"SPDXRef-a+b" = false /\ is_valid_external_doc_ref_id $"DocumentRef-a+b" = true.
Proof. vm_compute. auto. Qed.

(** ** C03 *)
Theorem C03_reference_resolves :
  forall id d, validate_spdx_id id d true false = [] <-> Resolves d id.
Proof. intros id d. exact (ValidationFacts.resolves_spec d id). Qed.
Print Assumptions C03_reference_resolves.
Theorem C03_file_reference_resolves :
  forall id d, validate_spdx_id id d false true = [] <-> ResolvesToFile d id.
Proof. exact ValidationMore.resolves_file_spec. Qed.
Print Assumptions C03_file_reference_resolves.
Theorem C03_new_element_id : forall id d, validate_spdx_id id d false false = [] <-> ElementId d id.
Proof. exact ValidationMore.element_id_spec. Qed.
Print Assumptions C03_new_element_id.
Example C03_sample :
  Resolves (sample_document $"SPDX-2.3") $"DocumentRef-ext:SPDXRef-x" /\ Resolves (sample_document $"SPDX-2.3") $"SPDXRef-File-1"
  /\ ~ Resolves (sample_document $"SPDX-2.3") $"SPDXRef-Unknown".
Proof. rewrite <- !C03_reference_resolves. vm_compute. repeat split; discriminate. Qed.

(** ** C04 *)
Theorem C04_no_messages_iff_well_formed :
  forall (O : oracles) (d : document) (ver : option pystr),
    validate_full_spdx_document O d ver = [] <->
    SupportedVersion (ci_version (do_ci d)) /\ VersionFits d ver /\ WellFormed O (ci_version (do_ci d)) d.
Proof. exact ValidationFacts.validate_spec. Qed.
Print Assumptions C04_no_messages_iff_well_formed.
Example C04_sample : WellFormed sample_oracles $"SPDX-2.2" (sample_document $"SPDX-2.2").
Proof.
  assert (H : validate_full_spdx_document sample_oracles (sample_document $"SPDX-2.2") None = []) by (vm_compute; reflexivity).
  apply C04_no_messages_iff_well_formed in H. apply H.
Qed.

(** ** C05 *)
Theorem C05_valid_documents_have_unique_ids :
  forall (O : oracles) d ver, validate_full_spdx_document O d ver = [] -> NoDup (all_ids d).
Proof. exact ValidationMore.valid_unique. Qed.
Print Assumptions C05_valid_documents_have_unique_ids.
Example C05_sample : validate_full_spdx_document sample_oracles (sample_document $"SPDX-2.3") (Some $"SPDX-2.3") = []
  /\ List.length (all_ids (sample_document $"SPDX-2.3")) = 6.
Proof. vm_compute. auto. Qed.

(** ** C06 *)
Theorem C06_version_gate :
  forall (O : oracles) (d : document) (ver : option pystr),
  ~ (SupportedVersion (ci_version (do_ci d)) /\ VersionFits d ver) ->
  let cx := {| cx_id := Some (ci_id (do_ci d)); cx_parent := None; cx_type := VT_DOCUMENT; cx_element := VE_None |} in
  exists reason, validate_full_spdx_document O d ver = [ {| vm_text := reason; vm_ctx := cx |};
                                                         {| vm_text := CANCELLED; vm_ctx := cx |} ]
    /\ ((~ SupportedVersion (ci_version (do_ci d))
         /\ reason = $"only SPDX versions ""SPDX-2.2"" and ""SPDX-2.3"" are supported, but the document's spdx_version is: "
                     ++ ci_version (do_ci d))
        \/ (SupportedVersion (ci_version (do_ci d)) /\ exists v, ver = Some v /\ v <> ci_version (do_ci d)
            /\ reason = $"provided SPDX version " ++ v ++ $" does not match the document's SPDX version "
                        ++ ci_version (do_ci d))).
Proof. exact ValidationMore.version_gate. Qed.
Print Assumptions C06_version_gate.
Example C06_sample : ~ VersionFits (sample_document $"SPDX-2.2") (Some $"SPDX-2.3") /\ ~ SupportedVersion $"SPDX-2.1".
Proof. split; [intro H; specialize (H _ eq_refl); discriminate H; discriminate|intros [H|H]; discriminate]. Qed.

(** ** C07 *)
Theorem C07_22_is_23_plus_restrictions :
  forall (O : oracles) d,
    validate_full_spdx_document O (with_version $"SPDX-2.2" d) None = [] <->
    validate_full_spdx_document O (with_version $"SPDX-2.3" d) None = [] /\ UsesNo23Feature d /\ ProvidesAll22Fields d.
Proof. exact ValidationMore.valid_22_iff. Qed.
Print Assumptions C07_22_is_23_plus_restrictions.
Theorem C07_valid_22_documents :
  forall (O : oracles) d,
    ci_version (do_ci d) = $"SPDX-2.2" -> validate_full_spdx_document O d None = [] ->
    validate_full_spdx_document O (with_version $"SPDX-2.3" d) None = [] /\ UsesNo23Feature d /\ ProvidesAll22Fields d.
Proof. exact ValidationMore.valid_22_23. Qed.
Print Assumptions C07_valid_22_documents.
Example C07_sample : ci_version (do_ci (sample_document $"SPDX-2.2")) = $"SPDX-2.2"
  /\ validate_full_spdx_document sample_oracles (sample_document $"SPDX-2.2") None = [].
Proof. vm_compute. auto. Qed.

(** ** C08 *)
Theorem C08_messages_do_not_depend_on_order :
  forall (O : oracles) d d', SameUpToOrder d d' ->
  forall ver, exists ms, Permutation ms (validate_full_spdx_document O d' ver)
                         /\ Forall2 (SameMessage O) (validate_full_spdx_document O d ver) ms.
Proof. exact ValidationMore.so_messages. Qed.
Print Assumptions C08_messages_do_not_depend_on_order.
(** The exception in [SameMessage] is needed: one message lists relationships in the order of the document. *)
Definition C08_oracles : oracles :=
  {| o_invalid_symbols := fun _ => []; o_strict_parse_error := fun _ => None; o_lic_str := o_lic_str sample_oracles;
     o_lic_parse := o_lic_parse sample_oracles; o_lic_eqb := o_lic_eqb sample_oracles; o_isabsuri := fun _ => true; o_has_scheme := fun _ => true;
     o_isuri := fun _ => true;
     o_repr := fun x => match x with
                        | Sh_Relationships l => $"[" ++ join $", " (map (fun r => match re_related r with NVal i => i | _ => [] end) l) ++ $"]"
                        | _ => [] end |}.
Definition C08_document (related : list pystr) : document :=
  {| do_ci := sample_ci $"SPDX-2.3";
     do_packages := [{| pk_id := $"SPDXRef-P"; pk_name := $"p"; pk_download := NNone; pk_version := None; pk_file_name := None; pk_supplier := None;
                        pk_originator := None; pk_files_analyzed := false; pk_verif := None; pk_checksums := []; pk_homepage := None;
                        pk_source_info := None; pk_concluded := None; pk_info := []; pk_declared := None; pk_lic_comment := None;
                        pk_copyright := None; pk_summary := None; pk_description := None; pk_comment := None; pk_refs := []; pk_attribution := [];
                        pk_purpose := None; pk_release := None; pk_built := None; pk_valid_until := None |}];
     do_files := [sample_file $"SPDXRef-File-1"; sample_file $"SPDXRef-File-2"]; do_snippets := []; do_annotations := [];
     do_relationships := map (rel $"SPDXRef-P" RT_CONTAINS) related ++ [rel $"SPDXRef-DOCUMENT" RT_DESCRIBES $"SPDXRef-P"]; do_extracted := [] |}.
Theorem C08_texts_refuted :
  exists (O : oracles) d d', SameUpToOrder d d'
    /\ ~ Permutation (validate_full_spdx_document O d None) (validate_full_spdx_document O d' None).
Proof.
  exists C08_oracles, (C08_document [$"SPDXRef-File-1"; $"SPDXRef-File-2"]), (C08_document [$"SPDXRef-File-2"; $"SPDXRef-File-1"]).
  split.
  - constructor; try apply Permutation_refl; try reflexivity. apply perm_swap.
  - intro P. apply (Permutation_map vm_text) in P.
    assert (K : In ($"package must contain no elements if files_analyzed is False, but found [SPDXRef-File-1, SPDXRef-File-2]")
                   (map vm_text (validate_full_spdx_document C08_oracles (C08_document [$"SPDXRef-File-2"; $"SPDXRef-File-1"]) None))).
    { eapply Permutation_in; [exact P|]. vm_compute. left. reflexivity. }
    vm_compute in K. destruct K as [K|[]]. discriminate.
Qed.
Print Assumptions C08_texts_refuted.
Theorem C08_validity_does_not_depend_on_order :
  forall (O : oracles) d d' ver, SameUpToOrder d d' ->
    (validate_full_spdx_document O d ver = [] <-> validate_full_spdx_document O d' ver = []).
Proof. exact ValidationMore.so_valid. Qed.
Print Assumptions C08_validity_does_not_depend_on_order.
Example C08_sample : exists d', SameUpToOrder (sample_document $"SPDX-2.3") d' /\ d' <> sample_document $"SPDX-2.3".
Proof.
  exists {| do_ci := sample_ci $"SPDX-2.3"; do_packages := rev (do_packages (sample_document $"SPDX-2.3"));
            do_files := rev (do_files (sample_document $"SPDX-2.3")); do_snippets := do_snippets (sample_document $"SPDX-2.3");
            do_annotations := rev (do_annotations (sample_document $"SPDX-2.3"));
            do_relationships := rev (do_relationships (sample_document $"SPDX-2.3"));
            do_extracted := do_extracted (sample_document $"SPDX-2.3") |}.
  split; [constructor; try reflexivity; apply Permutation_rev|]. intro H. apply (f_equal (fun d => map pk_id (do_packages d))) in H.
  vm_compute in H. discriminate.
Qed.

(** ** C21 *)
Theorem C21_deduplication_keeps_documents_valid :
  forall (O : oracles) d ver,
    validate_full_spdx_document O d ver = [] ->
    validate_full_spdx_document O (create_document_without_duplicates (o_lic_eqb O) d) ver = [].
Proof. exact ValidationMore.valid_dd. Qed.
Print Assumptions C21_deduplication_keeps_documents_valid.
(** the sample with the file's SHA1 listed twice: valid, and deduplication changes it *)
Example C21_sample :
  let f := sample_file $"SPDXRef-File-1" in
  let f' := {| fi_name := fi_name f; fi_id := fi_id f; fi_checksums := [sample_sha1; sample_sha1]; fi_types := fi_types f;
               fi_concluded := fi_concluded f; fi_info := fi_info f; fi_lic_comment := None; fi_copyright := fi_copyright f;
               fi_comment := None; fi_notice := None; fi_contributors := [$"Joe"; $"Jane"; $"Joe"]; fi_attribution := [] |} in
  let d := {| do_ci := sample_ci $"SPDX-2.3"; do_packages := []; do_files := [f']; do_snippets := []; do_annotations := [];
              do_relationships := [rel $"SPDXRef-DOCUMENT" RT_DESCRIBES $"SPDXRef-File-1"]; do_extracted := [sample_extracted] |} in
  validate_full_spdx_document sample_oracles d None = []
  /\ map fi_contributors (do_files (create_document_without_duplicates lexpr_eqb d)) = [[$"Joe"; $"Jane"]].
Proof. vm_compute. auto. Qed.

(** ** C47 *)
Theorem C47_external_package_refs :
  forall (O : oracles) r parent v, validate_external_package_ref O r parent v = [] <-> ValidPkgRef O v r.
Proof. exact ValidationFacts.validate_external_package_ref_spec. Qed.
Print Assumptions C47_external_package_refs.
Example C47_sample :
  validate_external_package_ref sample_oracles
    {| er_category := RC_SECURITY; er_type := $"cpe23Type";
       er_locator := $"cpe:2.3:o:canonical:ubuntu_linux:10.04:-:lts:*:*:*:*:*"; er_comment := None |} $"SPDXRef-P" $"SPDX-2.2" = []
  /\ validate_external_package_ref sample_oracles
    {| er_category := RC_PACKAGE_MANAGER; er_type := $"maven-central"; er_locator := $"org.apache:x:1:2"; er_comment := None |}
    $"SPDXRef-P" $"SPDX-2.3" <> [].
Proof. vm_compute. split; [reflexivity|discriminate]. Qed.

(** ** C48 *)
Theorem C48_files_not_analyzed :
  forall (O : oracles) d ver p,
    validate_full_spdx_document O d ver = [] -> In p (do_packages d) -> pk_files_analyzed p = false ->
    pk_verif p = None /\ pk_info p = [] /\ ~ ContainsAFile d (pk_id p).
Proof. exact ValidationMore.valid_not_analyzed. Qed.
Print Assumptions C48_files_not_analyzed.
Example C48_sample :
  let p := sample_package $"SPDXRef-P" in
  let q := {| pk_id := pk_id p; pk_name := pk_name p; pk_download := NNone; pk_version := None; pk_file_name := None;
              pk_supplier := None; pk_originator := None; pk_files_analyzed := false; pk_verif := None; pk_checksums := [];
              pk_homepage := None; pk_source_info := None; pk_concluded := None; pk_info := []; pk_declared := None;
              pk_lic_comment := None; pk_copyright := None; pk_summary := None; pk_description := None; pk_comment := None;
              pk_refs := []; pk_attribution := []; pk_purpose := None; pk_release := None; pk_built := None; pk_valid_until := None |} in
  let d := {| do_ci := sample_ci $"SPDX-2.3"; do_packages := [q]; do_files := [sample_file $"SPDXRef-F"]; do_snippets := [];
              do_annotations := []; do_relationships := [rel $"SPDXRef-DOCUMENT" RT_DESCRIBES $"SPDXRef-P"];
              do_extracted := [sample_extracted] |} in
  validate_full_spdx_document sample_oracles d None = [] /\ In q (do_packages d) /\ pk_files_analyzed q = false.
Proof. vm_compute. auto. Qed.
