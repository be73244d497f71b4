(** Property theorems: what the conversion to SPDX 3 keeps, loses and reports (C72).  The report and the kept fields are spelled out in
    BumpLogSpec.v. *)
From Verif Require Import Py Data Oracles DocUtils Validation Payload Bump BumpLog BumpLogSpec BumpMore Jsonld Files Cli3 Cli3Spec Samples PropsBump PropsSpdx3.
From Verif Require BumpLogFacts Cli3Facts.

(** * C72 *)
(** A conversion that succeeds prints exactly the report of the document. *)
Theorem C72_report :
  forall (d : document) (st : bstate) (doc : nat), bump_spdx_document d = Ok (st, doc) -> conversion_log d = report d.
Proof. exact BumpLogFacts.log_ok. Qed.
Print Assumptions C72_report.
(** One that fails prints the beginning of it. *)
Theorem C72_beginning : forall d : document, exists rest, report d = conversion_log d ++ rest.
Proof. exact BumpLogFacts.log_prefix. Qed.
Print Assumptions C72_beginning.
(** This is what pyspdxtools3 prints on stderr after the verdict. *)
Theorem C72_tool :
  forall (E : environment3) (fs : files) (infile name version : pystr) (nov : bool) (d : document),
  Accepted E fs infile version nov d -> name <> [] ->
  exists lines rest,
    r3_stderr (main3 E fs infile (Some name) version nov) = (if nov then [] else [$"The document is valid."]) ++ lines
    /\ report d = lines ++ rest
    /\ ((exists st doc, bump_spdx_document d = Ok (st, doc)) -> rest = []).
Proof. exact Cli3Facts.accepted_stderr. Qed.
Print Assumptions C72_tool.
(** What is lost is reported under its name, ... *)
Theorem C72_lost :
  forall (d : document) (name : pystr), Lost d name -> exists line, In line (report d) /\ Reports line name.
Proof. exact BumpLogFacts.lost_reported. Qed.
Print Assumptions C72_lost.
(** ... and the payload, or the exception, depends on nothing but the kept fields. *)
Theorem C72_kept : forall d e : document, SameKept d e -> bump_spdx_document d = bump_spdx_document e.
Proof. exact BumpLogFacts.kept_payload. Qed.
Print Assumptions C72_kept.
(** What is printed does not tell more about the other fields. *)
Theorem C72_silent :
  forall d e : document, SameKept d e -> SameTold d e ->
  conversion_log d = conversion_log e /\ printed_by_conversion d = printed_by_conversion e.
Proof. intros d e K T. exact (conj (BumpLogFacts.told_log d e K T) (BumpLogFacts.told_printed d e K T)). Qed.
Print Assumptions C72_silent.

(** a document with something of everything that is reported *)
Definition C72_package (p : package) : package :=
  {| pk_id := pk_id p; pk_name := pk_name p; pk_download := pk_download p; pk_version := pk_version p;
     pk_file_name := Some $"./p.tgz"; pk_supplier := pk_supplier p; pk_originator := pk_originator p;
     pk_files_analyzed := pk_files_analyzed p; pk_verif := pk_verif p; pk_checksums := pk_checksums p;
     pk_homepage := pk_homepage p; pk_source_info := pk_source_info p;
     pk_concluded := Some NNoAssertion; pk_info := pk_info p; pk_declared := Some (NVal (LSym $"MIT")); pk_lic_comment := Some $"why";
     pk_copyright := Some NNoAssertion; pk_summary := pk_summary p; pk_description := pk_description p; pk_comment := pk_comment p;
     pk_refs := [{| er_category := RC_OTHER; er_type := $"own"; er_locator := $"x"; er_comment := None |};
                 {| er_category := RC_PACKAGE_MANAGER; er_type := $"npm"; er_locator := $"a@1"; er_comment := None |}];
     pk_attribution := pk_attribution p; pk_purpose := pk_purpose p; pk_release := pk_release p;
     pk_built := pk_built p; pk_valid_until := pk_valid_until p |}.
Definition C72_document : document :=
  let d := plain_document [rel $"SPDXRef-DOCUMENT" RT_DESCRIBES $"SPDXRef-Package-A"; rel $"SPDXRef-File-1" RT_DATA_FILE_OF $"SPDXRef-Package-A"] in
  with_packages (map C72_package (do_packages d)) d.
Example C72_sample :
  (exists st doc, bump_spdx_document C72_document = Ok (st, doc))
  /\ validate_full_spdx_document sample_oracles C72_document None = []
  /\ Lost C72_document $"own" /\ Lost C72_document $"DATA_FILE_OF"
  /\ In $"own not converted: missing conversion rule Conversion of ExternalPackageRef of type own is currently not supported.https://github.com/spdx/spdx-3-model/issues/81"
        (conversion_log C72_document).
Proof.
  split; [eexists; eexists; apply bumped_is; vm_compute; reflexivity|]. split; [vm_compute; reflexivity|].
  assert (P : exists p, In p (do_packages C72_document) /\ In {| er_category := RC_OTHER; er_type := $"own"; er_locator := $"x"; er_comment := None |} (pk_refs p)).
  { eexists. split; [left; reflexivity|left; reflexivity]. }
  destruct P as (p & P1 & P2). split; [|split].
  - refine (lo_ref _ _ _ P1 P2 _). vm_compute. intuition discriminate.
  - refine (lo_relationship _ (rel $"SPDXRef-File-1" RT_DATA_FILE_OF $"SPDXRef-Package-A") _ _); [right; left; reflexivity|left; reflexivity].
  - vm_compute. tauto.
Qed.
(** Not everything that is lost is reported: these two valid documents differ in the creator comment, the concluded and declared licenses of
    all packages, in references to package managers and in all extracted licensing infos, and the conversion does and says the same. *)
Definition C72_changed (p : package) : package :=
  {| pk_id := pk_id p; pk_name := pk_name p; pk_download := pk_download p; pk_version := pk_version p;
     pk_file_name := pk_file_name p; pk_supplier := pk_supplier p; pk_originator := pk_originator p;
     pk_files_analyzed := pk_files_analyzed p; pk_verif := pk_verif p; pk_checksums := pk_checksums p;
     pk_homepage := pk_homepage p; pk_source_info := pk_source_info p;
     pk_concluded := Some (NVal (LSym $"MIT")); pk_info := pk_info p; pk_declared := None; pk_lic_comment := pk_lic_comment p;
     pk_copyright := pk_copyright p; pk_summary := pk_summary p; pk_description := pk_description p; pk_comment := pk_comment p;
     pk_refs := filter (fun r => negb (str_eqb (er_type r) $"npm")) (pk_refs p); pk_attribution := pk_attribution p; pk_purpose := pk_purpose p; pk_release := pk_release p;
     pk_built := pk_built p; pk_valid_until := pk_valid_until p |}.
Definition C72_other : document :=
  let d := C72_document in let c := do_ci d in
  {| do_ci := {| ci_version := ci_version c; ci_id := ci_id c; ci_name := ci_name c; ci_namespace := ci_namespace c; ci_creators := ci_creators c;
                 ci_created := ci_created c; ci_creator_comment := Some $"another comment"; ci_data_license := ci_data_license c; ci_refs := ci_refs c;
                 ci_list_version := ci_list_version c; ci_doc_comment := ci_doc_comment c |};
     do_packages := map C72_changed (do_packages d); do_files := do_files d; do_snippets := do_snippets d; do_annotations := do_annotations d;
     do_relationships := do_relationships d;
     do_extracted := {| el_id := Some $"LicenseRef-2"; el_text := Some $"another text"; el_name := None; el_xrefs := []; el_comment := None |} :: do_extracted d |}.
Lemma C72_same_lists (A : Type) (R : A -> A -> Prop) (l : list A) : (forall x, R x x) -> Forall2 R l l.
Proof. intro H. induction l; constructor; auto. Qed.
Lemma C72_alike : SameKept C72_document C72_other /\ SameTold C72_document C72_other.
Proof.
  split; split; try reflexivity.
  - split; reflexivity.
  - repeat constructor.
  - apply C72_same_lists. intro. split; reflexivity.
  - apply C72_same_lists. intro. split; reflexivity.
  - repeat constructor; intro H; exact H.
  - apply C72_same_lists. intro. split; intro H; exact H.
  - apply C72_same_lists. intro. split; intro H; exact H.
Qed.
Theorem C72_silent_loss_refuted :
  exists (O : oracles) (d e : document),
  validate_full_spdx_document O d None = [] /\ validate_full_spdx_document O e None = []
  /\ Forall2 (fun p q => pk_concluded p <> pk_concluded q /\ pk_declared p <> pk_declared q) (do_packages d) (do_packages e) /\ do_packages d <> []
  /\ do_extracted d <> do_extracted e /\ ci_creator_comment (do_ci d) <> ci_creator_comment (do_ci e)
  /\ bump_spdx_document d = bump_spdx_document e /\ conversion_log d = conversion_log e /\ printed_by_conversion d = printed_by_conversion e.
Proof.
  exists sample_oracles, C72_document, C72_other. destruct C72_alike as [K T].
  split; [vm_compute; reflexivity|]. split; [vm_compute; reflexivity|]. split; [repeat constructor; discriminate|]. split; [discriminate|].
  split; [intro H; apply (f_equal (@List.length _)) in H; vm_compute in H; discriminate H|]. split; [vm_compute; discriminate|].
  split; [exact (C72_kept _ _ K)|]. exact (C72_silent _ _ K T).
Qed.
Print Assumptions C72_silent_loss_refuted.
(** Relationships to NONE and NOASSERTION can disappear without a word, too. *)
Definition C72_targetless : document :=
  plain_document [rel $"SPDXRef-DOCUMENT" RT_DESCRIBES $"SPDXRef-Package-A"; rel_no $"SPDXRef-Package-A" RT_DEPENDS_ON NNone; rel_no $"SPDXRef-Package-A" RT_DEPENDS_ON NNone].
Definition C72_fewer : document := plain_document [rel $"SPDXRef-DOCUMENT" RT_DESCRIBES $"SPDXRef-Package-A"].
Theorem C72_relationships_refuted :
  exists (O : oracles) (d e : document),
  validate_full_spdx_document O d None = [] /\ validate_full_spdx_document O e None = [] /\ do_relationships d <> do_relationships e
  /\ conversion_log d = conversion_log e
  /\ exists st doc st' doc' graph, bump_spdx_document d = Ok (st, doc) /\ bump_spdx_document e = Ok (st', doc')
     /\ convert_payload_to_json_ld st = Ok graph /\ convert_payload_to_json_ld st' = Ok graph.
Proof.
  exists sample_oracles, C72_targetless, C72_fewer. split; [vm_compute; reflexivity|]. split; [vm_compute; reflexivity|]. split; [discriminate|].
  split; [vm_compute; reflexivity|].
  exists (bumped C72_targetless), (bumped_doc C72_targetless), (bumped C72_fewer), (bumped_doc C72_fewer). eexists.
  split; [apply bumped_is; vm_compute; reflexivity|]. split; [apply bumped_is; vm_compute; reflexivity|]. split; vm_compute; reflexivity.
Qed.
Print Assumptions C72_relationships_refuted.
