(** Specification of C72: what the conversion to SPDX 3 keeps, what it says it does not convert, and what it says nothing about. *)
From Verif Require Import Py Data Oracles DocUtils.

(** ** The report *)
Definition not_converted (what why : pystr) : pystr := what ++ $" not converted: missing " ++ why.
Definition copyright_report (v : option (nn pystr)) : list pystr :=
  match v with Some NNoAssertion => [not_converted $"package2.copyright_text" $"conversion rule "] | _ => [] end.
(** the types of external references that SPDX 2 defines *)
Definition defined_types : list pystr :=
  [$"cpe22Type"; $"cpe23Type"; $"advisory"; $"fix"; $"url"; $"swid"; $"maven-central"; $"npm"; $"nuget"; $"bower"; $"purl"; $"swh"; $"gitoid"].
Definition ref_report (r : ext_pkg_ref) : list pystr :=
  if in_dec char_list_eq_dec (er_type r) defined_types then []
  else [not_converted (er_type r) ($"conversion rule Conversion of ExternalPackageRef of type " ++ er_type r
                                   ++ $" is currently not supported.https://github.com/spdx/spdx-3-model/issues/81")].
Definition package_report (p : package) : list pystr :=
  [not_converted $"package2.file_name" $"conversion rule https://github.com/spdx/spdx-3-model/issues/83";
   not_converted $"package2.files_analyzed" $"conversion rule https://github.com/spdx/spdx-3-model/issues/84";
   not_converted $"package2.verification_code" $"implementation of IntegrityMethod, https://github.com/spdx/spdx-3-model/issues/85"]
  ++ copyright_report (pk_copyright p)
  ++ [not_converted $"package2.license_info_from_files, package2.license_comment" $"conversion rule and missing definition of license profile"]
  ++ List.concat (map ref_report (pk_refs p)).
Definition file_report (f : file) : list pystr :=
  [not_converted $"file.file_type" $"conversion rule different cardinalities, https://github.com/spdx/spdx-3-model/issues/82"]
  ++ copyright_report (fi_copyright f)
  ++ [not_converted $"file.notice, file.contributors, file.license_info_in_file, file.license_comment"
        $"conversion rule missing definition for license profile"].
Definition snippet_report (s : snippet) : list pystr :=
  [not_converted $"snippet.file_spdx_id" $"conversion rule https://github.com/spdx/spdx-3-model/issues/130"]
  ++ copyright_report (sn_copyright s)
  ++ [not_converted $"snippet.license_info_in_snippet, snippet.license_comment," $"conversion rule missing definitions for license profile"].
(** types without counterpart, and types that are turned around, so that a relationship needs a target *)
Definition relationship_report (r : relationship) : list pystr :=
  match re_type r, re_related r with
  | RT_DATA_FILE_OF, _ => [not_converted $"DATA_FILE_OF" $"conversion rule "]
  | RT_DISTRIBUTION_ARTIFACT, _ => [not_converted $"DISTRIBUTION_ARTIFACT" $"conversion rule "]
  | RT_OPTIONAL_COMPONENT_OF, _ => [not_converted $"OPTIONAL_COMPONENT_OF" $"conversion rule "]
  | (RT_CONTAINED_BY | RT_DEPENDENCY_OF | RT_DESCENDANT_OF | RT_DESCRIBED_BY | RT_GENERATED_FROM | RT_PATCH_APPLIED), (NNone | NNoAssertion) =>
      [not_converted $"Swapped Relationship to NoAssertion/None" $"conversion rule "]
  | _, _ => []
  end.
Definition invalid_without_agent : pystr :=
  $" This case leads to an invalid SPDX3 document and is currently not supported.https://github.com/spdx/spdx-3-model/issues/180".
Definition annotation_report (a : annotation) : list pystr :=
  match ac_type (an_annotator a) with
  | AT_TOOL => [not_converted $"Annotator" ($"conversion rule The SPDX2 annotation is not of Type Person or Organization." ++ invalid_without_agent)]
  | _ => []
  end.
Definition creation_report (c : creation_info) : list pystr :=
  [not_converted $"creation_info.document_namespace" $"conversion rule https://github.com/spdx/spdx-3-model/issues/87";
   not_converted $"creation_info.license_list_version" $"conversion rule part of licensing profile, https://github.com/spdx/spdx-3-model/issues/131"]
  ++ (if in_dec actor_type_eq_dec AT_PERSON (map ac_type (ci_creators c)) then []
      else if in_dec actor_type_eq_dec AT_ORGANIZATION (map ac_type (ci_creators c)) then []
      else [not_converted $"Creators" ($"conversion rule The SPDX2 creation_info does not contain creators of Type Person or Organization."
                                       ++ invalid_without_agent)]).
Definition report (d : document) : list pystr :=
  creation_report (do_ci d) ++ List.concat (map package_report (do_packages d)) ++ List.concat (map file_report (do_files d))
  ++ List.concat (map snippet_report (do_snippets d)) ++ List.concat (map relationship_report (do_relationships d))
  ++ List.concat (map annotation_report (do_annotations d)).

(** ** What is lost: the names under which it has to be reported *)
Inductive Lost (d : document) : pystr -> Prop :=
| lo_list_version v : ci_list_version (do_ci d) = Some v -> Lost d $"creation_info.license_list_version"
| lo_file_name p x : In p (do_packages d) -> pk_file_name p = Some x -> Lost d $"package2.file_name"
| lo_analyzed p : In p (do_packages d) -> Lost d $"package2.files_analyzed"
| lo_code p x : In p (do_packages d) -> pk_verif p = Some x -> Lost d $"package2.verification_code"
| lo_info p x : In p (do_packages d) -> In x (pk_info p) -> Lost d $"package2.license_info_from_files"
| lo_lic_comment p x : In p (do_packages d) -> pk_lic_comment p = Some x -> Lost d $"package2.license_comment"
| lo_copyright p : In p (do_packages d) -> pk_copyright p = Some NNoAssertion -> Lost d $"package2.copyright_text"
| lo_ref p r : In p (do_packages d) -> In r (pk_refs p) -> ~ In (er_type r) defined_types -> Lost d (er_type r)
| lo_type f x : In f (do_files d) -> In x (fi_types f) -> Lost d $"file.file_type"
| lo_notice f x : In f (do_files d) -> fi_notice f = Some x -> Lost d $"file.notice"
| lo_contributor f x : In f (do_files d) -> In x (fi_contributors f) -> Lost d $"file.contributors"
| lo_file_info f x : In f (do_files d) -> In x (fi_info f) -> Lost d $"file.license_info_in_file"
| lo_file_comment f x : In f (do_files d) -> fi_lic_comment f = Some x -> Lost d $"file.license_comment"
| lo_file_id s : In s (do_snippets d) -> Lost d $"snippet.file_spdx_id"
| lo_snippet_info s x : In s (do_snippets d) -> In x (sn_info s) -> Lost d $"snippet.license_info_in_snippet"
| lo_snippet_comment s x : In s (do_snippets d) -> sn_lic_comment s = Some x -> Lost d $"snippet.license_comment"
| lo_relationship r : In r (do_relationships d) -> In (re_type r) [RT_DATA_FILE_OF; RT_DISTRIBUTION_ARTIFACT; RT_OPTIONAL_COMPONENT_OF] ->
    Lost d (rel_type_name (re_type r)).
(** a line that reports something under a name, possibly with others *)
Definition Reports (line name : pystr) : Prop := exists before after why, line = not_converted (before ++ name ++ after) why.

(** ** What is kept: two elements that agree in this give the same *)
Definition text_of {A} (v : option (nn A)) : option A := match v with Some (NVal x) => Some x | _ => None end.
Definition actor_of {A} (v : option (na A)) : option A := match v with Some (AVal x) => Some x | _ => None end.
(** types of references that have a counterpart in SPDX 3 *)
Definition kept_types : list pystr := [$"cpe22Type"; $"cpe23Type"; $"advisory"; $"fix"; $"swid"; $"purl"; $"swh"; $"gitoid"].
Definition kept_ref (r : ext_pkg_ref) : bool := if in_dec char_list_eq_dec (er_type r) kept_types then true else false.
Record SamePackage (p q : package) : Prop := {
  sp_id : pk_id p = pk_id q; sp_name : pk_name p = pk_name q; sp_version : pk_version p = pk_version q;
  sp_download : text_of (Some (pk_download p)) = text_of (Some (pk_download q));
  sp_supplier : actor_of (pk_supplier p) = actor_of (pk_supplier q); sp_originator : actor_of (pk_originator p) = actor_of (pk_originator q);
  sp_checksums : pk_checksums p = pk_checksums q; sp_homepage : pk_homepage p = pk_homepage q; sp_source_info : pk_source_info p = pk_source_info q;
  sp_copyright : text_of (pk_copyright p) = text_of (pk_copyright q); sp_summary : pk_summary p = pk_summary q;
  sp_description : pk_description p = pk_description q; sp_comment : pk_comment p = pk_comment q;
  sp_refs : map (fun r => (er_type r, er_locator r, er_comment r)) (filter kept_ref (pk_refs p))
            = map (fun r => (er_type r, er_locator r, er_comment r)) (filter kept_ref (pk_refs q));
  sp_attribution : pk_attribution p = pk_attribution q; sp_purpose : pk_purpose p = pk_purpose q;
  sp_release : pk_release p = pk_release q; sp_built : pk_built p = pk_built q; sp_valid_until : pk_valid_until p = pk_valid_until q }.
Record SameFile (f g : file) : Prop := {
  sf_id : fi_id f = fi_id g; sf_name : fi_name f = fi_name g; sf_checksums : fi_checksums f = fi_checksums g;
  sf_copyright : text_of (fi_copyright f) = text_of (fi_copyright g); sf_comment : fi_comment f = fi_comment g;
  sf_attribution : fi_attribution f = fi_attribution g }.
Record SameSnippet (s t : snippet) : Prop := {
  ss_id : sn_id s = sn_id t; ss_bytes : sn_bytes s = sn_bytes t; ss_lines : sn_lines s = sn_lines t;
  ss_copyright : text_of (sn_copyright s) = text_of (sn_copyright t); ss_comment : sn_comment s = sn_comment t; ss_name : sn_name s = sn_name t;
  ss_attribution : sn_attribution s = sn_attribution t }.
Record SameInfo (c b : creation_info) : Prop := {
  si_id : ci_id c = ci_id b; si_name : ci_name c = ci_name b; si_namespace : ci_namespace c = ci_namespace b;
  si_creators : ci_creators c = ci_creators b; si_created : ci_created c = ci_created b; si_license : ci_data_license c = ci_data_license b;
  si_refs : ci_refs c = ci_refs b; si_comment : ci_doc_comment c = ci_doc_comment b }.
(** everything that can be found in the payload; nothing about extracted licensing infos *)
Record SameKept (d e : document) : Prop := {
  sk_info : SameInfo (do_ci d) (do_ci e); sk_packages : Forall2 SamePackage (do_packages d) (do_packages e);
  sk_files : Forall2 SameFile (do_files d) (do_files e); sk_snippets : Forall2 SameSnippet (do_snippets d) (do_snippets e);
  sk_annotations : do_annotations d = do_annotations e; sk_relationships : do_relationships d = do_relationships e }.

(** ** What is reported depends on no more than this *)
Definition is_noassertion (v : option (nn pystr)) : Prop := v = Some NNoAssertion.
Definition undefined_ref (r : ext_pkg_ref) : bool := if in_dec char_list_eq_dec (er_type r) defined_types then false else true.
Record SameTold (d e : document) : Prop := {
  st_packages : Forall2 (fun p q => (is_noassertion (pk_copyright p) <-> is_noassertion (pk_copyright q))
      /\ (pk_download p = NNone <-> pk_download q = NNone)
      /\ map er_type (filter undefined_ref (pk_refs p)) = map er_type (filter undefined_ref (pk_refs q))) (do_packages d) (do_packages e);
  st_files : Forall2 (fun f g => is_noassertion (fi_copyright f) <-> is_noassertion (fi_copyright g)) (do_files d) (do_files e);
  st_snippets : Forall2 (fun s t => is_noassertion (sn_copyright s) <-> is_noassertion (sn_copyright t)) (do_snippets d) (do_snippets e) }.
