(** What the conversion to SPDX 3 prints to stderr: spdx3/bump_from_spdx2/message.py and its uses.

    Left out: the traceback that logging prints for the malformed call at relationship.py:246-248. *)
From Verif Require Import Py Data Oracles DocUtils Payload Bump.

(** message.py:7-11  print_missing_conversion; the reasons by their texts *)
Definition print_missing_conversion (field reason information : pystr) : pystr :=
  field ++ $" not converted: " ++ reason ++ $" " ++ information.
Definition rule : pystr := $"missing conversion rule".
Definition implementation : pystr := $"missing implementation".

(** package.py:57-61, file.py:36-40, snippet.py:37-41 (the same field name in all of them) *)
Definition copyright_log (v : option (nn pystr)) : list pystr :=
  match v with Some NNoAssertion => [print_missing_conversion $"package2.copyright_text" rule []] | _ => [] end.
(** package.py:78-81, 141-148  the loop over the external references *)
Definition refs_log (skip_purl : bool) (refs : list ext_pkg_ref) : list pystr :=
  flat_map (fun r =>
    if skip_purl && is_purl r then []
    else match assoc (er_type r) external_ref_type_map with
         | Some _ => []
         | None => [print_missing_conversion (er_type r) rule
                      ($"Conversion of ExternalPackageRef of type " ++ er_type r ++ $" is currently not supported."
                       ++ $"https://github.com/spdx/spdx-3-model/issues/81")]
         end) refs.
(** package.py:26-114: the lines until the function ends or raises *)
Definition package_log (p : package) (ns : pystr) (refs : list ext_doc_ref) : list pystr :=
  match get_full_element_spdx_id (pk_id p) ns refs with
  | Raise _ => []
  | Ok _ =>
      [print_missing_conversion $"package2.file_name" rule $"https://github.com/spdx/spdx-3-model/issues/83";
       print_missing_conversion $"package2.files_analyzed" rule $"https://github.com/spdx/spdx-3-model/issues/84";
       print_missing_conversion $"package2.verification_code" implementation $"of IntegrityMethod, https://github.com/spdx/spdx-3-model/issues/85"]
      ++ match map_result bump_checksum (pk_checksums p) with
         | Raise _ => []
         | Ok _ =>
             copyright_log (pk_copyright p)
             ++ [print_missing_conversion $"package2.license_info_from_files, package2.license_comment" rule $"and missing definition of license profile"]
             ++ refs_log (match single_purl (pk_refs p) with Some _ => true | None => false end) (pk_refs p)
         end
  end.
(** file.py:16-56 *)
Definition file_log (f : file) (ns : pystr) (refs : list ext_doc_ref) : list pystr :=
  match get_full_element_spdx_id (fi_id f) ns refs with
  | Raise _ => []
  | Ok _ =>
      match map_result bump_checksum (fi_checksums f) with
      | Raise _ => []
      | Ok _ =>
          [print_missing_conversion $"file.file_type" rule $"different cardinalities, https://github.com/spdx/spdx-3-model/issues/82"]
          ++ copyright_log (fi_copyright f)
          ++ [print_missing_conversion $"file.notice, file.contributors, file.license_info_in_file, file.license_comment" rule
                $"missing definition for license profile"]
      end
  end.
(** snippet.py:20-58 *)
Definition snippet_log (s : snippet) (ns : pystr) (refs : list ext_doc_ref) : list pystr :=
  match get_full_element_spdx_id (sn_id s) ns refs with
  | Raise _ => []
  | Ok _ =>
      [print_missing_conversion $"snippet.file_spdx_id" rule $"https://github.com/spdx/spdx-3-model/issues/130"]
      ++ copyright_log (sn_copyright s)
      ++ [print_missing_conversion $"snippet.license_info_in_snippet, snippet.license_comment," rule $"missing definitions for license profile"]
  end.
(** relationship.py:172-190 *)
Definition relationship_log (r : relationship) : list pystr :=
  match relationship_mapping (re_type r) with
  | None => [print_missing_conversion (rel_type_name (re_type r)) rule []]
  | Some p =>
      if rp_swap p then
        match snd (determine_completeness_and_to (re_related r)) with
        | [] => [print_missing_conversion $"Swapped Relationship to NoAssertion/None" rule []]
        | _ => []
        end
      else []
  end.
(** annotation.py:29-38 *)
Definition annotation_log (a : annotation) : list pystr :=
  if is_agent (ac_type (an_annotator a)) then []
  else [print_missing_conversion $"Annotator" rule
          ($"The SPDX2 annotation is not of Type Person or Organization. This case leads to an invalid SPDX3 document and is currently not supported."
           ++ $"https://github.com/spdx/spdx-3-model/issues/180")].
(** creation_info.py:16-79 *)
Definition creation_log (c : creation_info) : list pystr :=
  [print_missing_conversion $"creation_info.document_namespace" rule $"https://github.com/spdx/spdx-3-model/issues/87"]
  ++ match map_result bump_external_document_ref (ci_refs c) with
     | Raise _ => []
     | Ok _ =>
         [print_missing_conversion $"creation_info.license_list_version" rule $"part of licensing profile, https://github.com/spdx/spdx-3-model/issues/131"]
         ++ (if existsb (fun a => is_agent (ac_type a)) (ci_creators c) then []
             else [print_missing_conversion $"Creators" rule
                     ($"The SPDX2 creation_info does not contain creators of Type Person or Organization. This case leads to an invalid SPDX3 document and is currently not supported."
                      ++ $"https://github.com/spdx/spdx-3-model/issues/180")])
     end.

(** A loop whose body prints and may raise, and what follows *)
Fixpoint each_log {A} (f : A -> bstate -> result bstate) (lines : A -> list pystr) (l : list A) (st : bstate) (k : bstate -> list pystr)
  : list pystr :=
  match l with
  | [] => k st
  | x :: l' => lines x ++ match f x st with Raise _ => [] | Ok st' => each_log f lines l' st' k end
  end.
Fixpoint annotations_log (l : list annotation) (ci : nat) (ns : pystr) (counter : nat) (st : bstate) : list pystr :=
  match l with
  | [] => []
  | a :: l' => annotation_log a ++ match bump_annotation a ci ns counter st with Raise _ => [] | Ok st' => annotations_log l' ci ns (S counter) st' end
  end.
(** spdx_document.py:21-70: the lines on stderr until the conversion ends or raises *)
Definition conversion_log (d : document) : list pystr :=
  let c := do_ci d in
  let ns := ci_namespace c in
  creation_log c
  ++ match bump_creation_info c {| b_objs := []; b_cis := []; b_map := [] |} with
     | Raise _ => []
     | Ok (st, doc) =>
         let st := update_document (set_root (map (fun r => ns ++ $"#" ++ nn_text (re_related r))
                                                 (filter_by_type_and_origin (do_relationships d) RT_DESCRIBES DOCUMENT_SPDX_ID)))
                                   doc st in
         let ci := match nth_error (b_objs st) doc with Some (E3Document x) => d3_ci x | _ => O end in
         each_log (fun p => bump_package p ns (ci_refs c) doc) (fun p => package_log p ns (ci_refs c)) (do_packages d) (add_element st doc) (fun st =>
         each_log (fun f => bump_file f ns (ci_refs c) doc) (fun f => file_log f ns (ci_refs c)) (do_files d) st (fun st =>
         each_log (fun s => bump_snippet s ns (ci_refs c) doc) (fun s => snippet_log s ns (ci_refs c)) (do_snippets d) st (fun st =>
         flat_map relationship_log (do_relationships d)
         ++ annotations_log (do_annotations d) ci ns 0 (bump_relationships (do_relationships d) ns st))))
     end.
