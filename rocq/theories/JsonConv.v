(** Conversion of documents to JSON-like dictionaries: spdx/jsonschema/*.py. *)
From Verif Require Import Py Data Oracles Basics DocUtils Json.

(** converter.py:53-68  TypedConverter.convert: the properties in declaration order with the value
    _get_property_value returns for them (None is skipped); [name] is json_property_name. *)
Fixpoint convert_loop (name : pystr -> pystr) (ps : list (pystr * result (option json)))
                      (acc : list (pystr * json)) : result (list (pystr * json)) :=
  match ps with
  | [] => Ok acc
  | (p, v) :: ps' =>
      do o <- v;
      match o with
      | None => convert_loop name ps' acc
      | Some j => convert_loop name ps' (dict_set (name p) j acc)
      end
  end.
Definition convert (name : pystr -> pystr) (ps : list (pystr * result (option json))) : result json :=
  do kvs <- convert_loop name ps []; Ok (JObj kvs).

(** converter.py:47-48 *)
Definition json_property_name (p : pystr) : pystr := snake_to_camel p.
(** document_converter.py:47-50, file_converter.py:23-26, package_converter.py:30-33, snippet_converter.py:20-23 *)
Definition json_property_name_id (p : pystr) : pystr :=
  if str_eqb p $"SPDX_ID" then $"SPDXID" else json_property_name p.

(** shorthands for property values *)
Definition the_str (s : pystr) : result (option json) := Ok (Some (JStr s)).
Definition opt_str (o : option pystr) : result (option json) :=
  Ok (match o with Some s => Some (JStr s) | None => None end).
(** [... or None] on a list *)
Definition or_none (l : list json) : option json := match l with [] => None | _ => Some (JArr l) end.
Definition strs (l : list pystr) : list json := map JStr l.

(** str(x) for Union[str, SpdxNoAssertion, SpdxNone]: spdx_no_assertion.py:13-14, spdx_none.py:13-14 *)
Definition nn_to_str {A} (show : A -> pystr) (x : nn A) : pystr :=
  match x with NVal a => show a | NNoAssertion => $"NOASSERTION" | NNone => $"NONE" end.
Definition na_to_str {A} (show : A -> pystr) (x : na A) : pystr :=
  match x with AVal a => show a | ANoAssertion => $"NOASSERTION" end.
Definition text_str (x : nn pystr) : pystr := nn_to_str (fun s => s) x.

Section WithOracles.
Variable O : oracles.

(** str(license_expression) *)
Definition lic_str (l : license) : pystr := nn_to_str (o_lic_str O) l.

(** apply_if_present(datetime_to_iso_string, d): optional_utils.py:10-14 *)
Definition opt_date (d : option datetime) : result (option json) :=
  match d with
  | Some x => do s <- datetime_to_iso_string x; Ok (Some (JStr s))
  | None => Ok None
  end.

(** annotation_converter.py:14-24, annotation_properties.py:9-13 *)
Definition annotation_props (a : annotation) : list (pystr * result (option json)) :=
  [ ($"ANNOTATION_DATE", do s <- datetime_to_iso_string (an_date a); Ok (Some (JStr s)));
    ($"ANNOTATION_TYPE", the_str (annotation_type_name (an_type a)));
    ($"ANNOTATOR", the_str (actor_str (an_annotator a)));
    ($"COMMENT", the_str (an_comment a)) ].
Definition convert_annotation (a : annotation) : result json := convert json_property_name (annotation_props a).

(** checksum_converter.py:28-32  algorithm_to_json_string *)
Definition algorithm_to_json_string (a : checksum_alg) : pystr :=
  let name_with_dash := replace $"_" $"-" (checksum_alg_name a) in
  if contains $"BLAKE2B" name_with_dash then replace $"BLAKE2B" $"BLAKE2b" name_with_dash else name_with_dash.

(** checksum_converter.py:19-25, checksum_properties.py:9-11 *)
Definition checksum_props (c : checksum) : list (pystr * result (option json)) :=
  [ ($"ALGORITHM", the_str (algorithm_to_json_string (ck_alg c)));
    ($"CHECKSUM_VALUE", the_str (ck_value c)) ].
Definition convert_checksum (c : checksum) : result json := convert json_property_name (checksum_props c).

(** [[converter.convert(x) for x in l] or None] *)
Definition convert_list {A} (f : A -> result json) (l : list A) : result (option json) :=
  do js <- map_result f l; Ok (or_none js).
(** apply_if_present(converter.convert, x) *)
Definition convert_opt {A} (f : A -> result json) (o : option A) : result (option json) :=
  match o with Some x => do j <- f x; Ok (Some j) | None => Ok None end.

(** creation_info_converter.py:21-34, creation_info_properties.py:9-13 *)
Definition creation_info_props (c : creation_info) : list (pystr * result (option json)) :=
  [ ($"CREATED", do s <- datetime_to_iso_string (ci_created c); Ok (Some (JStr s)));
    ($"CREATORS", Ok (or_none (strs (map actor_str (ci_creators c)))));
    ($"LICENSE_LIST_VERSION", opt_str (option_map version_str (ci_list_version c)));
    ($"COMMENT", opt_str (ci_creator_comment c)) ].
Definition convert_creation_info (c : creation_info) : result json :=
  convert json_property_name (creation_info_props c).

(** external_document_ref_converter.py:19-30, external_document_ref_properties.py:9-12 *)
Definition external_document_ref_props (r : ext_doc_ref) : list (pystr * result (option json)) :=
  [ ($"EXTERNAL_DOCUMENT_ID", the_str (edr_id r));
    ($"SPDX_DOCUMENT", the_str (edr_uri r));
    ($"CHECKSUM", do j <- convert_checksum (edr_checksum r); Ok (Some j)) ].
Definition convert_external_document_ref (r : ext_doc_ref) : result json :=
  convert json_property_name (external_document_ref_props r).

(** external_package_ref_converter.py:13-26, external_package_ref_properties.py:9-13 *)
Definition external_package_ref_props (r : ext_pkg_ref) : list (pystr * result (option json)) :=
  [ ($"COMMENT", opt_str (er_comment r));
    ($"REFERENCE_CATEGORY", the_str (ref_category_name (er_category r)));
    ($"REFERENCE_LOCATOR", the_str (er_locator r));
    ($"REFERENCE_TYPE", the_str (er_type r)) ].
Definition convert_external_package_ref (r : ext_pkg_ref) : result json :=
  convert json_property_name (external_package_ref_props r).

(** extracted_licensing_info_converter.py:14-29, extracted_licensing_info_properties.py:9-14 *)
Definition extracted_props (e : extracted) : list (pystr * result (option json)) :=
  [ ($"COMMENT", opt_str (el_comment e));
    ($"EXTRACTED_TEXT", opt_str (el_text e));
    ($"LICENSE_ID", opt_str (el_id e));
    ($"NAME", opt_str (option_map (na_to_str (fun s => s)) (el_name e)));
    ($"SEE_ALSOS", Ok (or_none (strs (el_xrefs e)))) ].
Definition convert_extracted (e : extracted) : result json := convert json_property_name (extracted_props e).

(** file_converter.py:31-33, package_converter.py:40-46, snippet_converter.py:30-34 *)
Definition annotations_of (id : pystr) (d : document) : list annotation :=
  filter (fun a => str_eqb (an_id a) id) (do_annotations d).

(** file_converter.py:28-61, file_properties.py:9-24 *)
Definition file_props (f : file) (d : document) : list (pystr * result (option json)) :=
  [ ($"SPDX_ID", the_str (fi_id f));
    ($"ANNOTATIONS", convert_list convert_annotation (annotations_of (fi_id f) d));
    ($"ARTIFACT_OFS", Ok None);
    ($"ATTRIBUTION_TEXTS", Ok (or_none (strs (fi_attribution f))));
    ($"CHECKSUMS", convert_list convert_checksum (fi_checksums f));
    ($"COMMENT", opt_str (fi_comment f));
    ($"COPYRIGHT_TEXT", opt_str (option_map text_str (fi_copyright f)));
    ($"FILE_CONTRIBUTORS", Ok (or_none (strs (fi_contributors f))));
    ($"FILE_DEPENDENCIES", Ok None);
    ($"FILE_NAME", the_str (fi_name f));
    ($"FILE_TYPES", Ok (or_none (strs (map file_type_name (fi_types f)))));
    ($"LICENSE_COMMENTS", opt_str (fi_lic_comment f));
    ($"LICENSE_CONCLUDED", opt_str (option_map lic_str (fi_concluded f)));
    ($"LICENSE_INFO_IN_FILES", Ok (or_none (strs (map lic_str (fi_info f)))));
    ($"NOTICE_TEXT", opt_str (fi_notice f)) ].
Definition convert_file (d : document) (f : file) : result json := convert json_property_name_id (file_props f d).

(** package_verification_code_converter.py:13-22, package_verification_code_properties.py:9-11 *)
Definition verif_code_props (v : verif_code) : list (pystr * result (option json)) :=
  [ ($"PACKAGE_VERIFICATION_CODE_EXCLUDED_FILES", Ok (or_none (strs (vc_excluded v))));
    ($"PACKAGE_VERIFICATION_CODE_VALUE", the_str (vc_value v)) ].
Definition convert_verif_code (v : verif_code) : result json := convert json_property_name (verif_code_props v).

(** package_converter.py:35-103, package_properties.py:9-36 *)
Definition package_props (p : package) (d : document) : list (pystr * result (option json)) :=
  [ ($"SPDX_ID", the_str (pk_id p));
    ($"ANNOTATIONS", convert_list convert_annotation (annotations_of (pk_id p) d));
    ($"ATTRIBUTION_TEXTS", Ok (or_none (strs (pk_attribution p))));
    ($"BUILT_DATE", opt_date (pk_built p));
    ($"CHECKSUMS", convert_list convert_checksum (pk_checksums p));
    ($"COMMENT", opt_str (pk_comment p));
    ($"COPYRIGHT_TEXT", opt_str (option_map text_str (pk_copyright p)));
    ($"DESCRIPTION", opt_str (pk_description p));
    ($"DOWNLOAD_LOCATION", the_str (text_str (pk_download p)));
    ($"EXTERNAL_REFS", convert_list convert_external_package_ref (pk_refs p));
    ($"FILES_ANALYZED", Ok (Some (JBool (pk_files_analyzed p))));
    ($"HOMEPAGE", opt_str (option_map text_str (pk_homepage p)));
    ($"LICENSE_COMMENTS", opt_str (pk_lic_comment p));
    ($"LICENSE_CONCLUDED", opt_str (option_map lic_str (pk_concluded p)));
    ($"LICENSE_DECLARED", opt_str (option_map lic_str (pk_declared p)));
    ($"LICENSE_INFO_FROM_FILES", Ok (or_none (strs (map lic_str (pk_info p)))));
    ($"NAME", the_str (pk_name p));
    ($"ORIGINATOR", opt_str (option_map (na_to_str actor_str) (pk_originator p)));
    ($"PACKAGE_FILE_NAME", opt_str (pk_file_name p));
    ($"PACKAGE_VERIFICATION_CODE", convert_opt convert_verif_code (pk_verif p));
    ($"PRIMARY_PACKAGE_PURPOSE", opt_str (option_map purpose_name (pk_purpose p)));
    ($"RELEASE_DATE", opt_date (pk_release p));
    ($"SOURCE_INFO", opt_str (pk_source_info p));
    ($"SUMMARY", opt_str (pk_summary p));
    ($"SUPPLIER", opt_str (option_map (na_to_str actor_str) (pk_supplier p)));
    ($"VALID_UNTIL_DATE", opt_date (pk_valid_until p));
    ($"VERSION_INFO", opt_str (pk_version p)) ].
Definition convert_package (d : document) (p : package) : result json :=
  convert json_property_name_id (package_props p d).

(** relationship_converter.py:13-23, relationship_properties.py:9-13 *)
Definition relationship_props (r : relationship) : list (pystr * result (option json)) :=
  [ ($"SPDX_ELEMENT_ID", the_str (re_id r));
    ($"COMMENT", opt_str (re_comment r));
    ($"RELATED_SPDX_ELEMENT", the_str (text_str (re_related r)));
    ($"RELATIONSHIP_TYPE", the_str (rel_type_name (re_type r))) ].
Definition convert_relationship (r : relationship) : result json := convert json_property_name (relationship_props r).

(** snippet_converter.py:67-83  convert_line_range_to_dict, convert_byte_range_to_dict, _convert_range_to_dict,
    _pointer *)
Definition pointer (reference : pystr) (target : Z) (pointer_property : pystr) : json :=
  JObj [($"reference", JStr reference); (pointer_property, JInt target)].
Definition convert_range_to_dict (r : Z * Z) (file_id pointer_property : pystr) : json :=
  JObj [($"startPointer", pointer file_id (fst r) pointer_property);
        ($"endPointer", pointer file_id (snd r) pointer_property)].
(** snippet_converter.py:49-53 (a pair is always truthy) *)
Definition convert_ranges (s : snippet) : json :=
  JArr (convert_range_to_dict (sn_bytes s) (sn_file s) $"offset"
        :: match sn_lines s with
           | Some r => [convert_range_to_dict r (sn_file s) $"lineNumber"]
           | None => []
           end).

(** snippet_converter.py:25-55, snippet_properties.py:9-20 *)
Definition snippet_props (s : snippet) (d : document) : list (pystr * result (option json)) :=
  [ ($"SPDX_ID", the_str (sn_id s));
    ($"ANNOTATIONS", convert_list convert_annotation (annotations_of (sn_id s) d));
    ($"ATTRIBUTION_TEXTS", Ok (or_none (strs (sn_attribution s))));
    ($"COMMENT", opt_str (sn_comment s));
    ($"COPYRIGHT_TEXT", opt_str (option_map text_str (sn_copyright s)));
    ($"LICENSE_COMMENTS", opt_str (sn_lic_comment s));
    ($"LICENSE_CONCLUDED", opt_str (option_map lic_str (sn_concluded s)));
    ($"LICENSE_INFO_IN_SNIPPETS", Ok (or_none (strs (map lic_str (sn_info s)))));
    ($"NAME", opt_str (sn_name s));
    ($"RANGES", Ok (Some (convert_ranges s)));
    ($"SNIPPET_FROM_FILE", the_str (sn_file s)) ].
Definition convert_snippet (d : document) (s : snippet) : result json :=
  convert json_property_name_id (snippet_props s d).

(** document_converter.py:57-63 *)
Definition document_annotations (d : document) : list annotation :=
  filter (fun a => negb (str_in (an_id a) (get_contained_spdx_element_ids d))) (do_annotations d).

(** document_converter.py:52-95, document_properties.py:9-23 *)
Definition document_props (d : document) : list (pystr * result (option json)) :=
  let c := do_ci d in
  [ ($"SPDX_ID", the_str (ci_id c));
    ($"ANNOTATIONS", convert_list convert_annotation (document_annotations d));
    ($"COMMENT", opt_str (ci_doc_comment c));
    ($"CREATION_INFO", do j <- convert_creation_info c; Ok (Some j));
    ($"DATA_LICENSE", the_str (ci_data_license c));
    ($"EXTERNAL_DOCUMENT_REFS", convert_list convert_external_document_ref (ci_refs c));
    ($"HAS_EXTRACTED_LICENSING_INFOS", convert_list convert_extracted (do_extracted d));
    ($"NAME", the_str (ci_name c));
    ($"SPDX_VERSION", the_str (ci_version c));
    ($"DOCUMENT_NAMESPACE", the_str (ci_namespace c));
    ($"PACKAGES", convert_list (convert_package d) (do_packages d));
    ($"FILES", convert_list (convert_file d) (do_files d));
    ($"SNIPPETS", convert_list (convert_snippet d) (do_snippets d));
    ($"RELATIONSHIPS", convert_list convert_relationship (do_relationships d)) ].
(** DocumentConverter().convert(document) *)
Definition convert_document (d : document) : result json := convert json_property_name_id (document_props d).

End WithOracles.
