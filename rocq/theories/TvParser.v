(** The tag-value parser: spdx/parser/tagvalue/parser.py and helper_methods.py.

    The LALR(1) automaton that ply generates from the grammar (ply is not part of the repository) is modelled by the
    machine [step] below; see there. *)
From Verif Require Import Py PyRe Data Oracles Basics Json Construct JsonParse TvLexer.

(** ** Values stored in the dictionaries *)

(** What the parser stores under an argument name: single values, and lists filled by
    setdefault(name, []).append(value) *)
Inductive tval :=
| VStr (s : pystr) | VNoAssertion | VNone | VLic (e : lexpr) | VNull
| VActor (a : actor) | VDate (d : datetime) | VVersion (v : version) | VBool (b : bool) | VPurpose (p : purpose)
| VVerif (v : verif_code) | VRange (a b : Z) | VAnnType (t : annotation_type) | VRelType (t : rel_type)
| VStrs (l : list pystr) | VLics (l : list (option license)) | VTypes (l : list file_type)
| VChecksums (l : list checksum) | VExtRefs (l : list ext_pkg_ref) | VActors (l : list actor)
| VDocRefs (l : list ext_doc_ref).
Definition tdict := list (pystr * tval).

(** The classes of elements *)
Inductive clazz := C_File | C_Annotation | C_Relationship | C_Snippet | C_Package | C_Extracted.
Definition clazz_eq_dec (x y : clazz) : {x = y} + {x <> y}.
Proof. decide equality. Defined.
Definition clazz_eqb (x y : clazz) : bool := if clazz_eq_dec x y then true else false.
Definition clazz_name (c : clazz) : pystr :=
  match c with
  | C_File => $"File" | C_Annotation => $"Annotation" | C_Relationship => $"Relationship" | C_Snippet => $"Snippet"
  | C_Package => $"Package" | C_Extracted => $"ExtractedLicensingInfo"
  end.
(** parser.py:65-72 ELEMENT_EXPECTED_START_TAG *)
Definition start_tag (c : clazz) : pystr :=
  match c with
  | C_File => $"FileName" | C_Annotation => $"Annotator" | C_Relationship => $"Relationship"
  | C_Snippet => $"SnippetSPDXID" | C_Package => $"PackageName" | C_Extracted => $"LicenseID"
  end.
(** p[1] in ELEMENT_EXPECTED_START_TAG.values() *)
Definition is_start_tag (t : tag) : bool :=
  match t with
  | T_FileName | T_Annotator | T_Relationship | T_SnippetSPDXID | T_PackageName | T_LicenseID => true
  | _ => false
  end.

(** helper_methods.py:83-134  TAG_DATA_MODEL_FIELD: class (None for CreationInfo) and field *)
Definition tag_data_model_field (t : tag) : option (option clazz * pystr) :=
  match t with
  | T_SPDXVersion => Some (None, $"spdx_version")
  | T_DataLicense => Some (None, $"data_license")
  | T_DocumentName => Some (None, $"name")
  | T_DocumentComment => Some (None, $"document_comment")
  | T_DocumentNamespace => Some (None, $"document_namespace")
  | T_Creator => Some (None, $"creator")
  | T_Created => Some (None, $"created")
  | T_CreatorComment => Some (None, $"creator_comment")
  | T_LicenseListVersion => Some (None, $"license_list_version")
  | T_ExternalDocumentRef => Some (None, $"external_document_refs")
  | T_FileName => Some (Some C_File, $"name")
  | T_FileType => Some (Some C_File, $"file_type")
  | T_FileChecksum => Some (Some C_File, $"checksums")
  | T_FileNotice => Some (Some C_File, $"notice")
  | T_FileCopyrightText => Some (Some C_File, $"copyright_text")
  | T_LicenseComments => Some (Some C_File, $"license_comment")
  | T_FileComment => Some (Some C_File, $"comment")
  | T_LicenseConcluded => Some (Some C_File, $"license_concluded")
  | T_PackageName => Some (Some C_Package, $"name")
  | T_PackageComment => Some (Some C_Package, $"comment")
  | T_PackageCopyrightText => Some (Some C_Package, $"copyright_text")
  | T_PackageLicenseComments => Some (Some C_Package, $"license_comment")
  | T_PackageLicenseDeclared => Some (Some C_Package, $"license_declared")
  | T_PackageLicenseConcluded => Some (Some C_Package, $"license_concluded")
  | T_PackageFileName => Some (Some C_Package, $"file_name")
  | T_PackageVersion => Some (Some C_Package, $"version")
  | T_PackageDownloadLocation => Some (Some C_Package, $"download_location")
  | T_PackageSummary => Some (Some C_Package, $"summary")
  | T_PackageSourceInfo => Some (Some C_Package, $"source_info")
  | T_PackageSupplier => Some (Some C_Package, $"supplier")
  | T_PackageOriginator => Some (Some C_Package, $"originator")
  | T_PackageDescription => Some (Some C_Package, $"description")
  | T_PackageHomePage => Some (Some C_Package, $"homepage")
  | T_SnippetSPDXID => Some (Some C_Snippet, $"spdx_id")
  | T_SnippetFromFileSPDXID => Some (Some C_Snippet, $"file_spdx_id")
  | T_SnippetName => Some (Some C_Snippet, $"name")
  | T_SnippetComment => Some (Some C_Snippet, $"comment")
  | T_SnippetCopyrightText => Some (Some C_Snippet, $"copyright_text")
  | T_SnippetLicenseComments => Some (Some C_Snippet, $"license_comment")
  | T_SnippetLicenseConcluded => Some (Some C_Snippet, $"license_concluded")
  | T_SnippetByteRange => Some (Some C_Snippet, $"byte_range")
  | T_SnippetLineRange => Some (Some C_Snippet, $"line_range")
  | T_Annotator => Some (Some C_Annotation, $"annotator")
  | T_SPDXREF => Some (Some C_Annotation, $"spdx_id")
  | T_AnnotationComment => Some (Some C_Annotation, $"annotation_comment")
  | T_LicenseID => Some (Some C_Extracted, $"license_id")
  | T_ExtractedText => Some (Some C_Extracted, $"extracted_text")
  | T_LicenseComment => Some (Some C_Extracted, $"comment")
  | T_LicenseName => Some (Some C_Extracted, $"license_name")
  | _ => None
  end.
(** helper_methods.py:74-77  get_property_name *)
Definition get_property_name (t : tag) : pystr :=
  match tag_data_model_field t with Some (_, f) => f | None => camel_to_snake (tag_name t) end.

(** ** The parser object *)

(** elements_built: for packages it matters whether the key is present *)
Record built := { b_packages : option (list package); b_files : list file; b_snippets : list snippet;
                  b_annotations : list annotation; b_relationships : list relationship;
                  b_extracted : list extracted }.

(** Parser.logger; current_element: its "class", its "logger" and the rest; creation_info: its "logger" and the rest *)
Record pstate := { ps_log : list pystr; ps_class : option clazz; ps_cur_log : list pystr; ps_cur : tdict;
                   ps_ci_log : list pystr; ps_ci : tdict; ps_built : built }.
(** parser.py:86-94 *)
Definition no_elements : built :=
  {| b_packages := None; b_files := []; b_snippets := []; b_annotations := []; b_relationships := [];
     b_extracted := [] |}.
Definition init_state : pstate :=
  {| ps_log := []; ps_class := None; ps_cur_log := []; ps_cur := []; ps_ci_log := []; ps_ci := [];
     ps_built := no_elements |}.

Definition log (m : list pystr) (st : pstate) : pstate :=
  {| ps_log := ps_log st ++ m; ps_class := ps_class st; ps_cur_log := ps_cur_log st; ps_cur := ps_cur st;
     ps_ci_log := ps_ci_log st; ps_ci := ps_ci st; ps_built := ps_built st |}.
Definition log_cur (m : list pystr) (st : pstate) : pstate :=
  {| ps_log := ps_log st; ps_class := ps_class st; ps_cur_log := ps_cur_log st ++ m; ps_cur := ps_cur st;
     ps_ci_log := ps_ci_log st; ps_ci := ps_ci st; ps_built := ps_built st |}.
Definition log_ci (m : list pystr) (st : pstate) : pstate :=
  {| ps_log := ps_log st; ps_class := ps_class st; ps_cur_log := ps_cur_log st; ps_cur := ps_cur st;
     ps_ci_log := ps_ci_log st ++ m; ps_ci := ps_ci st; ps_built := ps_built st |}.
Definition with_cur (d : tdict) (st : pstate) : pstate :=
  {| ps_log := ps_log st; ps_class := ps_class st; ps_cur_log := ps_cur_log st; ps_cur := d;
     ps_ci_log := ps_ci_log st; ps_ci := ps_ci st; ps_built := ps_built st |}.
Definition with_ci (d : tdict) (st : pstate) : pstate :=
  {| ps_log := ps_log st; ps_class := ps_class st; ps_cur_log := ps_cur_log st; ps_cur := ps_cur st;
     ps_ci_log := ps_ci_log st; ps_ci := d; ps_built := ps_built st |}.
Definition with_class (c : clazz) (st : pstate) : pstate :=
  {| ps_log := ps_log st; ps_class := Some c; ps_cur_log := ps_cur_log st; ps_cur := ps_cur st;
     ps_ci_log := ps_ci_log st; ps_ci := ps_ci st; ps_built := ps_built st |}.
Definition with_built (b : built) (st : pstate) : pstate :=
  {| ps_log := ps_log st; ps_class := ps_class st; ps_cur_log := ps_cur_log st; ps_cur := ps_cur st;
     ps_ci_log := ps_ci_log st; ps_ci := ps_ci st; ps_built := b |}.
(** self.current_element = {"logger": Logger()} *)
Definition new_element (st : pstate) : pstate :=
  {| ps_log := ps_log st; ps_class := None; ps_cur_log := []; ps_cur := [];
     ps_ci_log := ps_ci_log st; ps_ci := ps_ci st; ps_built := ps_built st |}.

(** ** Constructors called with a dictionary of keyword arguments *)

(** One argument of the stated type; [None]: not given *)
Definition t_str (cls fld : pystr) (v : option tval) : chk pystr :=
  match v with Some (VStr s) => COk s | _ => bad cls fld end.
Definition t_opt_str (cls fld : pystr) (v : option tval) : chk (option pystr) :=
  match v with None | Some VNull => COk None | Some (VStr s) => COk (Some s) | _ => bad cls fld end.
Definition t_nn (cls fld : pystr) (v : option tval) : chk (nn pystr) :=
  match v with
  | Some (VStr s) => COk (NVal s)
  | Some VNoAssertion => COk NNoAssertion
  | Some VNone => COk NNone
  | _ => bad cls fld
  end.
Definition t_opt_nn (cls fld : pystr) (v : option tval) : chk (option (nn pystr)) :=
  match v with
  | None | Some VNull => COk None
  | _ => match t_nn cls fld v with COk x => COk (Some x) | CErr m => CErr m end
  end.
Definition t_opt_na (cls fld : pystr) (v : option tval) : chk (option (na pystr)) :=
  match v with
  | None | Some VNull => COk None
  | Some (VStr s) => COk (Some (AVal s))
  | Some VNoAssertion => COk (Some ANoAssertion)
  | _ => bad cls fld
  end.
Definition t_opt_actor (cls fld : pystr) (v : option tval) : chk (option (na actor)) :=
  match v with
  | None | Some VNull => COk None
  | Some (VActor a) => COk (Some (AVal a))
  | Some VNoAssertion => COk (Some ANoAssertion)
  | _ => bad cls fld
  end.
Definition t_opt_license (cls fld : pystr) (v : option tval) : chk (option license) :=
  match v with
  | None | Some VNull => COk None
  | Some (VLic e) => COk (Some (NVal e))
  | Some VNoAssertion => COk (Some NNoAssertion)
  | Some VNone => COk (Some NNone)
  | _ => bad cls fld
  end.
Definition t_strs (cls fld : pystr) (v : option tval) : chk (list pystr) :=
  match v with None | Some VNull => COk [] | Some (VStrs l) => COk l | _ => bad cls fld end.
Definition t_licenses (cls fld : pystr) (v : option tval) : chk (list license) :=
  match v with None | Some VNull => COk [] | Some (VLics l) => c_items cls fld l | _ => bad cls fld end.
Definition t_types (cls fld : pystr) (v : option tval) : chk (list file_type) :=
  match v with None | Some VNull => COk [] | Some (VTypes l) => COk l | _ => bad cls fld end.
Definition t_checksums (cls fld : pystr) (v : option tval) : chk (list checksum) :=
  match v with None | Some VNull => COk [] | Some (VChecksums l) => COk l | _ => bad cls fld end.
Definition t_ext_refs (cls fld : pystr) (v : option tval) : chk (list ext_pkg_ref) :=
  match v with None | Some VNull => COk [] | Some (VExtRefs l) => COk l | _ => bad cls fld end.
Definition t_doc_refs (cls fld : pystr) (v : option tval) : chk (list ext_doc_ref) :=
  match v with None | Some VNull => COk [] | Some (VDocRefs l) => COk l | _ => bad cls fld end.
Definition t_actors (cls fld : pystr) (v : option tval) : chk (list actor) :=
  match v with Some (VActors l) => COk l | _ => bad cls fld end.
Definition t_actor (cls fld : pystr) (v : option tval) : chk actor :=
  match v with Some (VActor a) => COk a | _ => bad cls fld end.
Definition t_date (cls fld : pystr) (v : option tval) : chk datetime :=
  match v with Some (VDate d) => COk d | _ => bad cls fld end.
Definition t_opt_date (cls fld : pystr) (v : option tval) : chk (option datetime) :=
  match v with None | Some VNull => COk None | Some (VDate d) => COk (Some d) | _ => bad cls fld end.
Definition t_opt_version (cls fld : pystr) (v : option tval) : chk (option version) :=
  match v with None | Some VNull => COk None | Some (VVersion x) => COk (Some x) | _ => bad cls fld end.
Definition t_files_analyzed (cls fld : pystr) (v : option tval) : chk bool :=
  match v with None => COk true | Some (VBool b) => COk b | _ => bad cls fld end.
Definition t_opt_verif (cls fld : pystr) (v : option tval) : chk (option verif_code) :=
  match v with None | Some VNull => COk None | Some (VVerif x) => COk (Some x) | _ => bad cls fld end.
Definition t_opt_purpose (cls fld : pystr) (v : option tval) : chk (option purpose) :=
  match v with None | Some VNull => COk None | Some (VPurpose x) => COk (Some x) | _ => bad cls fld end.
Definition t_range (cls fld : pystr) (v : option tval) : chk (Z * Z) :=
  match v with Some (VRange a b) => COk (a, b) | _ => bad cls fld end.
Definition t_opt_range (cls fld : pystr) (v : option tval) : chk (option (Z * Z)) :=
  match v with None | Some VNull => COk None | Some (VRange a b) => COk (Some (a, b)) | _ => bad cls fld end.
Definition t_ann_type (cls fld : pystr) (v : option tval) : chk annotation_type :=
  match v with Some (VAnnType t) => COk t | _ => bad cls fld end.
Definition t_rel_type (cls fld : pystr) (v : option tval) : chk rel_type :=
  match v with Some (VRelType t) => COk t | _ => bad cls fld end.

(** Cls( **kwargs ): TypeError for an argument the constructor does not know, then for a missing one, both turned
    into parsing errors (parsing_functions.py:11-18); the wording of the second is simplified *)
Definition kwargs {A} (cls : pystr) (required optional : list pystr) (d : tdict) (c : chk A) : result A :=
  match find (fun kv => negb (str_in (fst kv) (required ++ optional))) d with
  | Some (k, _) =>
      Raise (EParsing [$"Error while constructing " ++ cls ++ $": " ++ cls
                       ++ $".__init__() got an unexpected keyword argument '" ++ k ++ $"'"])
  | None =>
      match filter (fun k => match assoc k d with Some _ => false | None => true end) required with
      | [] => construct cls c
      | missing =>
          Raise (EParsing [$"Error while constructing " ++ cls ++ $": " ++ cls
                           ++ $".__init__() missing required positional arguments: " ++ join $", " missing])
      end
  end.

(** spdx/model/file.py:45-66 *)
Definition construct_file (d : tdict) : result file :=
  let c := $"File" in
  kwargs c [ $"name"; $"spdx_id"; $"checksums" ]
    [ $"file_types"; $"license_concluded"; $"license_info_in_file"; $"license_comment"; $"copyright_text"; $"comment";
      $"notice"; $"contributors"; $"attribution_texts" ] d
    (COk Build_file <*> t_str c $"name" (assoc $"name" d) <*> t_str c $"spdx_id" (assoc $"spdx_id" d)
     <*> t_checksums c $"checksums" (assoc $"checksums" d) <*> t_types c $"file_types" (assoc $"file_types" d)
     <*> t_opt_license c $"license_concluded" (assoc $"license_concluded" d)
     <*> t_licenses c $"license_info_in_file" (assoc $"license_info_in_file" d)
     <*> t_opt_str c $"license_comment" (assoc $"license_comment" d)
     <*> t_opt_nn c $"copyright_text" (assoc $"copyright_text" d)
     <*> t_opt_str c $"comment" (assoc $"comment" d) <*> t_opt_str c $"notice" (assoc $"notice" d)
     <*> t_strs c $"contributors" (assoc $"contributors" d)
     <*> t_strs c $"attribution_texts" (assoc $"attribution_texts" d)).

(** spdx/model/package.py:101-133 *)
Definition construct_package (d : tdict) : result package :=
  let c := $"Package" in
  kwargs c [ $"spdx_id"; $"name"; $"download_location" ]
    [ $"version"; $"file_name"; $"supplier"; $"originator"; $"files_analyzed"; $"verification_code"; $"checksums";
      $"homepage"; $"source_info"; $"license_concluded"; $"license_info_from_files"; $"license_declared";
      $"license_comment"; $"copyright_text"; $"summary"; $"description"; $"comment"; $"external_references";
      $"attribution_texts"; $"primary_package_purpose"; $"release_date"; $"built_date"; $"valid_until_date" ] d
    (COk Build_package <*> t_str c $"spdx_id" (assoc $"spdx_id" d) <*> t_str c $"name" (assoc $"name" d)
     <*> t_nn c $"download_location" (assoc $"download_location" d)
     <*> t_opt_str c $"version" (assoc $"version" d) <*> t_opt_str c $"file_name" (assoc $"file_name" d)
     <*> t_opt_actor c $"supplier" (assoc $"supplier" d) <*> t_opt_actor c $"originator" (assoc $"originator" d)
     <*> t_files_analyzed c $"files_analyzed" (assoc $"files_analyzed" d)
     <*> t_opt_verif c $"verification_code" (assoc $"verification_code" d)
     <*> t_checksums c $"checksums" (assoc $"checksums" d)
     <*> t_opt_nn c $"homepage" (assoc $"homepage" d) <*> t_opt_str c $"source_info" (assoc $"source_info" d)
     <*> t_opt_license c $"license_concluded" (assoc $"license_concluded" d)
     <*> t_licenses c $"license_info_from_files" (assoc $"license_info_from_files" d)
     <*> t_opt_license c $"license_declared" (assoc $"license_declared" d)
     <*> t_opt_str c $"license_comment" (assoc $"license_comment" d)
     <*> t_opt_nn c $"copyright_text" (assoc $"copyright_text" d)
     <*> t_opt_str c $"summary" (assoc $"summary" d) <*> t_opt_str c $"description" (assoc $"description" d)
     <*> t_opt_str c $"comment" (assoc $"comment" d)
     <*> t_ext_refs c $"external_references" (assoc $"external_references" d)
     <*> t_strs c $"attribution_texts" (assoc $"attribution_texts" d)
     <*> t_opt_purpose c $"primary_package_purpose" (assoc $"primary_package_purpose" d)
     <*> t_opt_date c $"release_date" (assoc $"release_date" d)
     <*> t_opt_date c $"built_date" (assoc $"built_date" d)
     <*> t_opt_date c $"valid_until_date" (assoc $"valid_until_date" d)).

(** spdx/model/snippet.py:28-43 *)
Definition construct_snippet (d : tdict) : result snippet :=
  let c := $"Snippet" in
  kwargs c [ $"spdx_id"; $"file_spdx_id"; $"byte_range" ]
    [ $"line_range"; $"license_concluded"; $"license_info_in_snippet"; $"license_comment"; $"copyright_text";
      $"comment"; $"name"; $"attribution_texts" ] d
    (COk Build_snippet <*> t_str c $"spdx_id" (assoc $"spdx_id" d) <*> t_str c $"file_spdx_id" (assoc $"file_spdx_id" d)
     <*> t_range c $"byte_range" (assoc $"byte_range" d) <*> t_opt_range c $"line_range" (assoc $"line_range" d)
     <*> t_opt_license c $"license_concluded" (assoc $"license_concluded" d)
     <*> t_licenses c $"license_info_in_snippet" (assoc $"license_info_in_snippet" d)
     <*> t_opt_str c $"license_comment" (assoc $"license_comment" d)
     <*> t_opt_nn c $"copyright_text" (assoc $"copyright_text" d)
     <*> t_opt_str c $"comment" (assoc $"comment" d) <*> t_opt_str c $"name" (assoc $"name" d)
     <*> t_strs c $"attribution_texts" (assoc $"attribution_texts" d)).

(** spdx/model/annotation.py:25-33 *)
Definition construct_annotation (d : tdict) : result annotation :=
  let c := $"Annotation" in
  kwargs c [ $"spdx_id"; $"annotation_type"; $"annotator"; $"annotation_date"; $"annotation_comment" ] [] d
    (COk Build_annotation <*> t_str c $"spdx_id" (assoc $"spdx_id" d)
     <*> t_ann_type c $"annotation_type" (assoc $"annotation_type" d)
     <*> t_actor c $"annotator" (assoc $"annotator" d)
     <*> t_date c $"annotation_date" (assoc $"annotation_date" d)
     <*> t_str c $"annotation_comment" (assoc $"annotation_comment" d)).

(** spdx/model/relationship.py:68-75 *)
Definition construct_relationship (d : tdict) : result relationship :=
  let c := $"Relationship" in
  kwargs c [ $"spdx_element_id"; $"relationship_type"; $"related_spdx_element_id" ] [ $"comment" ] d
    (COk Build_relationship <*> t_str c $"spdx_element_id" (assoc $"spdx_element_id" d)
     <*> t_rel_type c $"relationship_type" (assoc $"relationship_type" d)
     <*> t_nn c $"related_spdx_element_id" (assoc $"related_spdx_element_id" d)
     <*> t_opt_str c $"comment" (assoc $"comment" d)).

(** spdx/model/extracted_licensing_info.py:21-30 *)
Definition construct_extracted (d : tdict) : result extracted :=
  let c := $"ExtractedLicensingInfo" in
  kwargs c [] [ $"license_id"; $"extracted_text"; $"license_name"; $"cross_references"; $"comment" ] d
    (COk Build_extracted <*> t_opt_str c $"license_id" (assoc $"license_id" d)
     <*> t_opt_str c $"extracted_text" (assoc $"extracted_text" d)
     <*> t_opt_na c $"license_name" (assoc $"license_name" d)
     <*> t_strs c $"cross_references" (assoc $"cross_references" d)
     <*> t_opt_str c $"comment" (assoc $"comment" d)).

(** spdx/model/document.py:38-53 *)
Definition construct_creation_info (d : tdict) : result creation_info :=
  let c := $"CreationInfo" in
  kwargs c [ $"spdx_version"; $"spdx_id"; $"name"; $"document_namespace"; $"creators"; $"created" ]
    [ $"creator_comment"; $"data_license"; $"external_document_refs"; $"license_list_version"; $"document_comment" ] d
    (COk Build_creation_info <*> t_str c $"spdx_version" (assoc $"spdx_version" d)
     <*> t_str c $"spdx_id" (assoc $"spdx_id" d) <*> t_str c $"name" (assoc $"name" d)
     <*> t_str c $"document_namespace" (assoc $"document_namespace" d)
     <*> t_actors c $"creators" (assoc $"creators" d) <*> t_date c $"created" (assoc $"created" d)
     <*> t_opt_str c $"creator_comment" (assoc $"creator_comment" d)
     <*> match assoc $"data_license" d with None => COk $"CC0-1.0" | v => t_str c $"data_license" v end
     <*> t_doc_refs c $"external_document_refs" (assoc $"external_document_refs" d)
     <*> t_opt_version c $"license_list_version" (assoc $"license_list_version" d)
     <*> t_opt_str c $"document_comment" (assoc $"document_comment" d)).

(** ** Elements *)

(** parser.py:591-611  check_for_preceding_package_and_build_contains_relationship *)
Definition build_contains (file_id : pystr) (st : pstate) : pstate :=
  match b_packages (ps_built st) with
  | None => st
  | Some l =>
      match rev l with
      | [] => log [$"Error while building contains relationship for file " ++ file_id
                   ++ $", preceding package was not parsed successfully."] st
      | p :: _ =>
          let r := {| re_id := pk_id p; re_type := RT_CONTAINS; re_related := NVal file_id; re_comment := None |} in
          let b := ps_built st in
          if rel_in r (b_relationships b) then st
          else with_built {| b_packages := b_packages b; b_files := b_files b; b_snippets := b_snippets b;
                             b_annotations := b_annotations b; b_relationships := b_relationships b ++ [r];
                             b_extracted := b_extracted b |} st
      end
  end.

(** the messages of a parsing error go to the logger (parser.py:588-589); other exceptions propagate *)
Definition add_element {A} (st : pstate) (r : result A) (ok : A -> pstate) : result pstate :=
  match r with
  | Ok a => Ok (ok a)
  | Raise (EParsing ms) => Ok (log ms st)
  | Raise e => Raise e
  end.

Definition set_packages (l : list package) (b : built) : built :=
  {| b_packages := Some l; b_files := b_files b; b_snippets := b_snippets b; b_annotations := b_annotations b;
     b_relationships := b_relationships b; b_extracted := b_extracted b |}.
Definition set_files (l : list file) (b : built) : built :=
  {| b_packages := b_packages b; b_files := l; b_snippets := b_snippets b; b_annotations := b_annotations b;
     b_relationships := b_relationships b; b_extracted := b_extracted b |}.
Definition set_snippets (l : list snippet) (b : built) : built :=
  {| b_packages := b_packages b; b_files := b_files b; b_snippets := l; b_annotations := b_annotations b;
     b_relationships := b_relationships b; b_extracted := b_extracted b |}.
Definition set_annotations (l : list annotation) (b : built) : built :=
  {| b_packages := b_packages b; b_files := b_files b; b_snippets := b_snippets b; b_annotations := l;
     b_relationships := b_relationships b; b_extracted := b_extracted b |}.
Definition set_relationships (l : list relationship) (b : built) : built :=
  {| b_packages := b_packages b; b_files := b_files b; b_snippets := b_snippets b; b_annotations := b_annotations b;
     b_relationships := l; b_extracted := b_extracted b |}.
Definition set_extracted (l : list extracted) (b : built) : built :=
  {| b_packages := b_packages b; b_files := b_files b; b_snippets := b_snippets b; b_annotations := b_annotations b;
     b_relationships := b_relationships b; b_extracted := l |}.

(** parser.py:580-587: construct the element and append it; for a package the (empty) list is created before the
    constructor is called *)
Definition build_element (c : clazz) (st : pstate) : result pstate :=
  let b := ps_built st in
  let d := ps_cur st in
  match c with
  | C_File =>
      add_element st (construct_file d)
        (fun f => build_contains (fi_id f) (with_built (set_files (b_files b ++ [f]) b) st))
  | C_Package =>
      let before := opt_list (b_packages b) in
      add_element (with_built (set_packages before b) st) (construct_package d)
        (fun p => with_built (set_packages (before ++ [p]) b) st)
  | C_Snippet =>
      add_element st (construct_snippet d) (fun s => with_built (set_snippets (b_snippets b ++ [s]) b) st)
  | C_Annotation =>
      add_element st (construct_annotation d) (fun a => with_built (set_annotations (b_annotations b ++ [a]) b) st)
  | C_Relationship =>
      add_element st (construct_relationship d)
        (fun r => with_built (set_relationships (b_relationships b ++ [r]) b) st)
  | C_Extracted =>
      add_element st (construct_extracted d) (fun e => with_built (set_extracted (b_extracted b ++ [e]) b) st)
  end.

(** parser.py:573-590  construct_current_element *)
Definition construct_current_element (st : pstate) : result pstate :=
  match ps_class st with
  | None => Ok st
  | Some c =>
      do st' <- match raise_if_named (ps_cur_log st) (clazz_name c) with
                | Raise (EParsing ms) => Ok (log ms st)
                | Raise e => Raise e
                | Ok _ => build_element c st
                end;
      Ok (new_element st')
  end.

(** parser.py:559-561  initialize_new_current_element *)
Definition initialize_new_current_element (c : clazz) (st : pstate) : result pstate :=
  do st' <- construct_current_element st; Ok (with_class c st').

(** str(line number) *)
Definition line_str (line : N) : pystr := str_of_N line.

(** parser.py:563-571  check_that_current_element_matches_class_for_value *)
Definition matches_class (c : clazz) (st : pstate) : bool :=
  match ps_class st with Some c' => clazz_eqb c c' | None => false end.
Definition class_message (c : clazz) (line : N) : pystr :=
  $"Element " ++ clazz_name c ++ $" is not the current element in scope, probably the expected tag to start the element ("
  ++ start_tag c ++ $") is missing. Line: " ++ line_str line.
(** [if self.check_that_current_element_matches_class_for_value(c, line): body] *)
Definition in_class (c : clazz) (line : N) (st : pstate) (body : pstate -> result pstate) : result pstate :=
  if matches_class c st then body st else Ok (log [class_message c line] st).

(** ** Setting values *)

Definition multiple_values (t : tag) (line : N) : pystr :=
  $"Multiple values for " ++ tag_name t ++ $" found. Line: " ++ line_str line.

(** helper_methods.py:53-71  set_value on a dictionary with its logger; [shown] is the text of the parsed value.
    Simplification: the messages of a parsing error are appended as one list object, which the outer message shows as a nested
    list; here it is a string, so that the outer message shows it with quotes. *)
Definition set_value (t : tag) (line : N) (shown : pystr) (v : result tval) (d : tdict) : result (list pystr * tdict) :=
  let name := get_property_name t in
  match assoc name d with
  | Some _ => Ok ([multiple_values t line], d)
  | None =>
      match v with
      | Ok x => Ok ([], dict_set name x d)
      | Raise (EParsing ms) => Ok ([show_list ms], d)
      | Raise (EValue m) => Ok ([m], d)
      | Raise (EKey _) => Ok ([$"Invalid " ++ tag_name t ++ $": " ++ shown ++ $". Line: " ++ line_str line], d)
      | Raise e => Raise e
      end
  end.
Definition set_cur (t : tag) (line : N) (shown : pystr) (v : result tval) (st : pstate) : result pstate :=
  do (ms, d) <- set_value t line shown v (ps_cur st); Ok (log_cur ms (with_cur d st)).
Definition set_ci (t : tag) (line : N) (shown : pystr) (v : result tval) (st : pstate) : result pstate :=
  do (ms, d) <- set_value t line shown v (ps_ci st); Ok (log_ci ms (with_ci d st)).

(** setdefault(name, []).append(value).  A value of another type under that name does not occur: these names are only
    used by these methods. *)
Definition append_val (old : option tval) (v : tval) : result tval :=
  match old, v with
  | None, _ => Ok v
  | Some (VStrs a), VStrs b => Ok (VStrs (a ++ b))
  | Some (VLics a), VLics b => Ok (VLics (a ++ b))
  | Some (VTypes a), VTypes b => Ok (VTypes (a ++ b))
  | Some (VChecksums a), VChecksums b => Ok (VChecksums (a ++ b))
  | Some (VExtRefs a), VExtRefs b => Ok (VExtRefs (a ++ b))
  | Some (VActors a), VActors b => Ok (VActors (a ++ b))
  | Some (VDocRefs a), VDocRefs b => Ok (VDocRefs (a ++ b))
  | _, _ => Raise (EAttr $"append")
  end.
Definition append_cur (name : pystr) (v : tval) (st : pstate) : result pstate :=
  do x <- append_val (assoc name (ps_cur st)) v; Ok (with_cur (dict_set name x (ps_cur st)) st).
Definition append_ci (name : pystr) (v : tval) (st : pstate) : result pstate :=
  do x <- append_val (assoc name (ps_ci st)) v; Ok (with_ci (dict_set name x (ps_ci st)) st).

(** ** Values of tokens *)

(** helper_methods.py:32-40  str_from_text; [(.|\n)+] matches any characters *)
Definition str_from_text_re : prx :=
  pcats [plit $"<text>"; PGroup 1 (pplus (fun _ => true)); plit $"</text>"].
Definition str_from_text (text : pystr) : pystr :=
  match re_match str_from_text_re text with
  | Some g => match group 1 g with Some v => v | None => text end
  | None => text
  end.

(** helper_methods.py:43-50  parse_checksum *)
Definition tv_parse_checksum (s : pystr) : result checksum :=
  match split_on #":" s with
  | [algorithm; value] =>
      match enum_lookup checksum_alg_all checksum_alg_name (replace $"-" $"_" (upper algorithm)) with
      | Some a => Ok {| ck_alg := a; ck_value := strip value |}
      | None => Raise (EKey algorithm)
      end
  | _ => Raise (EValue $"not enough or too many values to unpack")
  end.

(** parser.py:215-224: the nonterminal text_or_line *)
Definition text_or_line_value (k : token) : pystr :=
  match tk_type k with TT_TEXT => str_from_text (tk_value k) | _ => tk_value k end.
(** the nonterminals line_or_no_assertion, line_or_no_assertion_or_none (parser.py:215-235) *)
Definition line_value (k : token) : tval :=
  match tk_type k with
  | TT_TEXT => VStr (str_from_text (tk_value k))
  | TT_NO_ASSERTION => VNoAssertion
  | TT_NONE => VNone
  | _ => VStr (tk_value k)
  end.

Section WithOracles.
Variable O : oracles.

(** the nonterminal license_or_no_assertion_or_none (parser.py:226-245): messages for the logger of the current
    element, and the value; a blank expression is parsed to None *)
Definition license_value (k : token) : result (list pystr * option license) :=
  match tk_type k with
  | TT_NO_ASSERTION => Ok ([], Some NNoAssertion)
  | TT_NONE => Ok ([], Some NNone)
  | _ =>
      match licensing_parse O (JStr (tk_value k)) with
      | Ok (Some e) => Ok ([], Some (NVal e))
      | Ok None => Ok ([], None)
      | Raise (EExpr m) => Ok ([$"Error while parsing license expression: " ++ tk_value k ++ $": " ++ m], None)
      | Raise e => Raise e
      end
  end.
Definition license_tval (l : option license) : tval :=
  match l with None => VNull | Some (NVal e) => VLic e | Some NNoAssertion => VNoAssertion | Some NNone => VNone end.

(** the nonterminal actor_or_no_assertion (parser.py:226-231, 247-249) *)
Definition actor_value (k : token) : result tval :=
  match tk_type k with
  | TT_NO_ASSERTION => Ok VNoAssertion
  | _ => do a <- parse_actor (tk_value k); Ok (VActor a)
  end.

(** ** Which values a tag takes *)

Inductive vkind :=
| K_line | K_text_or_line | K_line_or_na | K_line_or_na_or_none | K_license | K_actor_or_na | K_actor | K_date
| K_checksum.

(** the tokens that start each kind of value (all are single tokens) *)
Definition accepts (k : vkind) (t : ttype) : bool :=
  match k, t with
  | K_line, TT_LINE => true
  | K_text_or_line, (TT_TEXT | TT_LINE | TT_NO_ASSERTION | TT_NONE) => true
  | K_line_or_na, (TT_LINE | TT_NO_ASSERTION) => true
  | K_line_or_na_or_none, (TT_TEXT | TT_LINE | TT_NO_ASSERTION | TT_NONE) => true
  | K_license, (TT_LINE | TT_NO_ASSERTION | TT_NONE) => true
  | K_actor_or_na, (TT_PERSON_VALUE | TT_ORGANIZATION_VALUE | TT_NO_ASSERTION) => true
  | K_actor, (TT_PERSON_VALUE | TT_ORGANIZATION_VALUE | TT_TOOL_VALUE) => true
  | K_date, TT_ISO8601_DATE => true
  | K_checksum, TT_CHECKSUM => true
  | _, _ => false
  end.

(** the right-hand sides of the grammar rules of parser.py:174-533; None for the two tags that only follow another
    value *)
Definition value_kind (t : tag) : option vkind :=
  match t with
  | T_ExternalRefComment | T_RelationshipComment => None
  | T_LicenseName => Some K_line_or_na
  | T_ExtractedText | T_LicenseComment | T_FileNotice | T_LicenseComments | T_FileComment | T_PackageDescription
  | T_PackageSummary | T_PackageSourceInfo | T_PackageComment | T_PackageLicenseComments | T_SnippetComment
  | T_SnippetLicenseComments | T_AnnotationComment | T_DocumentComment | T_CreatorComment | T_FileAttributionText
  | T_PackageAttributionText | T_SnippetAttributionText => Some K_text_or_line
  | T_FileCopyrightText | T_PackageHomePage | T_PackageDownloadLocation | T_PackageCopyrightText
  | T_SnippetCopyrightText => Some K_line_or_na_or_none
  | T_LicenseConcluded | T_PackageLicenseDeclared | T_PackageLicenseConcluded | T_SnippetLicenseConcluded
  | T_LicenseInfoInFile | T_PackageLicenseInfoFromFiles | T_LicenseInfoInSnippet => Some K_license
  | T_PackageOriginator | T_PackageSupplier => Some K_actor_or_na
  | T_Creator | T_Annotator => Some K_actor
  | T_Created | T_BuiltDate | T_ReleaseDate | T_ValidUntilDate | T_AnnotationDate => Some K_date
  | T_FileChecksum | T_PackageChecksum => Some K_checksum
  | _ => Some K_line
  end.
(** the tag of the comment that may follow a value *)
Definition comment_tag (t : tag) : option tag :=
  match t with
  | T_ExternalRef => Some T_ExternalRefComment
  | T_Relationship => Some T_RelationshipComment
  | _ => None
  end.
(** the tags of parser.py:262-272 *)
Definition is_creation_info_tag (t : tag) : bool :=
  match t with
  | T_LicenseListVersion | T_DocumentComment | T_DocumentNamespace | T_DataLicense | T_DocumentName
  | T_ExternalDocumentRef | T_SPDXVersion | T_CreatorComment | T_Creator | T_Created => true
  | _ => false
  end.

(** ** Actions *)

(** parser.py:174-206  p_generic_value *)
Definition generic_value (t : tag) (line : N) (shown : pystr) (v : result tval) (st : pstate) : result pstate :=
  match tag_data_model_field t with
  | Some (Some c, _) =>
      do st <- (if is_start_tag t then initialize_new_current_element c st else Ok st);
      in_class c line st (set_cur t line shown v)
  | _ => Raise (EKey (tag_name t))
  end.
(** a generic license value *)
Definition generic_license (t : tag) (line : N) (k : token) (st : pstate) : result pstate :=
  do (ms, l) <- license_value k;
  generic_value t line (tk_value k) (Ok (license_tval l)) (log_cur ms st).
(** lists of license values (parser.py:334-337, 397-400, 468-471) *)
Definition license_list (c : clazz) (name : pystr) (line : N) (k : token) (st : pstate) : result pstate :=
  do (ms, l) <- license_value k;
  in_class c line (log_cur ms st) (append_cur name (VLics [l])).
(** lists of strings *)
Definition text_list (c : clazz) (name : pystr) (line : N) (v : pystr) (st : pstate) : result pstate :=
  in_class c line st (append_cur name (VStrs [v])).

(** parser.py:286-305  p_external_document_ref *)
Definition ext_doc_ref_re : prx :=
  pcats [PGroup 1 (PStar any_char);
         PGroup 2 (pcats [PStar is_space; plit $"SHA1:"; PStar is_space; pexact 40 lex_hex])].
Definition group_or_empty (n : nat) (g : groups) : pystr := match group n g with Some s => s | None => [] end.
Definition external_document_ref (line : N) (v : pystr) (st : pstate) : result pstate :=
  match re_match ext_doc_ref_re v with
  | None =>
      Ok (log_ci [$"Error while parsing ExternalDocumentRef: Couldn't match Checksum. Line: " ++ line_str line] st)
  | Some g =>
      match split_on #" " (strip (group_or_empty 1 g)) with
      | [id; uri] =>
          do c <- tv_parse_checksum (strip (group_or_empty 2 g));
          append_ci $"external_document_refs"
            (VDocRefs [{| edr_id := id; edr_uri := uri; edr_checksum := c |}]) st
      | _ =>
          Ok (log_ci [$"Error while parsing ExternalDocumentRef: Couldn't split the first part of the value into document_ref_id and document_uri. Line: " ++ line_str line] st)
      end
  end.

(** parser.py:339-348  p_file_type *)
Definition file_type_action (line : N) (v : pystr) (st : pstate) : result pstate :=
  in_class C_File line st (fun st =>
    match enum_lookup file_type_all file_type_name (strip v) with
    | Some t => append_cur $"file_types" (VTypes [t]) st
    | None => Ok (log_cur [$"Invalid FileType: " ++ v ++ $". Line " ++ line_str line] st)
    end).

(** parser.py:350-355, 402-407 *)
Definition checksum_action (c : clazz) (line : N) (v : pystr) (st : pstate) : result pstate :=
  in_class c line st (fun st => do x <- tv_parse_checksum v; append_cur $"checksums" (VChecksums [x]) st).

(** parser.py:359-362  p_pkg_attribution_text: the value is added even if the class does not match *)
Definition pkg_attribution_text (line : N) (v : pystr) (st : pstate) : result pstate :=
  append_cur $"attribution_texts" (VStrs [v])
    (if matches_class C_Package st then st else log [class_message C_Package line] st).

(** parser.py:364-396  p_pkg_external_refs *)
Definition pkg_external_ref (line : N) (v : pystr) (comment : option pystr) (st : pstate) : result pstate :=
  in_class C_Package line st (fun st =>
    match split_on #" " v with
    | [category; ty; locator] =>
        match enum_lookup ref_category_all ref_category_name (replace $"-" $"_" category) with
        | Some c =>
            append_cur $"external_references"
              (VExtRefs [{| er_category := c; er_type := ty; er_locator := locator; er_comment := comment |}]) st
        | None =>
            Ok (log_cur [$"Invalid ExternalPackageRefCategory: " ++ category ++ $". Line: " ++ line_str line] st)
        end
    | _ => Ok (log_cur [$"Couldn't split PackageExternalRef in category, reference_type and locator. Line: "
                        ++ line_str line] st)
    end).

(** parser.py:409-430  p_pkg_verification_code *)
Definition verif_code_re : prx :=
  pcats [PGroup 1 (pexact 40 lex_hex); PStar is_space;
         popt (PGroup 2 (pcats [plit $"(excludes:"; PStar is_space; PGroup 3 (pplus any_char); plit $")"]))].
Definition verification_code (line : N) (v : pystr) (st : pstate) : result pstate :=
  in_class C_Package line st (fun st =>
    match assoc $"verification_code" (ps_cur st) with
    | Some _ => Ok (log_cur [multiple_values T_PackageVerificationCode line] st)
    | None =>
        match re_match verif_code_re v with
        | None => Ok (log_cur [$"Error while parsing PackageVerificationCode: Value did not match expected format. Line: "
                               ++ line_str line] st)
        | Some g =>
            let excluded := match group 3 g with
                            | Some ((_ :: _) as x) => split_on #"," x
                            | _ => []
                            end in
            Ok (with_cur (dict_set $"verification_code"
                            (VVerif {| vc_value := group_or_empty 1 g; vc_excluded := excluded |}) (ps_cur st)) st)
        end
    end).

(** parser.py:432-446  p_pkg_files_analyzed *)
Definition files_analyzed (line : N) (v : pystr) (st : pstate) : result pstate :=
  in_class C_Package line st (fun st =>
    match assoc $"files_analyzed" (ps_cur st) with
    | Some _ => Ok (log_cur [multiple_values T_FilesAnalyzed line] st)
    | None =>
        if str_eqb v $"true" then Ok (with_cur (dict_set $"files_analyzed" (VBool true) (ps_cur st)) st)
        else if str_eqb v $"false" then Ok (with_cur (dict_set $"files_analyzed" (VBool false) (ps_cur st)) st)
        else Ok (log_cur [$"The value of FilesAnalyzed must be either ""true"" or ""false"", but is: " ++ v] st)
    end).

(** parser.py:473-489  p_snippet_range; int() of the digits (the limit on their number is not modelled) *)
Definition range_re : prx :=
  pcats [PGroup 1 (pplus is_digit); plit $":"; PGroup 2 (pplus is_digit); PEnd].
Definition snippet_range (t : tag) (line : N) (v : pystr) (st : pstate) : result pstate :=
  in_class C_Snippet line st (fun st =>
    let name := get_property_name t in
    match assoc name (ps_cur st) with
    | Some _ => Ok (log_cur [multiple_values t line] st)
    | None =>
        match re_match range_re (strip v) with
        | None => Ok (log_cur [$"Value for " ++ tag_name t ++ $" doesn't match valid range pattern. Line: "
                               ++ line_str line] st)
        | Some _ =>
            match dec_val (hd [] (split_on #":" v)), dec_val (last (split_on #":" v) []) with
            | Some a, Some b => Ok (with_cur (dict_set name (VRange (Z.of_N a) (Z.of_N b)) (ps_cur st)) st)
            | _, _ => Raise (EValue $"invalid literal for int()")
            end
        end
    end).

(** parser.py:494-497  p_annotator *)
Definition annotator_action (line : N) (v : pystr) (st : pstate) : result pstate :=
  do st <- initialize_new_current_element C_Annotation st;
  set_cur T_Annotator line v (do a <- parse_actor v; Ok (VActor a)) st.

(** parser.py:511-533  p_relationship *)
Definition relationship_action (line : N) (v : pystr) (comment : option pystr) (st : pstate) : result pstate :=
  do st <- initialize_new_current_element C_Relationship st;
  match split_on #" " v with
  | [id; ty; related] =>
      let st := match enum_lookup rel_type_all rel_type_name ty with
                | Some t => with_cur (dict_set $"relationship_type" (VRelType t) (ps_cur st)) st
                | None => log_cur [$"Invalid RelationshipType " ++ ty ++ $". Line: " ++ line_str line] st
                end in
      let r := if str_eqb related $"NONE" then VNone
               else if str_eqb related $"NOASSERTION" then VNoAssertion else VStr related in
      let d := dict_set $"spdx_element_id" (VStr id) (dict_set $"related_spdx_element_id" r (ps_cur st)) in
      Ok (with_cur (match comment with Some c => dict_set $"comment" (VStr c) d | None => d end) st)
  | _ => Ok (log_cur [$"Relationship couldn't be split in spdx_element_id, relationship_type and related_spdx_element. Line: "
                      ++ line_str line] st)
  end.

(** parser.py:251-259  p_spdx_id *)
Definition spdx_id_action (v : pystr) (st : pstate) : pstate :=
  match assoc $"spdx_id" (ps_ci st) with
  | Some _ => with_cur (dict_set $"spdx_id" (VStr v) (ps_cur st)) st
  | None => with_ci (dict_set $"spdx_id" (VStr v) (ps_ci st)) st
  end.

(** enum_class[value] in a lambda given to set_value *)
Definition enum_value {A} (all : list A) (name : A -> pystr) (inj : A -> tval) (v : pystr) : result tval :=
  match enum_lookup all name v with Some a => Ok (inj a) | None => Raise (EKey v) end.
Definition date_value (v : pystr) : result tval := do d <- datetime_from_str v; Ok (VDate d).

(** The action of the rule [tag value] or [tag value comment_tag comment].  [comment] is None for the former. *)
Definition act (t : tag) (line : N) (k : token) (comment : option token) (st : pstate) : result pstate :=
  let v := tk_value k in
  let txt := text_or_line_value k in
  match t with
  | T_SPDXID => Ok (spdx_id_action v st)
  (* creation info, parser.py:274-313 *)
  | T_DocumentComment | T_CreatorComment => set_ci t line txt (Ok (VStr txt)) st
  | T_DocumentNamespace | T_DataLicense | T_SPDXVersion | T_DocumentName => set_ci t line v (Ok (VStr v)) st
  | T_LicenseListVersion => set_ci t line v (do x <- version_from_string v; Ok (VVersion x)) st
  | T_ExternalDocumentRef => external_document_ref line v st
  | T_Creator => do a <- parse_actor v; append_ci $"creators" (VActors [a]) st
  | T_Created => set_ci t line v (date_value v) st
  (* extracted licensing info, parser.py:317-320 *)
  | T_LicenseCrossReference => text_list C_Extracted $"cross_references" line v st
  (* file, parser.py:324-355 *)
  | T_FileContributor => text_list C_File $"contributors" line v st
  | T_FileAttributionText => text_list C_File $"attribution_texts" line txt st
  | T_LicenseInfoInFile => license_list C_File $"license_info_in_file" line k st
  | T_FileType => file_type_action line v st
  | T_FileChecksum => checksum_action C_File line v st
  (* package, parser.py:359-459 *)
  | T_PackageAttributionText => pkg_attribution_text line txt st
  | T_ExternalRef => pkg_external_ref line v (option_map text_or_line_value comment) st
  | T_PackageLicenseInfoFromFiles => license_list C_Package $"license_info_from_files" line k st
  | T_PackageChecksum => checksum_action C_Package line v st
  | T_PackageVerificationCode => verification_code line v st
  | T_FilesAnalyzed => files_analyzed line v st
  | T_PrimaryPackagePurpose =>
      in_class C_Package line st
        (set_cur t line v (enum_value purpose_all purpose_name VPurpose (replace $"-" $"_" v)))
  | T_BuiltDate | T_ReleaseDate | T_ValidUntilDate => in_class C_Package line st (set_cur t line v (date_value v))
  (* snippet, parser.py:463-489 *)
  | T_SnippetAttributionText => text_list C_Snippet $"attribution_texts" line txt st
  | T_LicenseInfoInSnippet => license_list C_Snippet $"license_info_in_snippet" line k st
  | T_SnippetByteRange | T_SnippetLineRange => snippet_range t line v st
  (* annotation, parser.py:494-507 *)
  | T_Annotator => annotator_action line v st
  | T_AnnotationDate => in_class C_Annotation line st (set_cur t line v (date_value v))
  | T_AnnotationType =>
      in_class C_Annotation line st (set_cur t line v (enum_value annotation_type_all annotation_type_name VAnnType v))
  (* relationship, parser.py:511-533 *)
  | T_Relationship => relationship_action line v (option_map text_or_line_value comment) st
  (* everything else is generic, parser.py:174-206 *)
  | T_LicenseConcluded | T_PackageLicenseDeclared | T_PackageLicenseConcluded | T_SnippetLicenseConcluded =>
      generic_license t line k st
  | T_PackageOriginator | T_PackageSupplier => do a <- actor_value k; generic_value t line v (Ok a) st
  | T_FileCopyrightText | T_PackageHomePage | T_PackageDownloadLocation | T_PackageCopyrightText
  | T_SnippetCopyrightText | T_LicenseName => generic_value t line v (Ok (line_value k)) st
  | _ => generic_value t line txt (Ok (VStr txt)) st
  end.

(** parser.py:132-172 p_current_element_error and 262-272 p_creation_info_value_error *)
Definition error_action (t : tag) (line : N) (st : pstate) : result pstate :=
  let m := $"Error while parsing " ++ tag_name t ++ $": Token did not match specified grammar rule. Line: "
           ++ line_str line in
  if is_creation_info_tag t then Ok (log_ci [m] st)
  else
    do st <- (if is_start_tag t then
                match tag_data_model_field t with
                | Some (Some c, _) => initialize_new_current_element c st
                | _ => Raise (EKey (tag_name t))
                end
              else Ok st);
    Ok (log_cur [m] st).

(** parser.py:208-213  p_unknown_tag *)
Definition unknown_tag_action (line : N) (st : pstate) : pstate :=
  log [$"Unknown tag provided in line " ++ line_str line] st.

(** ** The automaton *)

(** Where the parser is: between attributes; after a tag, its value, its comment tag, its comment; after an unknown
    tag and its value; after the error token of a rule [tag error]. *)
Inductive pmode :=
| M_Base
| M_Tag (t : tag) (line : N)
| M_Val (t : tag) (line : N) (v : token)
| M_CommentTag (t : tag) (line : N) (v : token)
| M_Comment (t : tag) (line : N) (v c : token)
| M_Unknown (line : N)
| M_UnknownVal (line : N)
| M_Error (t : tag) (line : N).

(** tokens that can start an attribute; they (and the end of the input) complete the previous one *)
Definition starts_attribute (k : token) : bool :=
  match tk_type k with
  | TT_TAG t => match value_kind t with Some _ => true | None => false end
  | TT_UNKNOWN_TAG => true
  | _ => false
  end.
(** the state after shifting a token between attributes; ply discards a token that cannot start an attribute *)
Definition enter (k : token) (line : N) : pmode :=
  match tk_type k with
  | TT_TAG t => match value_kind t with Some _ => M_Tag t line | None => M_Base end
  | TT_UNKNOWN_TAG => M_Unknown line
  | _ => M_Base
  end.
(** does the grammar have a rule [tag error] for this tag? *)
Definition has_error_rule (t : tag) : bool := match t with T_SPDXID => false | _ => true end.

(** value tokens of an unknown tag, parser.py:208-211 *)
Definition unknown_accepts (t : ttype) : bool :=
  match t with
  | TT_TEXT | TT_LINE | TT_NO_ASSERTION | TT_NONE | TT_ISO8601_DATE | TT_PERSON_VALUE => true
  | _ => false
  end.

(** A token that does not fit after an incomplete attribute: with a rule [tag error], ply pops back to the tag, shifts
    the error token and looks at the token again (it completes the rule or is discarded); without such a rule the tag
    and the token are discarded. *)
Definition recover (t : tag) (tl : N) (k : token) (line : N) (st : pstate) : result (pmode * pstate) :=
  if has_error_rule t then
    if starts_attribute k then do st <- error_action t tl st; Ok (enter k line, st)
    else Ok (M_Error t tl, st)
  else Ok (M_Base, st).

(** One token.  A rule is reduced (its action is run) when the next attribute, or the end of the input, is seen. *)
Definition step (m : pmode) (st : pstate) (k : token) (line : N) : result (pmode * pstate) :=
  match m with
  | M_Base => Ok (enter k line, st)
  | M_Tag t tl =>
      if match value_kind t with Some vk => accepts vk (tk_type k) | None => false end
      then Ok (M_Val t tl k, st)
      else recover t tl k line st
  | M_Val t tl v =>
      if starts_attribute k then do st <- act t tl v None st; Ok (enter k line, st)
      else if match tk_type k, comment_tag t with TT_TAG c, Some c' => tag_eqb c c' | _, _ => false end
      then Ok (M_CommentTag t tl v, st)
      else recover t tl k line st
  | M_CommentTag t tl v =>
      if accepts K_text_or_line (tk_type k) then Ok (M_Comment t tl v k, st) else recover t tl k line st
  | M_Comment t tl v c =>
      if starts_attribute k then do st <- act t tl v (Some c) st; Ok (enter k line, st)
      else recover t tl k line st
  | M_Unknown tl =>
      if starts_attribute k then Ok (enter k line, unknown_tag_action tl st)
      else if unknown_accepts (tk_type k) then Ok (M_UnknownVal tl, st)
      else Ok (M_Base, st)
  | M_UnknownVal tl =>
      if starts_attribute k then Ok (enter k line, unknown_tag_action tl st) else Ok (M_Base, st)
  | M_Error t tl =>
      if starts_attribute k then do st <- error_action t tl st; Ok (enter k line, st)
      else Ok (M_Error t tl, st)
  end.

(** The end of the input: ply gives up silently where the current rule cannot be completed. *)
Definition at_end (m : pmode) (st : pstate) : result pstate :=
  match m with
  | M_Base | M_Tag _ _ | M_CommentTag _ _ _ => Ok st
  | M_Val t tl v => act t tl v None st
  | M_Comment t tl v c => act t tl v (Some c) st
  | M_Unknown tl | M_UnknownVal tl => Ok (unknown_tag_action tl st)
  | M_Error t tl => error_action t tl st
  end.

Fixpoint run (m : pmode) (st : pstate) (l : list (token * N)) : result pstate :=
  match l with
  | [] => at_end m st
  | (k, line) :: l' => do (m', st') <- step m st k line; run m' st' l'
  end.

(** parser.py:538-557  parse, after the automaton has run *)
Definition finish (st : pstate) : result document :=
  do st <- construct_current_element st;
  let st := match ps_ci_log st with
            | [] => st
            | ms => log [$"Error while parsing CreationInfo: " ++ show_list ms] st
            end in
  do _ <- raise_if (ps_log st);
  do ci <- construct_creation_info (ps_ci st);
  let b := ps_built st in
  Ok {| do_ci := ci; do_packages := opt_list (b_packages b); do_files := b_files b; do_snippets := b_snippets b;
        do_annotations := b_annotations b; do_relationships := b_relationships b; do_extracted := b_extracted b |}.

(** Parser().parse(text) *)
Definition tv_parse (text : pystr) : result document :=
  do st <- run M_Base init_state (tokenize text); finish st.

(** tagvalue_parser.py:8-13: the file is opened in text mode, so "\r\n" and "\r" are read as "\n" *)
Fixpoint universal_newlines (s : pystr) : pystr :=
  match s with
  | [] => []
  | c :: s' =>
      if N.eqb c 13 then LF :: match s' with
                               | c' :: s'' => if N.eqb c' LF then universal_newlines s'' else universal_newlines s'
                               | [] => []
                               end
      else c :: universal_newlines s'
  end.
Definition tv_parse_from_file (contents : pystr) : result document := tv_parse (universal_newlines contents).

End WithOracles.
