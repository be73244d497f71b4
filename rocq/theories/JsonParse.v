(** Parsing of JSON-like dictionaries: spdx/parser/jsonlikedict/*.py.

    A parser object keeps its loggers between calls; the model is one call of JsonLikeDictParser().parse on a fresh
    parser, which is how parse_from_file uses it. *)
From Verif Require Import Py Data Oracles Basics Json Construct.

(** ** dict_parsing_functions.py *)

(** dict_parsing_functions.py:12-15 *)
Definition json_str_to_enum_name (j : json) : result pystr :=
  match j with
  | JStr s => Ok (upper (replace $"-" $"_" s))
  | _ => Raise (EParsing [$"Type for enum must be str not " ++ jtype j])
  end.

(** The handlers of lines 32-35 and 45-48: the messages that are logged; None if the exception propagates. *)
Definition caught (e : exn) : option (list pystr) :=
  match e with
  | EParsing ms => Some ms
  | EConstructor ms => Some [show_list ms]
  | EType m => Some [m]
  | EValue m => Some [m]
  | _ => None
  end.

(** dict_parsing_functions.py:39-49 in a loop, as used by parse_list_of_elements (lines 68-75) and others.  Every
    element may itself log messages (the first component). *)
Fixpoint parse_elements {A} (f : json -> list pystr * result A) (l : list json) : result (list pystr * list A) :=
  match l with
  | [] => Ok ([], [])
  | x :: l' =>
      match f x with
      | (m, Ok a) => do (ms, r) <- parse_elements f l'; Ok (m ++ ms, a :: r)
      | (m, Raise e) =>
          match caught e with
          | Some m' => do (ms, r) <- parse_elements f l'; Ok (m ++ m' ++ ms, r)
          | None => Raise e
          end
      end
  end.
(** a parsing method that does not write to the caller's logger *)
Definition quiet {A} (f : json -> result A) (j : json) : list pystr * result A := ([], f j).

(** parser/parsing_functions.py:21-26  raise_parsing_error_if_logger_has_messages without and with a name *)
Definition raise_if (log : list pystr) : result unit := match log with [] => Ok tt | _ => Raise (EParsing log) end.
Definition raise_if_named (log : list pystr) (name : pystr) : result unit :=
  match log with
  | [] => Ok tt
  | _ => Raise (EParsing [$"Error while parsing " ++ name ++ $": " ++ show_list log])
  end.

(** dict_parsing_functions.py:68-77  parse_list_of_elements *)
Definition parse_list_of_elements_log {A} (f : json -> list pystr * result A) (j : json) : result (list A) :=
  do l <- jiter j;
  do (log, r) <- parse_elements f l;
  do _ <- raise_if log;
  Ok r.
Definition parse_list_of_elements {A} (f : json -> result A) (j : json) : result (list A) :=
  parse_list_of_elements_log (quiet f) j.

(** dict_parsing_functions.py:18-36  parse_field_or_log_error: what was logged, and the value or None for the
    default. *)
Definition parse_field {A} (j : json) (f : json -> result A) : result (list pystr * option A) :=
  if negb (jtruthy j) then Ok ([], None)
  else match f j with
       | Ok a => Ok ([], Some a)
       | Raise e => match caught e with Some ms => Ok (ms, None) | None => Raise e end
       end.
(** ... with field_is_list=True *)
Definition parse_field_list {A} (j : json) (f : json -> result A) : result (list pystr * option (list A)) :=
  parse_field j (parse_list_of_elements f).

(** [field == "..."] *)
Definition jis (j : json) (s : pystr) : bool := match j with JStr x => str_eqb x s | _ => false end.

(** dict_parsing_functions.py:52-58 with the identity as method *)
Definition field_or_nn (j : json) : nn json :=
  if jis j $"NOASSERTION" then NNoAssertion else if jis j $"NONE" then NNone else NVal j.
(** dict_parsing_functions.py:61-65 with the identity as method *)
Definition field_or_na (j : json) : na json := if jis j $"NOASSERTION" then ANoAssertion else AVal j.

(** hashing a value *)
Definition hashable (j : json) : bool := match j with JArr _ | JObj _ => false | _ => true end.
(** == of dict keys; the model does not identify 1, 1.0 and True *)
Definition key_eqb (a b : json) : bool :=
  match a, b with
  | JNull, JNull => true
  | JBool x, JBool y => Bool.eqb x y
  | JInt x, JInt y => Z.eqb x y
  | JFloat x, JFloat y => str_eqb x y
  | JStr x, JStr y => str_eqb x y
  | _, _ => false
  end.
(** dict_parsing_functions.py:80-82  list(dict.fromkeys(l)) *)
Fixpoint fromkeys (l : list json) (acc : list json) : result (list json) :=
  match l with
  | [] => Ok acc
  | x :: l' =>
      if negb (hashable x) then Raise (EType ($"unhashable type: " ++ jtype x))
      else fromkeys l' (if existsb (key_eqb x) acc then acc else acc ++ [x])
  end.
Definition delete_duplicates_from_list (j : json) : result (list json) := do l <- jiter j; fromkeys l [].

(** ** Leaf values *)

(** EnumClass[value] for a value of any type: KeyError is turned into a parsing error by the callers *)
Definition enum_item {A} (all : list A) (name : A -> pystr) (j : json) : result (option A) :=
  if negb (hashable j) then Raise (EType ($"unhashable type: " ++ jtype j))
  else Ok (match j with JStr s => enum_lookup all name s | _ => None end).

(** matching a compiled pattern against a value that is not a string: TypeError *)
Definition on_str {A} (f : pystr -> result A) (j : json) : result A :=
  match j with JStr s => f s | _ => Raise (EType $"expected string or bytes-like object") end.

(** actor_parser.py:15 on any value; datetime_conversions.py:7-12 on any value *)
Definition j_actor : json -> result actor := on_str parse_actor.
Definition j_date : json -> result datetime := on_str datetime_from_str.

(** creation_info_parser.py:83-88  parse_version *)
Definition parse_version (j : json) : result version :=
  match on_str version_from_string j with
  | Raise (EValue m) => Raise (EParsing [$"Error while parsing version: " ++ m])
  | r => r
  end.

Section WithOracles.
Variable O : oracles.

(** spdx_licensing.parse(value): None for None and blank strings, ExpressionError for other types *)
Definition licensing_parse (j : json) : result (option lexpr) :=
  match j with
  | JNull => Ok None
  | JStr s => match strip s with [] => Ok None | _ => do e <- o_lic_parse O s; Ok (Some e) end
  | _ => Raise (EExpr ($"expression must be a string and not: " ++ jtype j))
  end.

(** license_expression_parser.py:13-29  parse_license_expression; None for a Python None *)
Definition parse_license_expression (j : json) : result (option license) :=
  let special :=
    match j with
    | JStr s => if str_eqb (upper s) $"NOASSERTION" then Some NNoAssertion
                else if str_eqb (upper s) $"NONE" then Some NNone else None
    | _ => None
    end in
  match special with
  | Some l => Ok (Some l)
  | None =>
      match licensing_parse j with
      | Ok (Some e) => Ok (Some (NVal e))
      | Ok None => Ok None
      | Raise (EExpr m) => Raise (EParsing [$"Error parsing LicenseExpression: " ++ m])
      | Raise e => Raise e
      end
  end.

(** Optional[...] license arguments: parse_field_or_log_error returns None for the default or a parsed None *)
Definition flat_opt {A} (o : option (option A)) : option A := match o with Some x => x | None => None end.
Definition opt_list {A} (o : option (list A)) : list A := match o with Some l => l | None => [] end.

(** checksum_parser.py:21-33  parse_checksum *)
Definition parse_checksum (j : json) : result checksum :=
  do a <- jget_default $"algorithm" (JStr []) j;
  do algorithm <- json_str_to_enum_name a;
  let alg := enum_lookup checksum_alg_all checksum_alg_name algorithm in
  let log := match alg with Some _ => [] | None => [$"Invalid ChecksumAlgorithm: " ++ algorithm] end in
  do value <- jget $"checksumValue" j;
  do _ <- raise_if_named log $"Checksum";
  let c := $"Checksum" in
  construct c (COk Build_checksum <*> c_req c $"algorithm" alg <*> c_str c $"value" value).

(** extracted_licensing_info_parser.py:18-37 *)
Definition parse_extracted (j : json) : result extracted :=
  do license_id <- jget $"licenseId" j;
  do extracted_text <- jget $"extractedText" j;
  do name <- jget $"name" j;
  do cross_references <- jget_default $"seeAlsos" (JArr []) j;
  do comment <- jget $"comment" j;
  let c := $"ExtractedLicensingInfo" in
  construct c (COk Build_extracted <*> c_opt_str c $"license_id" license_id
               <*> c_opt_str c $"extracted_text" extracted_text
               <*> c_opt_na c $"license_name" (field_or_na name)
               <*> c_strs c $"cross_references" cross_references
               <*> c_opt_str c $"comment" comment).

(** ** creation_info_parser.py *)

(** creation_info_parser.py:103-117  parse_external_document_ref *)
Definition parse_external_document_ref (j : json) : result ext_doc_ref :=
  do ck <- jget $"checksum" j;
  do (log, checksum) <- parse_field ck parse_checksum;
  do id <- jget $"externalDocumentId" j;
  do uri <- jget $"spdxDocument" j;
  do _ <- raise_if_named log $"ExternalDocumentRef";
  let c := $"ExternalDocumentRef" in
  construct c (COk Build_ext_doc_ref <*> c_str c $"document_ref_id" id <*> c_str c $"document_uri" uri
               <*> c_req c $"checksum" checksum).

(** creation_info_parser.py:90-101  parse_external_document_refs: an empty entry yields None *)
Fixpoint external_document_refs_loop (l : list json) : result (list pystr * list (option ext_doc_ref)) :=
  match l with
  | [] => Ok ([], [])
  | x :: l' =>
      do (m, r) <- parse_field x parse_external_document_ref;
      do (ms, rs) <- external_document_refs_loop l';
      Ok (m ++ ms, r :: rs)
  end.
Definition parse_external_document_refs (j : json) : result (list (option ext_doc_ref)) :=
  do l <- jiter j;
  do (log, rs) <- external_document_refs_loop l;
  do _ <- raise_if log;
  Ok rs.

(** creation_info_parser.py:31-81  parse_creation_info *)
Definition parse_creation_info (j : json) : result creation_info :=
  do spdx_version <- jget $"spdxVersion" j;
  do spdx_id <- jget $"SPDXID" j;
  do name <- jget $"name" j;
  do document_namespace <- jget $"documentNamespace" j;
  do ci <- jget $"creationInfo" j;
  match ci with
  | JNull => Raise (EParsing [$"Error while parsing document: ['CreationInfo does not exist.']"])
  | _ =>
      do creators_j <- jget $"creators" ci;
      do (l1, creators) <- parse_field_list creators_j j_actor;
      do created_j <- jget $"created" ci;
      do (l2, created) <- parse_field created_j j_date;
      do creator_comment <- jget $"comment" ci;
      do data_license <- jget $"dataLicense" j;
      do refs_j <- jget $"externalDocumentRefs" j;
      do (l3, refs) <- parse_field refs_j parse_external_document_refs;
      do version_j <- jget $"licenseListVersion" ci;
      do (l4, list_version) <- parse_field version_j parse_version;
      do document_comment <- jget $"comment" j;
      do _ <- raise_if_named (l1 ++ l2 ++ l3 ++ l4) $"Document";
      let c := $"CreationInfo" in
      construct c (COk Build_creation_info
                   <*> c_str c $"spdx_version" spdx_version <*> c_str c $"spdx_id" spdx_id
                   <*> c_str c $"name" name <*> c_str c $"document_namespace" document_namespace
                   <*> c_req c $"creators" creators <*> c_req c $"created" created
                   <*> c_opt_str c $"creator_comment" creator_comment
                   <*> c_str c $"data_license" data_license
                   <*> c_items c $"external_document_refs" (opt_list refs)
                   <*> COk list_version
                   <*> c_opt_str c $"document_comment" document_comment)
  end.

(** ** file_parser.py *)

(** file_parser.py:84-96  parse_file_types *)
Fixpoint file_types_loop (l : list json) : result (list pystr * list file_type) :=
  match l with
  | [] => Ok ([], [])
  | x :: l' =>
      do t <- enum_item file_type_all file_type_name x;
      do (ms, r) <- file_types_loop l';
      Ok (match t with
          | Some t => (ms, t :: r)
          | None => (($"Invalid FileType: " ++ match x with JStr s => s | _ => jtype x end) :: ms, r)
          end)
  end.
Definition parse_file_types (j : json) : result (list file_type) :=
  do l <- jiter j;
  do (log, r) <- file_types_loop l;
  do _ <- raise_if_named log $"FileType";
  Ok r.

(** file_parser.py:31-82  parse_file *)
Definition parse_file (j : json) : result file :=
  do name <- jget $"fileName" j;
  do spdx_id <- jget $"SPDXID" j;
  do checksums_j <- jget $"checksums" j;
  do (l1, checksums) <- parse_field_list checksums_j parse_checksum;
  do attribution_texts <- jget_default $"attributionTexts" (JArr []) j;
  do comment <- jget $"comment" j;
  do copyright_text <- jget $"copyrightText" j;
  do contributors <- jget_default $"fileContributors" (JArr []) j;
  do types_j <- jget $"fileTypes" j;
  do (l2, file_types) <- parse_field types_j parse_file_types;
  do license_comments <- jget $"licenseComments" j;
  do concluded_j <- jget $"licenseConcluded" j;
  do (l3, license_concluded) <- parse_field concluded_j parse_license_expression;
  do info_j <- jget $"licenseInfoInFiles" j;
  do (l4, license_info) <- parse_field_list info_j parse_license_expression;
  do notice_text <- jget $"noticeText" j;
  do _ <- raise_if_named (l1 ++ l2 ++ l3 ++ l4) $"File";
  let c := $"File" in
  construct c (COk Build_file
               <*> c_str c $"name" name <*> c_str c $"spdx_id" spdx_id <*> c_req c $"checksums" checksums
               <*> COk (opt_list file_types) <*> COk (flat_opt license_concluded)
               <*> c_items c $"license_info_in_file" (opt_list license_info)
               <*> c_opt_str c $"license_comment" license_comments
               <*> c_opt_nn c $"copyright_text" (field_or_nn copyright_text)
               <*> c_opt_str c $"comment" comment <*> c_opt_str c $"notice" notice_text
               <*> c_strs c $"contributors" contributors <*> c_strs c $"attribution_texts" attribution_texts).

(** ** package_parser.py *)

(** package_parser.py:192-199 *)
Definition parse_external_ref_category (j : json) : result ref_category :=
  do n <- json_str_to_enum_name j;
  match enum_lookup ref_category_all ref_category_name n with
  | Some c => Ok c
  | None => Raise (EParsing [$"Invalid ExternalPackageRefCategory: " ++ n])
  end.

(** package_parser.py:174-190 *)
Definition parse_external_ref (j : json) : result ext_pkg_ref :=
  do cat_j <- jget $"referenceCategory" j;
  do (log, category) <- parse_field cat_j parse_external_ref_category;
  do locator <- jget $"referenceLocator" j;
  do ty <- jget $"referenceType" j;
  do comment <- jget $"comment" j;
  do _ <- raise_if_named log $"ExternalPackageRef";
  let c := $"ExternalPackageRef" in
  construct c (COk Build_ext_pkg_ref <*> c_req c $"category" category <*> c_str c $"reference_type" ty
               <*> c_str c $"locator" locator <*> c_opt_str c $"comment" comment).

(** package_parser.py:165-172: the messages go to the logger of the package parser, not to that of the caller *)
Definition parse_external_refs (j : json) : result (list pystr * list ext_pkg_ref) :=
  do l <- jiter j; parse_elements (quiet parse_external_ref) l.

(** package_parser.py:201-210 *)
Definition parse_package_verification_code (j : json) : result verif_code :=
  do excluded <- jget_default $"packageVerificationCodeExcludedFiles" (JArr []) j;
  do value <- jget $"packageVerificationCodeValue" j;
  let c := $"PackageVerificationCode" in
  construct c (COk Build_verif_code <*> c_str c $"value" value <*> c_strs c $"excluded_files" excluded).

(** package_parser.py:212-218 *)
Definition parse_primary_package_purpose (j : json) : result purpose :=
  do n <- json_str_to_enum_name j;
  match enum_lookup purpose_all purpose_name n with
  | Some c => Ok c
  | None => Raise (EParsing [$"Invalid PrimaryPackagePurpose: " ++ n])
  end.

(** package_parser.py:78-85  the value of files_analyzed *)
Definition files_analyzed_value (j : json) : json :=
  match j with
  | JNull => JBool true
  | JStr s => if str_eqb (lower s) $"true" then JBool true
              else if str_eqb (lower s) $"false" then JBool false else j
  | _ => j
  end.

(** package_parser.py:104-108, 128-132: parse_field_or_no_assertion(x, parse_actor) *)
Definition actor_or_no_assertion (j : json) : result (na actor) :=
  if jis j $"NOASSERTION" then Ok ANoAssertion else do a <- j_actor j; Ok (AVal a).

(** package_parser.py:50-163  parse_package: what it logs on the parser's own logger, and its outcome *)
Definition parse_package_raw (j : json) : result (list pystr * result package) :=
  do name <- jget $"name" j;
  do spdx_id <- jget $"SPDXID" j;
  do attribution_texts <- jget_default $"attributionTexts" (JArr []) j;
  do built_j <- jget $"builtDate" j;
  do (l1, built_date) <- parse_field built_j j_date;
  do checksums_j <- jget $"checksums" j;
  do (l2, checksums) <- parse_field_list checksums_j parse_checksum;
  do comment <- jget $"comment" j;
  do copyright_text <- jget $"copyrightText" j;
  do description <- jget $"description" j;
  do download_location <- jget $"downloadLocation" j;
  do refs_j <- jget $"externalRefs" j;
  do (l3, refs) <- parse_field refs_j parse_external_refs;
  do files_analyzed <- jget $"filesAnalyzed" j;
  do homepage <- jget $"homepage" j;
  do license_comments <- jget $"licenseComments" j;
  do concluded_j <- jget $"licenseConcluded" j;
  do (l4, license_concluded) <- parse_field concluded_j parse_license_expression;
  do declared_j <- jget $"licenseDeclared" j;
  do (l5, license_declared) <- parse_field declared_j parse_license_expression;
  do info_j <- jget $"licenseInfoFromFiles" j;
  do (l6, license_info) <- parse_field_list info_j parse_license_expression;
  do originator_j <- jget $"originator" j;
  do (l7, originator) <- parse_field originator_j actor_or_no_assertion;
  do package_file_name <- jget $"packageFileName" j;
  do verif_j <- jget $"packageVerificationCode" j;
  do (l8, verification_code) <- parse_field verif_j parse_package_verification_code;
  do purpose_j <- jget $"primaryPackagePurpose" j;
  do (l9, purpose) <- parse_field purpose_j parse_primary_package_purpose;
  do release_j <- jget $"releaseDate" j;
  do (l10, release_date) <- parse_field release_j j_date;
  do source_info <- jget $"sourceInfo" j;
  do summary <- jget $"summary" j;
  do supplier_j <- jget $"supplier" j;
  do (l11, supplier) <- parse_field supplier_j actor_or_no_assertion;
  do valid_j <- jget $"validUntilDate" j;
  do (l12, valid_until_date) <- parse_field valid_j j_date;
  do version_info <- jget $"versionInfo" j;
  let log := l1 ++ l2 ++ l3 ++ l4 ++ l5 ++ l6 ++ l7 ++ l8 ++ l9 ++ l10 ++ l11 ++ l12 in
  let '(own_log, external_refs) := match refs with Some r => r | None => ([], []) end in
  let c := $"Package" in
  Ok (own_log,
      do _ <- raise_if_named log $"Package";
      construct c (COk Build_package
                   <*> c_str c $"spdx_id" spdx_id <*> c_str c $"name" name
                   <*> c_nn c $"download_location" (field_or_nn download_location)
                   <*> c_opt_str c $"version" version_info <*> c_opt_str c $"file_name" package_file_name
                   <*> COk supplier <*> COk originator
                   <*> c_bool c $"files_analyzed" (files_analyzed_value files_analyzed)
                   <*> COk verification_code <*> COk (opt_list checksums)
                   <*> c_opt_nn c $"homepage" (field_or_nn homepage)
                   <*> c_opt_str c $"source_info" source_info
                   <*> COk (flat_opt license_concluded)
                   <*> c_items c $"license_info_from_files" (opt_list license_info)
                   <*> COk (flat_opt license_declared)
                   <*> c_opt_str c $"license_comment" license_comments
                   <*> c_opt_nn c $"copyright_text" (field_or_nn copyright_text)
                   <*> c_opt_str c $"summary" summary <*> c_opt_str c $"description" description
                   <*> c_opt_str c $"comment" comment
                   <*> COk external_refs <*> c_strs c $"attribution_texts" attribution_texts
                   <*> COk purpose <*> COk release_date <*> COk built_date <*> COk valid_until_date)).
Definition parse_package (j : json) : list pystr * result package :=
  match parse_package_raw j with
  | Ok r => r
  | Raise e => ([], Raise e)
  end.

(** ** snippet_parser.py *)

Inductive range_type := RANGE_BYTE | RANGE_LINE.
Definition range_type_eqb (a b : range_type) : bool :=
  match a, b with RANGE_BYTE, RANGE_BYTE | RANGE_LINE, RANGE_LINE => true | _, _ => false end.

(** snippet_parser.py:120-126 *)
Definition validate_pointer_and_get_type (p : json) : result range_type :=
  do o <- jin $"offset" p;
  do n <- jin $"lineNumber" p;
  if o && n then Raise (EValue $"Couldn't determine type of pointer: ""offset"" and ""lineNumber"" provided as key.")
  else if negb o && negb n
  then Raise (EValue $"Couldn't determine type of pointer: neither ""offset"" nor ""lineNumber"" provided as key.")
  else Ok (if o then RANGE_BYTE else RANGE_LINE).

(** snippet_parser.py:109-118 *)
Definition validate_range_and_get_type (r : json) : result range_type :=
  do s <- jin $"startPointer" r;
  if negb s then Raise (EValue $"Startpointer missing in snippet ranges.") else
  do e <- jin $"endPointer" r;
  if negb e then Raise (EValue $"Endpointer missing in snippet ranges.") else
  do sp <- jitem $"startPointer" r;
  do st <- validate_pointer_and_get_type sp;
  do ep <- jitem $"endPointer" r;
  do et <- validate_pointer_and_get_type ep;
  if negb (range_type_eqb st et)
  then Raise (EValue $"Type of startpointer is not the same as type of endpointer.")
  else Ok st.

(** snippet_parser.py:97-107 *)
Definition get_start_end_tuple (r : json) (t : range_type) : result (json * json) :=
  do ep <- jitem $"endPointer" r;
  do sp <- jitem $"startPointer" r;
  let key := match t with RANGE_BYTE => $"offset" | RANGE_LINE => $"lineNumber" end in
  do s <- jitem key sp;
  do e <- jitem key ep;
  Ok (s, e).

(** the dict built by parse_ranges *)
Record ranges := { rg_byte : option (json * json); rg_line : option (json * json) }.
Definition set_range (t : range_type) (v : json * json) (r : ranges) : ranges :=
  match t with
  | RANGE_BYTE => {| rg_byte := Some v; rg_line := rg_line r |}
  | RANGE_LINE => {| rg_byte := rg_byte r; rg_line := Some v |}
  end.
Definition no_ranges : ranges := {| rg_byte := None; rg_line := None |}.

(** snippet_parser.py:83-95  parse_ranges: only ValueError is collected, other exceptions end the loop *)
Fixpoint ranges_loop (l : list json) (log : list pystr) (acc : ranges) : result (list pystr * ranges) :=
  match l with
  | [] => Ok (log, acc)
  | x :: l' =>
      match (do t <- validate_range_and_get_type x; do v <- get_start_end_tuple x t; Ok (t, v)) with
      | Ok (t, v) => ranges_loop l' log (set_range t v acc)
      | Raise (EValue m) => ranges_loop l' (log ++ [m]) acc
      | Raise e => Raise e
      end
  end.
Definition parse_ranges (j : json) : result ranges :=
  do l <- jiter j;
  do (log, r) <- ranges_loop l [] no_ranges;
  do _ <- raise_if_named log $"snippet ranges";
  Ok r.

(** str.isdigit: decimal digits and the characters below (Unicode 14.0.0, Numeric_Type=Digit) *)
Definition digit_only_ranges : list (N * N) :=
  [(178, 179); (185, 185); (4969, 4977); (6618, 6618); (8304, 8304); (8308, 8313); (8320, 8329); (9312, 9320);
   (9332, 9340); (9352, 9360); (9450, 9450); (9461, 9469); (9471, 9471); (10102, 10110); (10112, 10120);
   (10122, 10130); (68160, 68163); (69216, 69224); (69714, 69722); (127232, 127242)]%N.
Definition isdigit_char (c : char) : bool :=
  is_digit c || existsb (fun r => (fst r <=? c)%N && (c <=? snd r)%N) digit_only_ranges.
Definition isdigit (s : pystr) : bool := truthy_list s && forallb isdigit_char s.

(** one component: snippet_parser.py:136-139.  int() raises ValueError for digits that are not decimal.  (int()
    also refuses more than 4300 digits; not modelled.) *)
Definition convert_bound (j : json) : result json :=
  match j with
  | JStr s => if isdigit s
              then match dec_val s with
                   | Some n => Ok (JInt (Z.of_N n))
                   | None => Raise (EValue ($"invalid literal for int() with base 10: " ++ s))
                   end
              else Ok j
  | _ => Ok j
  end.
(** snippet_parser.py:128-140  convert_range_from_str *)
Definition convert_range_from_str (r : option (json * json)) : result (option (json * json)) :=
  match r with
  | None => Ok None
  | Some (a, b) => do a' <- convert_bound a; do b' <- convert_bound b; Ok (Some (a', b'))
  end.

(** snippet_parser.py:33-81  parse_snippet *)
Definition parse_snippet (j : json) : result snippet :=
  do spdx_id <- jget $"SPDXID" j;
  do file_spdx_id <- jget $"snippetFromFile" j;
  do name <- jget $"name" j;
  do ranges_j <- jget_default $"ranges" (JArr []) j;
  do (l1, rs) <- parse_field ranges_j parse_ranges;
  let rs := match rs with Some r => r | None => no_ranges end in
  do byte_range <- convert_range_from_str (rg_byte rs);
  do line_range <- convert_range_from_str (rg_line rs);
  do attribution_texts <- jget_default $"attributionTexts" (JArr []) j;
  do comment <- jget $"comment" j;
  do copyright_text <- jget $"copyrightText" j;
  do license_comment <- jget $"licenseComments" j;
  do concluded_j <- jget $"licenseConcluded" j;
  do (l2, license_concluded) <- parse_field concluded_j parse_license_expression;
  do info_j <- jget $"licenseInfoInSnippets" j;
  do (l3, license_info) <- parse_field_list info_j parse_license_expression;
  do _ <- raise_if_named (l1 ++ l2 ++ l3) $"snippet";
  let c := $"Snippet" in
  construct c (COk Build_snippet
               <*> c_str c $"spdx_id" spdx_id <*> c_str c $"file_spdx_id" file_spdx_id
               <*> c_range c $"byte_range" byte_range <*> c_opt_range c $"line_range" line_range
               <*> COk (flat_opt license_concluded)
               <*> c_items c $"license_info_in_snippet" (opt_list license_info)
               <*> c_opt_str c $"license_comment" license_comment
               <*> c_opt_nn c $"copyright_text" (field_or_nn copyright_text)
               <*> c_opt_str c $"comment" comment <*> c_opt_str c $"name" name
               <*> c_strs c $"attribution_texts" attribution_texts).

(** ** annotation_parser.py *)

(** annotation_parser.py:94-99 *)
Definition parse_annotation_type (j : json) : result annotation_type :=
  do t <- enum_item annotation_type_all annotation_type_name j;
  match t with
  | Some t => Ok t
  | None => Raise (EParsing [$"Invalid AnnotationType: " ++ match j with JStr s => s | _ => jtype j end])
  end.

(** annotation_parser.py:63-92 *)
Definition parse_annotation (parent : json) (j : json) : result annotation :=
  do own <- jget $"SPDXID" j;
  let spdx_id := if jtruthy own then own else parent in
  do type_j <- jget $"annotationType" j;
  do (l1, ty) <- parse_field type_j parse_annotation_type;
  do annotator_j <- jget $"annotator" j;
  do (l2, annotator) <- parse_field annotator_j j_actor;
  do date_j <- jget $"annotationDate" j;
  do (l3, date) <- parse_field date_j j_date;
  do comment <- jget $"comment" j;
  do _ <- raise_if_named (l1 ++ l2 ++ l3) $"Annotation";
  let c := $"Annotation" in
  construct c (COk Build_annotation <*> c_str c $"spdx_id" spdx_id <*> c_req c $"annotation_type" ty
               <*> c_req c $"annotator" annotator <*> c_req c $"annotation_date" date
               <*> c_str c $"annotation_comment" comment).

(** annotation_parser.py:101-125 *)
Definition parse_review (spdx_id : json) (j : json) : result annotation :=
  do reviewer_j <- jget $"reviewer" j;
  do (l1, annotator) <- parse_field reviewer_j j_actor;
  do date_j <- jget $"reviewDate" j;
  do (l2, date) <- parse_field date_j j_date;
  do comment <- jget $"comment" j;
  do _ <- raise_if_named (l1 ++ l2) $"Annotation from revieweds";
  let c := $"Annotation" in
  construct c (COk Build_annotation <*> c_str c $"spdx_id" spdx_id <*> COk ANT_REVIEW
               <*> c_req c $"annotator" annotator <*> c_req c $"annotation_date" date
               <*> c_str c $"annotation_comment" comment).

(** annotation_parser.py:49-61  parse_annotations_from_object *)
Fixpoint annotations_loop (l : list json) : result (list pystr * list annotation) :=
  match l with
  | [] => Ok ([], [])
  | x :: l' =>
      do id <- jget $"SPDXID" x;
      do anns <- jget_default $"annotations" (JArr []) x;
      do (m, r) <- parse_field_list anns (parse_annotation id);
      do (ms, rs) <- annotations_loop l';
      Ok (m ++ ms, opt_list r ++ rs)
  end.
Definition parse_annotations_from_object (j : json) : result (list pystr * list annotation) :=
  do l <- jiter j; annotations_loop l.

(** annotation_parser.py:31-47  parse_all_annotations *)
Definition parse_all_annotations (j : json) : result (list annotation) :=
  do (l1, a1) <- annotations_loop [j];
  do reviews <- jget_default $"revieweds" (JArr []) j;
  do reviews <- jiter reviews;
  do id <- jget $"SPDXID" j;
  do (l2, a2) <- parse_elements (quiet (parse_review id)) reviews;
  do packages <- jget_default $"packages" (JArr []) j;
  do (l3, a3) <- parse_annotations_from_object packages;
  do files <- jget_default $"files" (JArr []) j;
  do (l4, a4) <- parse_annotations_from_object files;
  do snippets <- jget_default $"snippets" (JArr []) j;
  do (l5, a5) <- parse_annotations_from_object snippets;
  do _ <- raise_if_named (l1 ++ l2 ++ l3 ++ l4 ++ l5) $"annotations";
  Ok (a1 ++ a2 ++ a3 ++ a4 ++ a5).

(** ** relationship_parser.py *)

(** relationship_parser.py:104-110 *)
Definition parse_relationship_type (j : json) : result rel_type :=
  do n <- json_str_to_enum_name j;
  match enum_lookup rel_type_all rel_type_name n with
  | Some t => Ok t
  | None => Raise (EParsing [$"Invalid RelationshipType: " ++ n])
  end.

(** relationship_parser.py:81-102 *)
Definition parse_relationship (j : json) : result relationship :=
  do id <- jget $"spdxElementId" j;
  do related <- jget $"relatedSpdxElement" j;
  do type_j <- jget $"relationshipType" j;
  do (log, ty) <- parse_field type_j parse_relationship_type;
  do comment <- jget $"comment" j;
  do _ <- raise_if_named log $"Relationship";
  let c := $"Relationship" in
  construct c (COk Build_relationship <*> c_str c $"spdx_element_id" id <*> c_req c $"relationship_type" ty
               <*> c_nn c $"related_spdx_element_id" (field_or_nn related) <*> c_opt_str c $"comment" comment).

(** relationship_parser.py:174-184 *)
Definition without_comment (r : relationship) : relationship :=
  {| re_id := re_id r; re_type := re_type r; re_related := re_related r; re_comment := None |}.
Definition get_all_relationships_without_comments (l : list relationship) : list relationship := map without_comment l.

(** relationship_parser.py:186-199  invert_relationship, on the two relationship types it is called with.  The
    relationships it is applied to have a string as related id (they were built from documentDescribes/hasFiles). *)
Definition invert_type (t : rel_type) : option rel_type :=
  match t with
  | RT_DESCRIBES => Some RT_DESCRIBED_BY
  | RT_DESCRIBED_BY => Some RT_DESCRIBES
  | RT_CONTAINS => Some RT_CONTAINED_BY
  | RT_CONTAINED_BY => Some RT_CONTAINS
  | _ => None
  end.
Definition invert_relationship (r : relationship) : result relationship :=
  match invert_type (re_type r) with
  | None => Raise (EKey (rel_type_name (re_type r)))
  | Some t =>
      match re_related r with
      | NVal i => Ok {| re_id := i; re_type := t; re_related := NVal (re_id r); re_comment := re_comment r |}
      | _ => Raise (EConstructor [$"SetterError Relationship: spdx_element_id"])
      end
  end.

(** relationship_parser.py:162-172 *)
Definition rel_in (r : relationship) (l : list relationship) : bool := existsb (eqb_of relationship_eq_dec r) l.
Definition check_if_relationship_exists (r : relationship) (existing : list relationship) : result bool :=
  if rel_in r existing then Ok true
  else do i <- invert_relationship r; Ok (rel_in i existing).

(** one implicit relationship: relationship_parser.py:118-128 and 145-157 *)
Definition implicit_relationship (origin : json) (ty : rel_type) (target : json) : result relationship :=
  let c := $"Relationship" in
  construct_raw (COk Build_relationship <*> c_str c $"spdx_element_id" origin <*> COk ty
                 <*> c_nn c $"related_spdx_element_id" (NVal target) <*> COk None).

(** the loops of lines 117-128 and 144-157 over the targets of one origin *)
Fixpoint implicit_loop (origin : json) (ty : rel_type) (existing : list relationship) (targets : list json)
  : result (list pystr * list relationship) :=
  match targets with
  | [] => Ok ([], [])
  | x :: l' =>
      match implicit_relationship origin ty x with
      | Raise (EConstructor ms) =>
          do (log, r) <- implicit_loop origin ty existing l'; Ok (show_list ms :: log, r)
      | Raise e => Raise e
      | Ok rel =>
          do e <- check_if_relationship_exists rel existing;
          do (log, r) <- implicit_loop origin ty existing l';
          Ok (log, if e then r else rel :: r)
      end
  end.

(** relationship_parser.py:112-131  parse_document_describes *)
Definition parse_document_describes (doc_id : json) (existing : list relationship) (ids : list json)
  : result (list relationship) :=
  do (log, r) <- implicit_loop doc_id RT_DESCRIBES existing ids;
  do _ <- raise_if_named log $"document describes relationships";
  Ok r.

(** relationship_parser.py:139-157 *)
Fixpoint has_files_loop (existing : list relationship) (packages : list json)
  : result (list pystr * list relationship) :=
  match packages with
  | [] => Ok ([], [])
  | p :: l' =>
      do id <- jget $"SPDXID" p;
      do files_j <- jget_default $"hasFiles" (JArr []) p;
      do files <- delete_duplicates_from_list files_j;
      do (log, r) <- implicit_loop id RT_CONTAINS existing files;
      do (log', r') <- has_files_loop existing l';
      Ok (log ++ log', r ++ r')
  end.
(** relationship_parser.py:133-160  parse_has_files *)
Definition parse_has_files (existing : list relationship) (j : json) : result (list relationship) :=
  do packages <- jiter j;
  do (log, r) <- has_files_loop existing packages;
  do _ <- raise_if_named log $"package contains relationships";
  Ok r.

(** relationship_parser.py:28-79  parse_all_relationships *)
Definition parse_all_relationships (j : json) : result (list relationship) :=
  do rels_j <- jget_default $"relationships" (JArr []) j;
  do (l1, r1) <- parse_field_list rels_j parse_relationship;
  let rels := opt_list r1 in
  do describes_j <- jget_default $"documentDescribes" (JArr []) j;
  do describes <- delete_duplicates_from_list describes_j;
  do doc_id <- jget $"SPDXID" j;
  do (l2, r2) <- parse_field (JArr describes)
                   (fun _ => parse_document_describes doc_id (get_all_relationships_without_comments rels) describes);
  let rels := rels ++ opt_list r2 in
  do packages <- jget_default $"packages" (JArr []) j;
  do (l3, r3) <- parse_field packages (parse_has_files (get_all_relationships_without_comments rels));
  do _ <- raise_if (l1 ++ l2 ++ l3);
  Ok (rels ++ opt_list r3).

(** ** json_like_dict_parser.py *)

(** json_like_dict_parser.py:80-86  one entry of fields_to_parse: only SPDXParsingError is collected *)
Definition top_field {A} (optional : bool) (j : json) (f : json -> result A) : result (list pystr * option A) :=
  if optional && negb (jtruthy j) then Ok ([], None)
  else match f j with
       | Ok a => Ok ([], Some a)
       | Raise (EParsing ms) => Ok (ms, None)
       | Raise e => Raise e
       end.

(** json_like_dict_parser.py:43-92  JsonLikeDictParser.parse.  The arguments of Document are well typed by
    construction; creation_info is present when nothing was logged. *)
Definition parse_dict (j : json) : result document :=
  do packages_j <- jget $"packages" j;
  do files_j <- jget $"files" j;
  do snippets_j <- jget $"snippets" j;
  do infos_j <- jget $"hasExtractedLicensingInfos" j;
  do (l1, ci) <- top_field false j parse_creation_info;
  do (l2, packages) <- top_field true packages_j (parse_list_of_elements_log parse_package);
  do (l3, files) <- top_field true files_j (parse_list_of_elements parse_file);
  do (l4, annotations) <- top_field true j parse_all_annotations;
  do (l5, snippets) <- top_field true snippets_j (parse_list_of_elements parse_snippet);
  do (l6, relationships) <- top_field true j parse_all_relationships;
  do (l7, infos) <- top_field true infos_j (parse_list_of_elements parse_extracted);
  do _ <- raise_if (l1 ++ l2 ++ l3 ++ l4 ++ l5 ++ l6 ++ l7);
  match ci with
  | None => Raise (EType $"Document.__init__() missing 1 required positional argument: 'creation_info'")
  | Some c =>
      Ok {| do_ci := c; do_packages := opt_list packages; do_files := opt_list files;
            do_snippets := opt_list snippets; do_annotations := opt_list annotations;
            do_relationships := opt_list relationships; do_extracted := opt_list infos |}
  end.

End WithOracles.
