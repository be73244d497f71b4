(** Reading a document from an RDF graph: spdx/parser/rdf/*.py.

    Reading RDF/XML text into a graph (rdf_parser.py:26-28) is done by rdflib and not modelled.  A function that writes
    to the logger of its caller yields the messages it logs together with its value.  Messages are modelled up to the
    text of offending values.  A value of a wrong type that reaches a type-checked constructor is modelled as None in a
    place where None is of a wrong type, too. *)
From Verif Require Import Py Data Oracles Basics Json Construct JsonParse Rdf.

(** what was logged, and a value *)
Definition logged (A : Type) : Type := result (list pystr * A).

Section Parser.
Variable O : oracles.
Variable L : rdf_library.

(** ** graph_parsing_functions.py *)

(** graph_parsing_functions.py:71-77  get_unique_value *)
Definition get_unique_value (ts : list triple) (s : node) (p : pystr) : list pystr * option node :=
  match only_value (objects ts s p) with
  | inl v => ([], v)
  | inr _ => ([$"Multiple values for unique value " ++ p ++ $" found."], None)
  end.
(** graph_parsing_functions.py:35-44  apply_parsing_method_or_log_error *)
Definition apply_parsing_method {A} (f : node -> result A) (n : node) : logged (option A) :=
  match f n with
  | Ok a => Ok ([], Some a)
  | Raise e => match caught e with Some ms => Ok (ms, None) | None => Raise e end
  end.
(** graph_parsing_functions.py:21-32  parse_literal *)
Definition parse_literal {A} (f : node -> result A) (ts : list triple) (s : node) (p : pystr) : logged (option A) :=
  let (log, v) := get_unique_value ts s p in
  match v with
  | None => Ok (log, None)
  | Some n => if node_truthy L n then do (log', a) <- apply_parsing_method f n; Ok (log ++ log', a) else Ok (log, None)
  end.
(** graph_parsing_functions.py:59-68  get_correctly_typed_value *)
Definition get_correctly_typed_value {A} (f : node -> result A) (v : option node) : logged (option (nn A)) :=
  match v with
  | None => Ok ([], None)
  | Some n =>
      if negb (node_truthy L n) then Ok ([], None)
      else if is_uri n (spdx "noassertion") || py_is L n $"NOASSERTION" then Ok ([], Some NNoAssertion)
      else if is_uri n (spdx "none") || py_is L n $"NONE" then Ok ([], Some NNone)
      else do (log, a) <- apply_parsing_method f n;
           Ok (log, match a with Some x => Some (NVal x) | None => None end)
  end.
(** graph_parsing_functions.py:47-56  parse_literal_or_no_assertion_or_none *)
Definition parse_literal_nn {A} (f : node -> result A) (ts : list triple) (s : node) (p : pystr) : logged (option (nn A)) :=
  let (log, v) := get_unique_value ts s p in
  do (log', a) <- get_correctly_typed_value f v; Ok (log ++ log', a).
(** the default parsing method, x.strip() *)
Definition stripped (n : node) : result pystr := Ok (strip (node_str n)).
(** graph_parsing_functions.py:102-105  remove_prefix *)
Definition remove_prefix (s prefix : pystr) : pystr :=
  if startswith prefix s then skipn (List.length prefix) s else s.
(** the class that parse_enum_value is called with: every prefix belongs to one class (package_parser.py:106, 184,
    file_parser.py:39, annotation_parser.py:29, relationship_parser.py:31) *)
Definition enum_class (prefix : pystr) : pystr :=
  if str_eqb prefix $"purpose_" then $"PackagePurpose"
  else if str_eqb prefix $"referenceCategory_" then $"ExternalPackageRefCategory"
  else if str_eqb prefix $"fileType_" then $"FileType"
  else if str_eqb prefix $"annotationType_" then $"AnnotationType" else $"RelationshipType".
(** graph_parsing_functions.py:80-86  parse_enum_value *)
Definition parse_enum_value {A} (all : list A) (name : A -> pystr) (prefix : pystr) (n : node) : result A :=
  match enum_lookup all name (upper (camel_to_snake (remove_prefix (node_str n) (SPDX_NAMESPACE ++ prefix)))) with
  | Some a => Ok a
  | None => Raise (EParsing [$"Invalid value for <enum '" ++ enum_class prefix ++ $"'>: " ++ node_str n])
  end.
(** graph_parsing_functions.py:89-97  parse_spdx_id; [bound] are the prefixes bound in the graph.  A result that is not a
    str is None, like Python's None. *)
Definition parse_spdx_id (bound : list (pystr * pystr)) (v : option node) (ns : pystr) : result (option pystr) :=
  match v with
  | None | Some (NBlank _) => Ok None
  | Some n =>
      if negb (node_truthy L n) then Ok None
      else if startswith (ns ++ $"#") (node_str n) then do f <- fragment_of L n; Ok (Some f)
      else if has_char #"#" (node_str n) then Ok (Some (r_normalize L bound (node_str n)))
      else Ok (match py_text L n with Some [] => None | o => o end)
  end.
(** for x in ...: l.append(f(x)) where f raises past the caller's logger *)
Fixpoint each {A B} (f : A -> result B) (l : list A) : result (list B) :=
  match l with [] => Ok [] | x :: l' => do y <- f x; do r <- each f l'; Ok (y :: r) end.
(** ... where f logs *)
Fixpoint each_log {A B} (f : A -> logged B) (l : list A) : logged (list B) :=
  match l with
  | [] => Ok ([], [])
  | x :: l' => do (m, y) <- f x; do (ms, r) <- each_log f l'; Ok (m ++ ms, y :: r)
  end.
(** try: l.append(f(x)) except SPDXParsingError as err: logger.extend(err.get_messages()) *)
Fixpoint each_try {A B} (f : A -> result B) (l : list A) : logged (list B) :=
  match l with
  | [] => Ok ([], [])
  | x :: l' =>
      match f x with
      | Ok y => do (ms, r) <- each_try f l'; Ok (ms, y :: r)
      | Raise (EParsing m) => do (ms, r) <- each_try f l'; Ok (m ++ ms, r)
      | Raise e => Raise e
      end
  end.

(** ** checksum_parser.py *)
(** checksum_parser.py:29-37  convert_rdf_to_algorithm *)
Definition convert_rdf_to_algorithm (n : node) : result checksum_alg :=
  let a := upper (remove_prefix (node_str n) (spdx "checksumAlgorithm_")) in
  let a := if contains $"BLAKE2B" a then replace $"BLAKE2B" $"BLAKE2B_" a else a in
  match enum_lookup checksum_alg_all checksum_alg_name a with
  | Some c => Ok c
  | None => Raise (EParsing [$"Invalid value for ChecksumAlgorithm: " ++ a])
  end.
(** checksum_parser.py:17-26  parse_checksum *)
Definition parse_checksum (ts : list triple) (b : node) : result checksum :=
  do (l1, alg) <- parse_literal convert_rdf_to_algorithm ts b (spdx "algorithm");
  do (l2, value) <- parse_literal stripped ts b (spdx "checksumValue");
  do _ <- raise_if_named (l1 ++ l2) $"Checksum";
  let c := $"Checksum" in
  construct c (COk Build_checksum <*> c_req c $"algorithm" alg <*> c_req c $"value" value).

(** ** license_expression_parser.py *)
Definition no_attribute : exn := EAttr $"'NoneType' object has no attribute".
(** str(expression) *)
Definition show_expression (e : option lexpr) : pystr := match e with Some x => o_lic_str O x | None => $"None" end.
(** spdx_licensing.parse(s) *)
Definition licensing (s : pystr) : result (option lexpr) := licensing_parse O (JStr s).
(** license_expression_parser.py:57-62  parse_license_exception *)
Definition parse_license_exception (ts : list triple) (v : option node) : result pystr :=
  match v with
  | None => Raise no_attribute
  | Some n =>
      if startswith LICENSE_NAMESPACE (node_str n) then Ok (remove_prefix (node_str n) LICENSE_NAMESPACE)
      else match any_value (objects ts n (spdx "licenseExceptionId")) with
           | None => Raise no_attribute
           | Some x => Ok (py_str L x)
           end
  end.
(** license_expression_parser.py:15-54  parse_license_expression; [depth] bounds the nesting of calls *)
Fixpoint parse_expression (depth : nat) (ts : list triple) (ns : pystr) (v : option node) : result (option lexpr) :=
  match depth with
  | 0 => Raise ERecursion
  | S depth' =>
      match v with
      | None => Raise no_attribute
      | Some n =>
          if startswith LICENSE_NAMESPACE (node_str n) then licensing (remove_prefix (node_str n) LICENSE_NAMESPACE)
          else if startswith ns (node_str n) then do f <- fragment_of L n; licensing f
          else
            match any_value (objects ts n RDF_type) with
            | None => licensing []
            | Some ty =>
                let members := each (fun m => parse_expression depth' ts ns (Some m)) (objects ts n (spdx "member")) in
                if is_uri ty (spdx "ConjunctiveLicenseSet") then
                  do ms <- members; licensing (join $" AND " (map show_expression ms))
                else if is_uri ty (spdx "DisjunctiveLicenseSet") then
                  do ms <- members; licensing (join $" OR " (map show_expression ms))
                else if is_uri ty (spdx "WithExceptionOperator") then
                  do e <- parse_expression depth' ts ns (any_value (objects ts n (spdx "member")));
                  do x <- parse_license_exception ts (any_value (objects ts n (spdx "licenseException")));
                  licensing (show_expression e ++ $" WITH " ++ x)
                else licensing []
            end
      end
  end.
Definition parse_license (ts : list triple) (ns : pystr) (n : node) : result (option lexpr) :=
  parse_expression (r_depth L) ts ns (Some n).
(** a license field: an expression that is None is like a missing value *)
Definition as_license (v : option (nn (option lexpr))) : option license :=
  match v with
  | Some (NVal (Some e)) => Some (NVal e)
  | Some NNoAssertion => Some NNoAssertion
  | Some NNone => Some NNone
  | _ => None
  end.
Definition parse_license_field (ts : list triple) (ns : pystr) (s : node) (p : pystr) : logged (option license) :=
  do (log, v) <- parse_literal_nn (parse_license ts ns) ts s p; Ok (log, as_license v).
Definition parse_license_list (ts : list triple) (ns : pystr) (s : node) (p : pystr) : logged (list (option license)) :=
  each_log (fun n => do (log, v) <- get_correctly_typed_value (parse_license ts ns) (Some n); Ok (log, as_license v))
    (objects ts s p).

(** methods of other modules, applied to the text of a node *)
Definition node_actor (n : node) : result actor := parse_actor (node_str n).
Definition node_date (n : node) : result datetime := datetime_from_str (node_str n).
Definition node_version (n : node) : result version := version_from_string (node_str n).
(** [x.toPython() for x in ...] *)
Definition py_texts (l : list node) : list (option pystr) := map (py_text L) l.
(** Union[str, SpdxNoAssertion] and Union[Actor, SpdxNoAssertion] do not admit SpdxNone *)
Definition c_na {A} (cls fld : pystr) (v : option (nn A)) : chk (option (na A)) :=
  match v with
  | None => COk None
  | Some (NVal a) => COk (Some (AVal a))
  | Some NNoAssertion => COk (Some ANoAssertion)
  | Some NNone => bad cls fld
  end.

(** ** creation_info_parser.py *)
(** creation_info_parser.py:92-121  parse_namespace_and_spdx_id *)
Definition parse_namespace_and_spdx_id (ts : list triple) : result (pystr * option pystr * node) :=
  match only_value (subjects ts RDF_type (NUri (spdx "SpdxDocument"))) with
  | inr _ => Raise (EExit $"Multiple SpdxDocuments found, can't parse rdf file.")
  | inl None => Raise (EExit $"No SpdxDocument found, can't parse rdf file.")
  | inl (Some n) =>
      if negb (node_truthy L n) then Raise (EExit $"No SpdxDocument found, can't parse rdf file.")
      else if negb (has_char #"#" (node_str n)) then
        Raise (EExit ($"No '#' found in the URI of SpdxDocument, the URI for the SpdxDocument should be the namespace appended by '#"
                      ++ $"SPDXRef-DOCUMENT."))
      else do (ns, id) <- r_defrag L (node_str n);
           match ns with
           | [] => Raise (EExit ($"No namespace found, the URI for the SpdxDocument should be the namespace appended by '#"
                                 ++ $"SPDXRef-DOCUMENT."))
           | _ => Ok (ns, match id with [] => None | _ => Some id end, n)
           end
  end.
(** creation_info_parser.py:124-145  parse_external_document_refs: the reference; the messages logged are dropped.  The
    caller binds its namespace. *)
Definition parse_external_document_ref (ts : list triple) (bound : list (pystr * pystr)) (ns : pystr) (n : node)
    : result ext_doc_ref :=
  do id <- parse_spdx_id bound (Some n) ns;
  do (_, uri) <- parse_literal stripped ts n (spdx "spdxDocument");
  do (_, sum) <- parse_literal (parse_checksum ts) ts n (spdx "checksum");
  let c := $"ExternalDocumentRef" in
  construct c (COk Build_ext_doc_ref <*> c_req c $"document_ref_id" id <*> c_req c $"document_uri" uri
               <*> c_req c $"checksum" sum).
(** creation_info_parser.py:143: graph.bind *)
Definition binding (r : ext_doc_ref) : pystr * pystr := (edr_id r, edr_uri r ++ $"#").
(** creation_info_parser.py:67-70 *)
Fixpoint parse_external_document_refs (ts : list triple) (bound : list (pystr * pystr)) (ns : pystr) (l : list node)
    : result (list ext_doc_ref) :=
  match l with
  | [] => Ok []
  | n :: l' =>
      do r <- parse_external_document_ref ts bound ns n;
      do rs <- parse_external_document_refs ts (bound ++ [binding r]) ns l';
      Ok (r :: rs)
  end.
(** ActorParser.parse_actor(x.toPython()): matching a pattern against something other than a str is a TypeError *)
Definition creator_of (n : node) : result actor :=
  match py_text L n with Some s => parse_actor s | None => Raise (EType $"expected string or bytes-like object") end.
(** creation_info_parser.py:33-89  parse_creation_info *)
Definition parse_creation_info (g : graph) : result creation_info :=
  let ts := g_triples g in
  do (ns, id, doc) <- parse_namespace_and_spdx_id ts;
  do (l1, spec) <- parse_literal stripped ts doc (spdx "specVersion");
  do (l2, lic) <- parse_literal (fun n => Ok (remove_prefix (node_str n) LICENSE_NAMESPACE)) ts doc (spdx "dataLicense");
  do (l3, comment) <- parse_literal stripped ts doc RDFS_comment;
  do (l4, name) <- parse_literal stripped ts doc (spdx "name");
  match any_value (subjects ts RDF_type (NUri (spdx "CreationInfo"))) with
  | None => Raise (EParsing [$"Error while parsing document: " ++ show_list (l1 ++ l2 ++ l3 ++ l4 ++ [$"CreationInfo does not exist."])])
  | Some b =>
      if negb (node_truthy L b) then
        Raise (EParsing [$"Error while parsing document: " ++ show_list (l1 ++ l2 ++ l3 ++ l4 ++ [$"CreationInfo does not exist."])])
      else
      do (l5, created) <- parse_literal node_date ts b (spdx "created");
      do (l6, version) <- parse_literal node_version ts b (spdx "licenseListVersion");
      do (l7, ccomment) <- parse_literal stripped ts b RDFS_comment;
      do creators <- each creator_of (objects ts b (spdx "creator"));
      let l8 := match creators with [] => [$"No creators provided."] | _ => [] end in
      do refs <- parse_external_document_refs ts (g_bound g) ns (objects ts doc (spdx "externalDocumentRef"));
      do _ <- raise_if_named (l1 ++ l2 ++ l3 ++ l4 ++ l5 ++ l6 ++ l7 ++ l8) $"CreationInfo";
      let c := $"CreationInfo" in
      construct c (COk Build_creation_info <*> c_req c $"spdx_version" spec <*> c_req c $"spdx_id" id
                   <*> c_req c $"name" name <*> COk ns <*> COk creators <*> c_req c $"created" created <*> COk ccomment
                   <*> c_req c $"data_license" lic <*> COk refs <*> COk version <*> COk comment)
  end.

(** ** package_parser.py *)
(** package_parser.py:158-173  parse_package_verification_code *)
Definition parse_package_verification_code (ts : list triple) (b : node) : result verif_code :=
  do (l1, value) <- parse_literal stripped ts b (spdx "packageVerificationCodeValue");
  let excluded := py_texts (objects ts b (spdx "packageVerificationCodeExcludedFile")) in
  do _ <- raise_if_named l1 $"PackageVerificationCode";
  let c := $"PackageVerificationCode" in
  construct c (COk Build_verif_code <*> c_req c $"value" value <*> c_items c $"excluded_files" excluded).
(** package_parser.py:202-207  parse_external_package_ref_type *)
Definition parse_external_package_ref_type (ns : pystr) (n : node) : result (option pystr) :=
  if startswith ns (node_str n) then do f <- fragment_of L n; Ok (Some f)
  else if startswith REFERENCE_NAMESPACE (node_str n) then Ok (Some (replace REFERENCE_NAMESPACE $"" (node_str n)))
  else Ok (py_text L n).
Definition flat {A} (v : option (option A)) : option A := match v with Some o => o | None => None end.
(** package_parser.py:176-199  parse_external_package_ref *)
Definition parse_external_package_ref (ts : list triple) (ns : pystr) (b : node) : result ext_pkg_ref :=
  do (l1, locator) <- parse_literal stripped ts b (spdx "referenceLocator");
  do (l2, category) <- parse_literal (parse_enum_value ref_category_all ref_category_name $"referenceCategory_") ts b
                         (spdx "referenceCategory");
  do (l3, ty) <- parse_literal (parse_external_package_ref_type ns) ts b (spdx "referenceType");
  do (l4, comment) <- parse_literal stripped ts b RDFS_comment;
  do _ <- raise_if_named (l1 ++ l2 ++ l3 ++ l4) $"ExternalPackageRef";
  let c := $"ExternalPackageRef" in
  construct c (COk Build_ext_pkg_ref <*> c_req c $"category" category <*> c_req c $"reference_type" (flat ty)
               <*> c_req c $"locator" locator <*> COk comment).
(** package_parser.py:36-155  parse_package *)
Definition parse_package (ts : list triple) (bound : list (pystr * pystr)) (ns : pystr) (s : node) : result package :=
  do id <- parse_spdx_id bound (Some s) ns;
  do (l1, name) <- parse_literal stripped ts s (spdx "name");
  do (l2, download) <- parse_literal_nn stripped ts s (spdx "downloadLocation");
  do checksums <- each (parse_checksum ts) (objects ts s (spdx "checksum"));
  do (l3, version) <- parse_literal stripped ts s (spdx "versionInfo");
  do (l4, file_name) <- parse_literal stripped ts s (spdx "packageFileName");
  do (l5, supplier) <- parse_literal_nn node_actor ts s (spdx "supplier");
  do (l6, originator) <- parse_literal_nn node_actor ts s (spdx "originator");
  do (l7, code) <- parse_literal (parse_package_verification_code ts) ts s (spdx "packageVerificationCode");
  do refs <- each (parse_external_package_ref ts ns) (objects ts s (spdx "externalRef"));
  let analyzed := match any_value (objects ts s (spdx "filesAnalyzed")) with Some n => node_truthy L n | None => true end in
  do (l8, concluded) <- parse_license_field ts ns s (spdx "licenseConcluded");
  do (l9, declared) <- parse_license_field ts ns s (spdx "licenseDeclared");
  do (l10, info) <- parse_license_list ts ns s (spdx "licenseInfoFromFiles");
  do (l11, lic_comment) <- parse_literal stripped ts s (spdx "licenseComments");
  do (l12, comment) <- parse_literal stripped ts s RDFS_comment;
  do (l13, summary) <- parse_literal stripped ts s (spdx "summary");
  do (l14, description) <- parse_literal stripped ts s (spdx "description");
  do (l15, copyright) <- parse_literal_nn stripped ts s (spdx "copyrightText");
  do (l16, source_info) <- parse_literal stripped ts s (spdx "sourceInfo");
  do (l17, purpose) <- parse_literal (parse_enum_value purpose_all purpose_name $"purpose_") ts s
                         (spdx "primaryPackagePurpose");
  do (l18, homepage) <- parse_literal stripped ts s DOAP_homepage;
  let attribution := py_texts (objects ts s (spdx "attributionText")) in
  do (l19, release) <- parse_literal node_date ts s (spdx "releaseDate");
  do (l20, built) <- parse_literal node_date ts s (spdx "builtDate");
  do (l21, valid_until) <- parse_literal node_date ts s (spdx "validUntilDate");
  do _ <- raise_if_named (l1 ++ l2 ++ l3 ++ l4 ++ l5 ++ l6 ++ l7 ++ l8 ++ l9 ++ l10 ++ l11 ++ l12 ++ l13 ++ l14 ++ l15
                          ++ l16 ++ l17 ++ l18 ++ l19 ++ l20 ++ l21) $"Package";
  let c := $"Package" in
  construct c (COk Build_package <*> c_req c $"spdx_id" id <*> c_req c $"name" name
    <*> c_req c $"download_location" download <*> COk version <*> COk file_name <*> c_na c $"supplier" supplier
    <*> c_na c $"originator" originator <*> COk analyzed <*> COk code <*> COk checksums
    <*> COk (match homepage with Some h => Some (NVal h) | None => None end) <*> COk source_info <*> COk concluded
    <*> c_items c $"license_info_from_files" info <*> COk declared <*> COk lic_comment <*> COk copyright <*> COk summary
    <*> COk description <*> COk comment <*> COk refs <*> c_items c $"attribution_texts" attribution <*> COk purpose
    <*> COk release <*> COk built <*> COk valid_until).

(** ** file_parser.py:27-91  parse_file *)
Definition parse_file (ts : list triple) (bound : list (pystr * pystr)) (ns : pystr) (s : node) : result file :=
  do id <- parse_spdx_id bound (Some s) ns;
  do (l1, name) <- parse_literal stripped ts s (spdx "fileName");
  do checksums <- each (parse_checksum ts) (objects ts s (spdx "checksum"));
  do (l2, types) <- each_log (apply_parsing_method (parse_enum_value file_type_all file_type_name $"fileType_"))
                      (objects ts s (spdx "fileType"));
  do (l3, concluded) <- parse_license_field ts ns s (spdx "licenseConcluded");
  do (l4, info) <- parse_license_list ts ns s (spdx "licenseInfoInFile");
  do (l5, lic_comment) <- parse_literal stripped ts s (spdx "licenseComments");
  do (l6, copyright) <- parse_literal_nn stripped ts s (spdx "copyrightText");
  let contributors := py_texts (objects ts s (spdx "fileContributor")) in
  do (l7, notice) <- parse_literal stripped ts s (spdx "noticeText");
  do (l8, comment) <- parse_literal stripped ts s RDFS_comment;
  let attribution := py_texts (objects ts s (spdx "attributionText")) in
  do _ <- raise_if_named (l1 ++ l2 ++ l3 ++ l4 ++ l5 ++ l6 ++ l7 ++ l8) $"File";
  let c := $"File" in
  construct c (COk Build_file <*> c_req c $"name" name <*> c_req c $"spdx_id" id <*> COk checksums
    <*> c_items c $"file_types" types <*> COk concluded <*> c_items c $"license_info_in_file" info <*> COk lic_comment
    <*> COk copyright <*> COk comment <*> COk notice <*> c_items c $"contributors" contributors
    <*> c_items c $"attribution_texts" attribution).

(** ** snippet_parser.py *)
(** snippet_parser.py:140-147  parse_range_value; None also stands for a Literal that was left as it is *)
Definition parse_range_value (ts : list triple) (n : node) (p : pystr) : result (option Z) :=
  match only_value (objects ts n p) with
  | inr _ => Raise (EParsing [$"Multiple values for " ++ p ++ $" found."])
  | inl None => Ok None
  | inl (Some v) => if node_truthy L v then do z <- py_int L v; Ok (Some z) else Ok None
  end.
(** snippet_parser.py:123-131  get_pointer_type *)
Definition get_pointer_type (ts : list triple) (pointer : pystr) (n : node) : result (option node * node) :=
  match only_value (objects ts n pointer) with
  | inr _ => Raise (EParsing [$"Multiple values for " ++ pointer])
  | inl None => Raise (EParsing [$"Couldn't find pointer of type " ++ pointer])
  | inl (Some b) =>
      if node_truthy L b then Ok (any_value (objects ts b RDF_type), b)
      else Raise (EParsing [$"Couldn't find pointer of type " ++ pointer])
  end.
Definition opt_node_eq_dec (a b : option node) : {a = b} + {a <> b}.
Proof. decide equality. apply node_eq_dec. Defined.
(** snippet_parser.py:134-137  POINTER_MATCHING; the bool says whether the pointer counts bytes *)
Definition pointer_matching (ty : option node) : option (bool * pystr) :=
  match ty with
  | Some n => if is_uri n (ptr "ByteOffsetPointer") then Some (true, ptr "offset")
              else if is_uri n (ptr "LineCharPointer") then Some (false, ptr "lineNumber") else None
  | None => None
  end.
(** snippet_parser.py:109-120  parse_ranges *)
Definition parse_ranges (ts : list triple) (n : node) : result (bool * (option Z * option Z)) :=
  do (start_type, start_node) <- get_pointer_type ts (ptr "startPointer") n;
  do (end_type, end_node) <- get_pointer_type ts (ptr "endPointer") n;
  if opt_node_eq_dec start_type end_type then
    match pointer_matching start_type with
    | None => Raise (EKey $"pointer type")
    | Some (bytes, p) =>
        do a <- parse_range_value ts start_node p;
        do b <- parse_range_value ts end_node p;
        Ok (bytes, (a, b))
    end
  else Raise (EParsing [$"Types of startPointer and endPointer don't match"]).
(** snippet_parser.py:38-42 and 90-106  set_range_or_log_error *)
Definition range_pair : Type := option (option Z * option Z).
Fixpoint read_ranges (ts : list triple) (l : list node) (bytes lines : range_pair) : logged (range_pair * range_pair) :=
  match l with
  | [] => Ok ([], (bytes, lines))
  | n :: l' =>
      do (m, r) <- apply_parsing_method (parse_ranges ts) n;
      let '(m', bytes', lines') :=
        match r with
        | None => ([], bytes, lines)
        | Some (true, v) =>
            match bytes with None => ([], Some v, lines) | Some _ => ([$"Multiple ByteOffsetPointer found."], bytes, lines) end
        | Some (false, v) =>
            match lines with None => ([], bytes, Some v) | Some _ => ([$"Multiple LineCharPointer found."], bytes, lines) end
        end in
      do (ms, v) <- read_ranges ts l' bytes' lines';
      Ok (m ++ m' ++ ms, v)
  end.
(** Tuple[int, int] and Optional[Tuple[int, int]] *)
Definition c_pair (cls fld : pystr) (r : range_pair) : chk (Z * Z) :=
  match r with Some (Some a, Some b) => COk (a, b) | _ => bad cls fld end.
Definition c_opt_pair (cls fld : pystr) (r : range_pair) : chk (option (Z * Z)) :=
  match r with None => COk None | Some (Some a, Some b) => COk (Some (a, b)) | Some _ => bad cls fld end.
(** snippet_parser.py:29-87  parse_snippet *)
Definition parse_snippet (ts : list triple) (bound : list (pystr * pystr)) (ns : pystr) (s : node) : result snippet :=
  do id <- parse_spdx_id bound (Some s) ns;
  do file_id <- parse_spdx_id bound (any_value (objects ts s (spdx "snippetFromFile"))) ns;
  do (l1, (bytes, lines)) <- read_ranges ts (objects ts s (spdx "range")) None None;
  do (l2, concluded) <- parse_license_field ts ns s (spdx "licenseConcluded");
  do (l3, info) <- parse_license_list ts ns s (spdx "licenseInfoInSnippet");
  do (l4, lic_comment) <- parse_literal stripped ts s (spdx "licenseComments");
  do (l5, copyright) <- parse_literal_nn stripped ts s (spdx "copyrightText");
  do (l6, comment) <- parse_literal stripped ts s RDFS_comment;
  do (l7, name) <- parse_literal stripped ts s (spdx "name");
  let attribution := py_texts (objects ts s (spdx "attributionText")) in
  do _ <- raise_if_named (l1 ++ l2 ++ l3 ++ l4 ++ l5 ++ l6 ++ l7) $"Snippet";
  let c := $"Snippet" in
  construct c (COk Build_snippet <*> c_req c $"spdx_id" id <*> c_req c $"file_spdx_id" file_id
    <*> c_pair c $"byte_range" bytes <*> c_opt_pair c $"line_range" lines <*> COk concluded
    <*> c_items c $"license_info_in_snippet" info <*> COk lic_comment <*> COk copyright <*> COk comment <*> COk name
    <*> c_items c $"attribution_texts" attribution).

(** ** annotation_parser.py:18-48  parse_annotation *)
Definition parse_annotation (ts : list triple) (bound : list (pystr * pystr)) (ns : pystr) (x : node * node)
    : result annotation :=
  let '(parent, b) := x in
  do id <- parse_spdx_id bound (Some parent) ns;
  do (l1, annotator) <- parse_literal node_actor ts b (spdx "annotator");
  do (l2, ty) <- parse_literal (parse_enum_value annotation_type_all annotation_type_name $"annotationType_") ts b
                   (spdx "annotationType");
  do (l3, date) <- parse_literal node_date ts b (spdx "annotationDate");
  do (l4, comment) <- parse_literal stripped ts b RDFS_comment;
  do _ <- raise_if_named (l1 ++ l2 ++ l3 ++ l4) $"Annotation";
  let c := $"Annotation" in
  construct c (COk Build_annotation <*> c_req c $"spdx_id" id <*> c_req c $"annotation_type" ty
    <*> c_req c $"annotator" annotator <*> c_req c $"annotation_date" date <*> c_req c $"annotation_comment" comment).

(** ** relationship_parser.py *)
(** relationship_parser.py:22-53  parse_relationship *)
Definition parse_relationship (ts : list triple) (bound : list (pystr * pystr)) (ns : pystr) (x : node * node)
    : result relationship :=
  let '(parent, b) := x in
  do id <- parse_spdx_id bound (Some parent) ns;
  do (l1, ty) <- parse_literal (parse_enum_value rel_type_all rel_type_name $"relationshipType_") ts b
                   (spdx "relationshipType");
  do (l2, related) <- parse_literal_nn (fun n => parse_spdx_id bound (Some n) ns) ts b (spdx "relatedSpdxElement");
  do (l3, comment) <- parse_literal stripped ts b RDFS_comment;
  do _ <- raise_if_named (l1 ++ l2 ++ l3) $"Relationship";
  let c := $"Relationship" in
  construct c (COk Build_relationship <*> c_req c $"spdx_element_id" id <*> c_req c $"relationship_type" ty
    <*> match related with
        | Some (NVal (Some x)) => COk (NVal x)
        | Some NNoAssertion => COk NNoAssertion
        | Some NNone => COk NNone
        | _ => bad c $"related_spdx_element_id"
        end
    <*> COk comment).
(** relationship_parser.py:56-73  parse_implicit_relationship *)
Definition parse_implicit_relationship (bound : list (pystr * pystr)) (ns : pystr) (ty : rel_type) (x : node * node)
    : result relationship :=
  do id <- parse_spdx_id bound (Some (fst x)) ns;
  do related <- parse_spdx_id bound (Some (snd x)) ns;
  let c := $"Relationship" in
  construct c (COk Build_relationship <*> c_req c $"spdx_element_id" id <*> COk ty
    <*> match related with Some r => COk (NVal r) | None => bad c $"related_spdx_element_id" end <*> COk None).

(** ** extracted_licensing_info_parser.py:20-54  parse_extracted_licensing_info *)
Definition parse_extracted_licensing_info (ts : list triple) (ns : pystr) (n : node) : result extracted :=
  do (l1, id) <- parse_literal stripped ts n (spdx "licenseId");
  do id <- match id with
           | Some ((_ :: _) as s) => Ok (Some s)
           | _ => if startswith (ns ++ $"#") (node_str n) then do f <- fragment_of L n; Ok (Some f) else Ok (py_text L n)
           end;
  do (l2, text) <- parse_literal stripped ts n (spdx "extractedText");
  do (l3, comment) <- parse_literal stripped ts n RDFS_comment;
  do (l4, name) <- parse_literal_nn stripped ts n (spdx "name");
  let xrefs := py_texts (objects ts n RDFS_seeAlso) in
  do _ <- raise_if_named (l1 ++ l2 ++ l3 ++ l4) $"ExtractedLicensingInfo";
  let c := $"ExtractedLicensingInfo" in
  construct c (COk Build_extracted <*> match id with Some i => COk (Some i) | None => bad c $"license_id" end <*> COk text
    <*> c_na c $"license_name" name <*> c_items c $"cross_references" xrefs <*> COk comment).

(** ** rdf_parser.py *)
(** rdf_parser.py:77-79: [relationship not in parsed_fields["relationships"]] *)
Definition add_relationship (rels : list relationship) (r : relationship) : list relationship :=
  if in_dec relationship_eq_dec r rels then rels else rels ++ [r].
(** rdf_parser.py:66-79, 34-96  translate_graph_to_document.  graph.triples never yields a subject or object that is not a
    node, so the warnings of get_correctly_typed_triples for literal subjects do not occur. *)
Definition translate_graph_to_document (g : graph) : result document :=
  let ts := g_triples g in
  do ci <- parse_creation_info g;
  let ns := ci_namespace ci in
  let bound := g_bound g ++ map binding (ci_refs ci) in
  do (l1, packages) <- each_try (parse_package ts bound ns) (subjects ts RDF_type (NUri (spdx "Package")));
  do (l2, files) <- each_try (parse_file ts bound ns) (subjects ts RDF_type (NUri (spdx "File")));
  do (l3, snippets) <- each_try (parse_snippet ts bound ns) (subjects ts RDF_type (NUri (spdx "Snippet")));
  do (l4, annotations) <- each_try (parse_annotation ts bound ns) (pairs ts (spdx "annotation"));
  do (l5, relationships) <- each_try (parse_relationship ts bound ns) (pairs ts (spdx "relationship"));
  do (l6, contains_rels) <- each_try (parse_implicit_relationship bound ns RT_CONTAINS) (pairs ts (spdx "hasFile"));
  do (l7, describes_rels) <- each_try (parse_implicit_relationship bound ns RT_DESCRIBES) (pairs ts (spdx "describesPackage"));
  do (l8, infos) <- each_try (fun x => parse_extracted_licensing_info ts ns (snd x))
                      (pairs ts (spdx "hasExtractedLicensingInfo"));
  do _ <- raise_if (l1 ++ l2 ++ l3 ++ l4 ++ l5 ++ l6 ++ l7 ++ l8);
  Ok {| do_ci := ci; do_packages := packages; do_files := files; do_snippets := snippets; do_annotations := annotations;
        do_relationships := fold_left add_relationship (contains_rels ++ describes_rels) relationships;
        do_extracted := infos |}.
End Parser.
