(** Building the RDF graph of a document: spdx/writer/rdf/*.py.

    The functions of the code add triples to a graph one by one and create blank nodes on the way.  A model function
    yields the triples it adds, in order, and the number of blank nodes created so far; [lab n] is the label of the
    n-th blank node (rdflib makes up random labels, theorems quantify over [lab]).  Serialising the finished graph as
    RDF/XML (rdf_writer.py:49-53) is done by rdflib and not modelled. *)
From Verif Require Import Py Data Oracles Basics Validation Rdf.

(** ** Sequences of graph.add *)
Definition writer : Type := nat -> result (list triple * nat).
Definition w_nil : writer := fun n => Ok ([], n).
Definition w_app (a b : writer) : writer := fun n => do (x, n1) <- a n; do (y, n2) <- b n1; Ok (x ++ y, n2).
(** a for loop *)
Definition w_all {A} (f : A -> writer) (l : list A) : writer := fold_right (fun a r => w_app (f a) r) w_nil l.
(** consecutive statements *)
Definition w_seq (l : list writer) : writer := w_all (fun w => w) l.
(** graph.add((s, p, o)) *)
Definition w_add (s : node) (p : pystr) (o : node) : writer := fun n => Ok ([(s, p, o)], n).
(** a call that may raise *)
Definition w_get {A} (r : result A) (k : A -> writer) : writer := fun n => do a <- r; k a n.

(** Literal(s) for a str *)
Definition plain (s : pystr) : node := NLit s KPlain.
(** str(value) of a field that may be SpdxNoAssertion or SpdxNone *)
Definition nn_text {A} (str : A -> pystr) (x : nn A) : pystr :=
  match x with NVal a => str a | NNoAssertion => $"NOASSERTION" | NNone => $"NONE" end.
Definition na_text {A} (str : A -> pystr) (x : na A) : pystr :=
  match x with AVal a => str a | ANoAssertion => $"NOASSERTION" end.

(** ** writer_utils.py *)

(** writer_utils.py:17-24  add_optional_literal, for a value with the text [str] *)
Definition add_optional_literal {A} (str : A -> pystr) (v : option A) (parent : node) (p : pystr) : writer :=
  match v with None => w_nil | Some a => w_add parent p (plain (str a)) end.
Definition add_optional_str (v : option pystr) (parent : node) (p : pystr) : writer :=
  add_optional_literal (fun s => s) v parent p.

(** writer_utils.py:36-42  add_literal_or_no_assertion *)
Definition add_literal_or_no_assertion (v : option (na pystr)) (parent : node) (p : pystr) : writer :=
  match v with
  | None => w_nil
  | Some ANoAssertion => w_add parent p (NUri (spdx "noassertion"))
  | Some (AVal s) => w_add parent p (plain s)
  end.
(** writer_utils.py:27-33  add_literal_or_no_assertion_or_none *)
Definition add_literal_or_no_assertion_or_none (v : option (nn pystr)) (parent : node) (p : pystr) : writer :=
  match v with
  | None => w_nil
  | Some NNone => w_add parent p (NUri (spdx "none"))
  | Some NNoAssertion => w_add parent p (NUri (spdx "noassertion"))
  | Some (NVal s) => w_add parent p (plain s)
  end.
(** writer_utils.py:45-47  add_datetime_to_graph *)
Definition add_datetime_to_graph (v : option datetime) (parent : node) (p : pystr) : writer :=
  match v with None => w_nil | Some d => w_get (datetime_to_iso_string d) (fun s => w_add parent p (plain s)) end.
(** writer_utils.py:50-61  add_namespace_to_spdx_id (the warning is not modelled) *)
Definition add_namespace_to_spdx_id (id ns : pystr) (ext : list (pystr * pystr)) : pystr :=
  if has_char #":" id then
    match split_on #":" id with
    | a :: b :: _ => match assoc a ext with Some uri => uri ++ $"#" ++ b | None => id end
    | _ => id
    end
  else if is_valid_internal_spdx_id id then ns ++ $"#" ++ id
  else id.

(** SPDX_NAMESPACE[f"{prefix}{snake_case_to_camel_case(name)}"] *)
Definition enum_uri (prefix name : pystr) : node := NUri (SPDX_NAMESPACE ++ prefix ++ snake_to_camel name).

Section Writer.
Variable O : oracles.
Variable lab : nat -> pystr.

(** BNode() *)
Definition w_fresh (k : node -> writer) : writer := fun n => k (NBlank (lab n)) (S n).

(** ** checksum_writer.py *)
(** checksum_writer.py:19-25  algorithm_to_rdf_string *)
Definition algorithm_to_rdf_string (a : checksum_alg) : node :=
  let name := checksum_alg_name a in
  NUri (SPDX_NAMESPACE ++ $"checksumAlgorithm_"
        ++ (if contains $"BLAKE2B" name then lower (replace $"_" $"" name) else lower name)).
(** checksum_writer.py:10-16  add_checksum_to_graph *)
Definition add_checksum_to_graph (c : checksum) (parent : node) : writer :=
  w_fresh (fun b => w_seq
    [w_add b RDF_type (NUri (spdx "Checksum"));
     w_add b (spdx "algorithm") (algorithm_to_rdf_string (ck_alg c));
     w_add b (spdx "checksumValue") (plain (ck_value c));
     w_add parent (spdx "checksum") b]).

(** ** license_expression_writer.py *)
(** license_expression_writer.py:70-72  license_or_exception_is_on_spdx_licensing_list *)
Definition on_spdx_list (key : pystr) : bool := negb (truthy_list (o_invalid_symbols O (LSym key))).
(** license_expression_writer.py:62-67: a LicenseSymbol *)
Definition license_symbol_node (key ns : pystr) : node :=
  if on_spdx_list key then NUri (LICENSE_NAMESPACE ++ key) else NUri (ns ++ $"#" ++ key).
(** license_expression_writer.py:75-84  add_license_exception_to_graph *)
Definition add_license_exception_to_graph (key : pystr) (parent : node) : writer :=
  if on_spdx_list key then
    let e := NUri (LICENSE_NAMESPACE ++ key) in
    w_seq [w_add parent (spdx "licenseException") e; w_add e RDF_type (NUri (spdx "LicenseException"))]
  else
    w_fresh (fun e => w_seq
      [w_add e (spdx "licenseExceptionId") (plain key);
       w_add parent (spdx "licenseException") e;
       w_add e RDF_type (NUri (spdx "LicenseException"))]).
(** license_expression_writer.py:37-67  add_license_expression_to_graph *)
Fixpoint add_license_expression_to_graph (e : lexpr) (parent : node) (p ns : pystr) : writer :=
  match e with
  | LAnd args =>
      w_fresh (fun m => w_seq
        [w_add m RDF_type (NUri (spdx "ConjunctiveLicenseSet"));
         w_add parent p m;
         w_all (fun a => add_license_expression_to_graph a m (spdx "member") ns) args])
  | LOr args =>
      w_fresh (fun m => w_seq
        [w_add m RDF_type (NUri (spdx "DisjunctiveLicenseSet"));
         w_add parent p m;
         w_all (fun a => add_license_expression_to_graph a m (spdx "member") ns) args])
  | LWith lic exc =>
      w_fresh (fun m => w_seq
        [w_add m RDF_type (NUri (spdx "WithExceptionOperator"));
         w_add parent p m;
         w_add m (spdx "member") (license_symbol_node lic ns);
         add_license_exception_to_graph exc m])
  | LSym key => w_add parent p (license_symbol_node key ns)
  end.
(** license_expression_writer.py:15-34  add_license_expression_or_none_or_no_assertion, for one value ... *)
Definition add_license (l : license) (parent : node) (p ns : pystr) : writer :=
  match l with
  | NNoAssertion => w_add parent p (NUri (spdx "noassertion"))
  | NNone => w_add parent p (NUri (spdx "none"))
  | NVal e => add_license_expression_to_graph e parent p ns
  end.
(** ... for None and for a list *)
Definition add_opt_license (l : option license) (parent : node) (p ns : pystr) : writer :=
  match l with None => w_nil | Some v => add_license v parent p ns end.
Definition add_licenses (l : list license) (parent : node) (p ns : pystr) : writer :=
  w_all (fun v => add_license v parent p ns) l.

(** ** external_document_ref_writer.py:11-21  add_external_document_ref_to_graph *)
Definition add_external_document_ref_to_graph (r : ext_doc_ref) (doc_node : node) (ns : pystr) : writer :=
  let s := NUri (ns ++ $"#" ++ edr_id r) in
  w_seq
    [w_add s RDF_type (NUri (spdx "ExternalDocumentRef"));
     w_add s (spdx "spdxDocument") (NUri (edr_uri r));
     add_checksum_to_graph (edr_checksum r) s;
     w_add doc_node (spdx "externalDocumentRef") s].

(** ** creation_info_writer.py:13-39  add_creation_info_to_graph *)
Definition doc_node_of (c : creation_info) : node := NUri (ci_namespace c ++ $"#" ++ ci_id c).
Definition add_creation_info_to_graph (c : creation_info) : writer :=
  let d := doc_node_of c in
  w_seq
    [w_add d RDF_type (NUri (spdx "SpdxDocument"));
     w_add d (spdx "specVersion") (plain (ci_version c));
     w_add d (spdx "dataLicense") (NUri (LICENSE_NAMESPACE ++ ci_data_license c));
     w_add d (spdx "name") (plain (ci_name c));
     add_optional_str (ci_doc_comment c) d RDFS_comment;
     w_fresh (fun b => w_seq
       [w_add b RDF_type (NUri (spdx "CreationInfo"));
        w_get (datetime_to_iso_string (ci_created c)) (fun s => w_add b (spdx "created") (plain s));
        w_all (fun a => w_add b (spdx "creator") (plain (actor_str a))) (ci_creators c);
        add_optional_literal version_str (ci_list_version c) b (spdx "licenseListVersion");
        add_optional_str (ci_creator_comment c) b RDFS_comment;
        w_add d (spdx "creationInfo") b]);
     w_all (fun r => add_external_document_ref_to_graph r d (ci_namespace c)) (ci_refs c)].

(** ** annotation_writer.py:14-35  add_annotation_to_graph *)
Definition add_annotation_to_graph (a : annotation) (ns : pystr) (ext : list (pystr * pystr)) : writer :=
  let s := NUri (add_namespace_to_spdx_id (an_id a) ns ext) in
  w_fresh (fun b => w_seq
    [w_add b RDF_type (NUri (spdx "Annotation"));
     w_add b (spdx "annotationType") (enum_uri $"annotationType_" (annotation_type_name (an_type a)));
     w_add b (spdx "annotator") (plain (actor_str (an_annotator a)));
     w_get (datetime_to_iso_string (an_date a)) (fun d => w_add b (spdx "annotationDate") (plain d));
     w_add b RDFS_comment (plain (an_comment a));
     w_add s (spdx "annotation") b]).

(** ** file_writer.py:15-45  add_file_to_graph *)
Definition add_file_to_graph (f : file) (ns : pystr) (ext : list (pystr * pystr)) : writer :=
  let s := NUri (add_namespace_to_spdx_id (fi_id f) ns ext) in
  w_seq
    [w_add s RDF_type (NUri (spdx "File"));
     w_add s (spdx "fileName") (plain (fi_name f));
     w_all (fun t => w_add s (spdx "fileType") (enum_uri $"fileType_" (file_type_name t))) (fi_types f);
     w_all (fun c => add_checksum_to_graph c s) (fi_checksums f);
     add_opt_license (fi_concluded f) s (spdx "licenseConcluded") ns;
     add_licenses (fi_info f) s (spdx "licenseInfoInFile") ns;
     add_optional_str (fi_lic_comment f) s (spdx "licenseComments");
     add_optional_literal (nn_text (fun x => x)) (fi_copyright f) s (spdx "copyrightText");
     add_optional_str (fi_comment f) s RDFS_comment;
     add_optional_str (fi_notice f) s (spdx "noticeText");
     w_all (fun x => w_add s (spdx "fileContributor") (plain x)) (fi_contributors f);
     w_all (fun x => w_add s (spdx "attributionText") (plain x)) (fi_attribution f)].

(** ** package_writer.py *)
(** package_writer.py:74-97  add_package_verification_code_to_graph *)
Definition add_package_verification_code_to_graph (v : option verif_code) (parent : node) : writer :=
  match v with
  | None => w_nil
  | Some v =>
      w_fresh (fun b => w_seq
        [w_add b RDF_type (NUri (spdx "PackageVerificationCode"));
         w_add b (spdx "packageVerificationCodeValue") (plain (vc_value v));
         w_all (fun x => w_add b (spdx "packageVerificationCodeExcludedFile") (plain x)) (vc_excluded v);
         w_add parent (spdx "packageVerificationCode") b])
  end.
(** package_writer.py:113-128: the node for the reference type *)
Definition reference_type_node (r : ext_pkg_ref) (ns : pystr) : node :=
  if str_in (er_type r) (category_types (er_category r)) then NUri (REFERENCE_NAMESPACE ++ er_type r)
  else NUri (ns ++ $"#" ++ er_type r).
(** package_writer.py:100-133  add_external_package_ref_to_graph *)
Definition add_external_package_ref_to_graph (r : ext_pkg_ref) (parent : node) (ns : pystr) : writer :=
  w_fresh (fun b => w_seq
    [w_add b RDF_type (NUri (spdx "ExternalRef"));
     w_add b (spdx "referenceCategory") (enum_uri $"referenceCategory_" (ref_category_name (er_category r)));
     w_add b (spdx "referenceType") (reference_type_node r ns);
     w_add b (spdx "referenceLocator") (plain (er_locator r));
     (if truthy_opt (er_comment r) then add_optional_str (er_comment r) b RDFS_comment else w_nil);
     w_add parent (spdx "externalRef") b]).
(** package_writer.py:21-71  add_package_to_graph *)
Definition add_package_to_graph (p : package) (ns : pystr) (ext : list (pystr * pystr)) : writer :=
  let s := NUri (add_namespace_to_spdx_id (pk_id p) ns ext) in
  w_seq
    [w_add s RDF_type (NUri (spdx "Package"));
     w_add s (spdx "name") (plain (pk_name p));
     add_optional_str (pk_version p) s (spdx "versionInfo");
     add_optional_str (pk_file_name p) s (spdx "packageFileName");
     add_optional_literal (na_text actor_str) (pk_supplier p) s (spdx "supplier");
     add_optional_literal (na_text actor_str) (pk_originator p) s (spdx "originator");
     add_literal_or_no_assertion_or_none (Some (pk_download p)) s (spdx "downloadLocation");
     w_add s (spdx "filesAnalyzed") (NLit (if pk_files_analyzed p then $"true" else $"false") (KTyped XSD_boolean));
     add_package_verification_code_to_graph (pk_verif p) s;
     w_all (fun c => add_checksum_to_graph c s) (pk_checksums p);
     add_optional_literal (nn_text (fun x => x)) (pk_homepage p) s DOAP_homepage;
     add_optional_str (pk_source_info p) s (spdx "sourceInfo");
     add_opt_license (pk_concluded p) s (spdx "licenseConcluded") ns;
     add_licenses (pk_info p) s (spdx "licenseInfoFromFiles") ns;
     add_opt_license (pk_declared p) s (spdx "licenseDeclared") ns;
     add_optional_str (pk_lic_comment p) s (spdx "licenseComments");
     add_optional_literal (nn_text (fun x => x)) (pk_copyright p) s (spdx "copyrightText");
     add_optional_str (pk_summary p) s (spdx "summary");
     add_optional_str (pk_description p) s (spdx "description");
     add_optional_str (pk_comment p) s RDFS_comment;
     w_all (fun r => add_external_package_ref_to_graph r s ns) (pk_refs p);
     w_all (fun x => w_add s (spdx "attributionText") (plain x)) (pk_attribution p);
     match pk_purpose p with
     | Some u => w_add s (spdx "primaryPackagePurpose") (enum_uri $"purpose_" (purpose_name u))
     | None => w_nil
     end;
     add_datetime_to_graph (pk_release p) s (spdx "releaseDate");
     add_datetime_to_graph (pk_built p) s (spdx "builtDate");
     add_datetime_to_graph (pk_valid_until p) s (spdx "validUntilDate")].

(** ** relationship_writer.py:13-46  add_relationship_to_graph *)
Definition add_relationship_to_graph (r : relationship) (ns : pystr) (ext : list (pystr * pystr)) : writer :=
  w_fresh (fun b => w_seq
    [w_add b RDF_type (NUri (spdx "Relationship"));
     w_add b (spdx "relationshipType") (enum_uri $"relationshipType_" (rel_type_name (re_type r)));
     w_add b (spdx "relatedSpdxElement")
       match re_related r with
       | NNone => NUri (spdx "none")
       | NNoAssertion => NUri (spdx "noassertion")
       | NVal id => NUri (add_namespace_to_spdx_id id ns ext)
       end;
     (if truthy_opt (re_comment r) then add_optional_str (re_comment r) b RDFS_comment else w_nil);
     w_add (NUri (add_namespace_to_spdx_id (re_id r) ns ext)) (spdx "relationship") b]).

(** ** snippet_writer.py *)
(** Literal(n) for an int *)
Definition int_node (z : Z) : node := NLit (str_of_Z z) (KTyped XSD_integer).
(** snippet_writer.py:52-63: one turn of the loop; [bytes] says which pointer class is written *)
Definition add_pointer (bytes : bool) (p : pystr) (z : Z) (range file_ref : node) : writer :=
  w_fresh (fun b => w_seq
    [w_add b RDF_type (NUri (if bytes then ptr "ByteOffsetPointer" else ptr "LineCharPointer"));
     w_add range p b;
     w_add b (ptr "reference") file_ref;
     w_add b (if bytes then ptr "offset" else ptr "lineNumber") (int_node z)]).
(** snippet_writer.py:43-65  add_range_to_graph; None[0] raises TypeError *)
Definition add_range_to_graph (r : option (Z * Z)) (s file_ref : node) (bytes : bool) : writer :=
  w_fresh (fun b => w_seq
    [w_add b RDF_type (NUri (ptr "StartEndPointer"));
     w_get (match r with Some x => Ok x | None => Raise (EType $"'NoneType' object is not subscriptable") end)
       (fun x => w_seq
         [add_pointer bytes (ptr "startPointer") (fst x) b file_ref;
          add_pointer bytes (ptr "endPointer") (snd x) b file_ref]);
     w_add s (spdx "range") b]).
(** snippet_writer.py:13-40  add_snippet_to_graph *)
Definition add_snippet_to_graph (x : snippet) (ns : pystr) (ext : list (pystr * pystr)) : writer :=
  let s := NUri (add_namespace_to_spdx_id (sn_id x) ns ext) in
  let f := NUri (add_namespace_to_spdx_id (sn_file x) ns ext) in
  w_seq
    [w_add s RDF_type (NUri (spdx "Snippet"));
     w_add s (spdx "snippetFromFile") f;
     add_range_to_graph (Some (sn_bytes x)) s f true;
     add_range_to_graph (sn_lines x) s f false;
     add_opt_license (sn_concluded x) s (spdx "licenseConcluded") ns;
     add_licenses (sn_info x) s (spdx "licenseInfoInSnippet") ns;
     add_optional_str (sn_lic_comment x) s (spdx "licenseComments");
     add_optional_literal (nn_text (fun x => x)) (sn_copyright x) s (spdx "copyrightText");
     add_optional_str (sn_comment x) s RDFS_comment;
     add_optional_str (sn_name x) s (spdx "name");
     w_all (fun t => w_add s (spdx "attributionText") (plain t)) (sn_attribution x)].

(** ** extracted_licensing_info_writer.py:11-32  add_extracted_licensing_info_to_graph *)
Definition add_extracted_licensing_info_to_graph (e : extracted) (doc_node : node) (ns : pystr) : writer :=
  let rest s := w_seq
    [add_optional_str (el_id e) s (spdx "licenseId");
     add_optional_str (el_text e) s (spdx "extractedText");
     add_literal_or_no_assertion (el_name e) s (spdx "name");
     w_all (fun x => w_add s RDFS_seeAlso (plain x)) (el_xrefs e);
     add_optional_str (el_comment e) s RDFS_comment;
     w_add doc_node (spdx "hasExtractedLicensingInfo") s] in
  match el_id e with
  | Some ((_ :: _) as id) =>
      let s := NUri (ns ++ $"#" ++ id) in
      w_seq [w_add s RDF_type (NUri (spdx "ExtractedLicensingInfo")); rest s]
  | _ => w_fresh rest
  end.

(** ** rdf_writer.py:24-47: the triples added for a document, after validate_and_deduplicate *)
(** rdf_writer.py:26-29 *)
Definition external_doc_ref_to_namespace (refs : list ext_doc_ref) : list (pystr * pystr) :=
  fold_left (fun m r => dict_set (edr_id r) (edr_uri r) m) refs [].
Definition add_document_to_graph (d : document) : writer :=
  let ns := ci_namespace (do_ci d) in
  let ext := external_doc_ref_to_namespace (ci_refs (do_ci d)) in
  w_seq
    [add_creation_info_to_graph (do_ci d);
     w_all (fun a => add_annotation_to_graph a ns ext) (do_annotations d);
     w_all (fun f => add_file_to_graph f ns ext) (do_files d);
     w_all (fun p => add_package_to_graph p ns ext) (do_packages d);
     w_all (fun r => add_relationship_to_graph r ns ext) (do_relationships d);
     w_all (fun s => add_snippet_to_graph s ns ext) (do_snippets d);
     w_all (fun e => add_extracted_licensing_info_to_graph e (doc_node_of (do_ci d)) ns) (do_extracted d)].
(** the graph handed to rdflib's serialiser *)
Definition write_graph (d : document) : result (list triple) :=
  do (ts, _) <- add_document_to_graph d 0; Ok (fold_left add_triple ts []).
End Writer.
