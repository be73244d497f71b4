(** Specifications for the JSON form of documents. *)
From Verif Require Import Py Data Oracles Basics Json BasicsSpec.
From Verif Require Construct.
From Coq Require Export Permutation.

(** ** Which documents survive the JSON form *)

(** a timestamp in whole seconds without time zone *)
Definition PlainDate (d : datetime) : Prop := ValidDatetime d /\ dt_us d = 0%Z /\ dt_off d = None.
(** a text that is not one of the two reserved words *)
Definition PlainText (x : nn pystr) : Prop :=
  match x with NVal s => s <> $"NONE" /\ s <> $"NOASSERTION" | _ => True end.
Definition PlainName (x : na pystr) : Prop := match x with AVal s => s <> $"NOASSERTION" | _ => True end.
(** a license whose text the license library reads back as the same license; the text is neither blank nor, up to
    upper case, one of the reserved words *)
Definition LicenseReads (O : oracles) (l : license) : Prop :=
  match l with
  | NVal e => o_lic_parse O (o_lic_str O e) = Ok e
              /\ (exists c, In c (o_lic_str O e) /\ is_space c = false)
              /\ upper (o_lic_str O e) <> $"NONE" /\ upper (o_lic_str O e) <> $"NOASSERTION"
  | _ => True
  end.
Definition ReadableNA (x : na actor) : Prop := match x with AVal a => ReadableActor a | _ => True end.
(** the value, if there is one, satisfies P *)
Definition IfSome {A} (P : A -> Prop) (o : option A) : Prop := match o with Some x => P x | None => True end.

Record JsonPackage (O : oracles) (p : package) : Prop := {
  jp_download : PlainText (pk_download p);
  jp_homepage : IfSome PlainText (pk_homepage p);
  jp_copyright : IfSome PlainText (pk_copyright p);
  jp_supplier : IfSome ReadableNA (pk_supplier p);
  jp_originator : IfSome ReadableNA (pk_originator p);
  jp_concluded : IfSome (LicenseReads O) (pk_concluded p);
  jp_declared : IfSome (LicenseReads O) (pk_declared p);
  jp_info : Forall (LicenseReads O) (pk_info p);
  jp_release : IfSome PlainDate (pk_release p);
  jp_built : IfSome PlainDate (pk_built p);
  jp_valid : IfSome PlainDate (pk_valid_until p) }.
Record JsonFile (O : oracles) (f : file) : Prop := {
  jf_checksums : fi_checksums f <> [];
  jf_copyright : IfSome PlainText (fi_copyright f);
  jf_concluded : IfSome (LicenseReads O) (fi_concluded f);
  jf_info : Forall (LicenseReads O) (fi_info f) }.
Record JsonSnippet (O : oracles) (s : snippet) : Prop := {
  js_copyright : IfSome PlainText (sn_copyright s);
  js_concluded : IfSome (LicenseReads O) (sn_concluded s);
  js_info : Forall (LicenseReads O) (sn_info s) }.
Record JsonAnnotation (a : annotation) : Prop := {
  ja_annotator : ReadableActor (an_annotator a);
  ja_date : PlainDate (an_date a) }.
Record JsonCreationInfo (c : creation_info) : Prop := {
  jc_some : ci_creators c <> [];
  jc_creators : Forall ReadableActor (ci_creators c);
  jc_created : PlainDate (ci_created c) }.
(** the ids of the packages, files and snippets of a document *)
Definition element_ids (d : document) : list pystr :=
  map pk_id (do_packages d) ++ map fi_id (do_files d) ++ map sn_id (do_snippets d).
Record JsonDocument (O : oracles) (d : document) : Prop := {
  jd_ci : JsonCreationInfo (do_ci d);
  jd_packages : Forall (JsonPackage O) (do_packages d);
  jd_files : Forall (JsonFile O) (do_files d);
  jd_snippets : Forall (JsonSnippet O) (do_snippets d);
  jd_relationships : Forall (fun r => PlainText (re_related r)) (do_relationships d);
  jd_extracted : Forall (fun e => IfSome PlainName (el_name e)) (do_extracted d);
  jd_annotations : Forall JsonAnnotation (do_annotations d);
  (** every annotation belongs to the document or to one of its elements, and no two elements share an id *)
  jd_targets : Forall (fun a => an_id a = ci_id (do_ci d) \/ In (an_id a) (element_ids d)) (do_annotations d);
  jd_distinct : NoDup (element_ids d) }.

(** the same document with other annotations *)
Definition with_annotations (d : document) (l : list annotation) : document :=
  {| do_ci := do_ci d; do_packages := do_packages d; do_files := do_files d; do_snippets := do_snippets d;
     do_annotations := l; do_relationships := do_relationships d; do_extracted := do_extracted d |}.
(** l and m have the same annotations; those of one and the same element are in the same order *)
Definition SameAnnotations (l m : list annotation) : Prop :=
  Permutation l m
  /\ forall id, filter (fun a => str_eqb (an_id a) id) l = filter (fun a => str_eqb (an_id a) id) m.

(** ** Shape of the JSON form *)
(** v occurs in j, at any depth *)
Inductive Within (v : json) : json -> Prop :=
| W_here : Within v v
| W_item : forall l x, In x l -> Within v x -> Within v (JArr l)
| W_member : forall kvs k x, In (k, x) kvs -> Within v x -> Within v (JObj kvs).
(** no null and no repeated key, at any depth *)
Definition Clean (j : json) : Prop :=
  forall v, Within v j -> v <> JNull /\ forall kvs, v = JObj kvs -> NoDup (map fst kvs).

(** the keys of the entries that are present *)
Definition keys (l : list (pystr * bool)) : list pystr := map fst (filter snd l).
Definition given {A} (o : option A) : bool := match o with Some _ => true | None => false end.
Definition some_items {A} (l : list A) : bool := match l with [] => false | _ => true end.
Definition annotated (id : pystr) (d : document) : bool := existsb (fun a => str_eqb (an_id a) id) (do_annotations d).

Definition package_keys (p : package) (d : document) : list pystr := keys
  [ ($"SPDXID", true); ($"annotations", annotated (pk_id p) d); ($"attributionTexts", some_items (pk_attribution p));
    ($"builtDate", given (pk_built p)); ($"checksums", some_items (pk_checksums p)); ($"comment", given (pk_comment p));
    ($"copyrightText", given (pk_copyright p)); ($"description", given (pk_description p)); ($"downloadLocation", true);
    ($"externalRefs", some_items (pk_refs p)); ($"filesAnalyzed", true); ($"homepage", given (pk_homepage p));
    ($"licenseComments", given (pk_lic_comment p)); ($"licenseConcluded", given (pk_concluded p));
    ($"licenseDeclared", given (pk_declared p)); ($"licenseInfoFromFiles", some_items (pk_info p)); ($"name", true);
    ($"originator", given (pk_originator p)); ($"packageFileName", given (pk_file_name p));
    ($"packageVerificationCode", given (pk_verif p)); ($"primaryPackagePurpose", given (pk_purpose p));
    ($"releaseDate", given (pk_release p)); ($"sourceInfo", given (pk_source_info p)); ($"summary", given (pk_summary p));
    ($"supplier", given (pk_supplier p)); ($"validUntilDate", given (pk_valid_until p));
    ($"versionInfo", given (pk_version p)) ].
Definition file_keys (f : file) (d : document) : list pystr := keys
  [ ($"SPDXID", true); ($"annotations", annotated (fi_id f) d); ($"attributionTexts", some_items (fi_attribution f));
    ($"checksums", some_items (fi_checksums f)); ($"comment", given (fi_comment f));
    ($"copyrightText", given (fi_copyright f)); ($"fileContributors", some_items (fi_contributors f));
    ($"fileName", true); ($"fileTypes", some_items (fi_types f)); ($"licenseComments", given (fi_lic_comment f));
    ($"licenseConcluded", given (fi_concluded f)); ($"licenseInfoInFiles", some_items (fi_info f));
    ($"noticeText", given (fi_notice f)) ].
Definition snippet_keys (s : snippet) (d : document) : list pystr := keys
  [ ($"SPDXID", true); ($"annotations", annotated (sn_id s) d); ($"attributionTexts", some_items (sn_attribution s));
    ($"comment", given (sn_comment s)); ($"copyrightText", given (sn_copyright s));
    ($"licenseComments", given (sn_lic_comment s)); ($"licenseConcluded", given (sn_concluded s));
    ($"licenseInfoInSnippets", some_items (sn_info s)); ($"name", given (sn_name s)); ($"ranges", true);
    ($"snippetFromFile", true) ].
Definition document_keys (d : document) : list pystr := keys
  [ ($"SPDXID", true);
    ($"annotations", existsb (fun a => negb (str_in (an_id a) (element_ids d))) (do_annotations d));
    ($"comment", given (ci_doc_comment (do_ci d))); ($"creationInfo", true); ($"dataLicense", true);
    ($"externalDocumentRefs", some_items (ci_refs (do_ci d)));
    ($"hasExtractedLicensingInfos", some_items (do_extracted d)); ($"name", true); ($"spdxVersion", true);
    ($"documentNamespace", true); ($"packages", some_items (do_packages d)); ($"files", some_items (do_files d));
    ($"snippets", some_items (do_snippets d)); ($"relationships", some_items (do_relationships d)) ].
Definition creation_info_keys (c : creation_info) : list pystr := keys
  [ ($"created", true); ($"creators", some_items (ci_creators c)); ($"licenseListVersion", given (ci_list_version c));
    ($"comment", given (ci_creator_comment c)) ].
Definition relationship_keys (r : relationship) : list pystr := keys
  [ ($"spdxElementId", true); ($"comment", given (re_comment r)); ($"relatedSpdxElement", true);
    ($"relationshipType", true) ].
Definition extracted_keys (e : extracted) : list pystr := keys
  [ ($"comment", given (el_comment e)); ($"extractedText", given (el_text e)); ($"licenseId", given (el_id e));
    ($"name", given (el_name e)); ($"seeAlsos", some_items (el_xrefs e)) ].

(** ** Where annotations are placed *)
(** the JSON form of an annotation *)
Definition AnnotationForm (a : annotation) (j : json) : Prop :=
  exists date, datetime_to_iso_string (an_date a) = Ok date
    /\ j = JObj [($"annotationDate", JStr date); ($"annotationType", JStr (annotation_type_name (an_type a)));
                 ($"annotator", JStr (actor_str (an_annotator a))); ($"comment", JStr (an_comment a))].
(** the object has exactly the annotations l, in this order *)
Definition HasAnnotations (l : list annotation) (j : json) : Prop :=
  exists kvs, j = JObj kvs
    /\ match l with
       | [] => assoc $"annotations" kvs = None
       | _ => exists js, assoc $"annotations" kvs = Some (JArr js) /\ Forall2 AnnotationForm l js
       end.
(** the member k is the array of the forms of the elements l; it is absent if there are none *)
Definition HasArray {A} (k : pystr) (P : A -> json -> Prop) (l : list A) (j : json) : Prop :=
  exists kvs, j = JObj kvs
    /\ match l with
       | [] => assoc k kvs = None
       | _ => exists js, assoc k kvs = Some (JArr js) /\ Forall2 P l js
       end.
Definition about (id : pystr) (l : list annotation) : list annotation := filter (fun a => str_eqb (an_id a) id) l.
Definition about_none_of (ids : list pystr) (l : list annotation) : list annotation :=
  filter (fun a => negb (str_in (an_id a) ids)) l.

(** ** Implicit relationships *)
(** the list without repetitions; the first occurrence of each item stays *)
Fixpoint firsts (seen : list pystr) (l : list pystr) : list pystr :=
  match l with
  | [] => []
  | x :: l' => if str_in x seen then firsts seen l' else x :: firsts (x :: seen) l'
  end.
(** r says that o has the relationship t to x, with or without comment *)
Definition says (o : pystr) (t : rel_type) (x : pystr) (r : relationship) : bool :=
  str_eqb (re_id r) o && rel_type_eqb (re_type r) t && match re_related r with NVal y => str_eqb y x | _ => false end.
(** l states that o has the relationship t to x, directly or by the inverse relationship t' *)
Definition states (l : list relationship) (o : pystr) (t t' : rel_type) (x : pystr) : bool :=
  existsb (fun r => says o t x r || says x t' o r) l.
Definition simple (o : pystr) (t : rel_type) (x : pystr) : relationship :=
  {| re_id := o; re_type := t; re_related := NVal x; re_comment := None |}.
(** the relationships from o to the items of xs that l does not state yet *)
Definition missing (l : list relationship) (o : pystr) (t t' : rel_type) (xs : list pystr) : list relationship :=
  map (simple o t) (filter (fun x => negb (states l o t t' x)) (firsts [] xs)).
(** the member k of an object is absent or the array l *)
Definition ArrayAt (k : pystr) (kvs : list (pystr * json)) (l : list json) : Prop :=
  match assoc k kvs with Some v => v = JArr l | None => l = [] end.
(** a package entry with this id and these hasFiles *)
Definition PackageEntry (p : pystr * list pystr) (j : json) : Prop :=
  exists kvs, j = JObj kvs /\ assoc $"SPDXID" kvs = Some (JStr (fst p)) /\ ArrayAt $"hasFiles" kvs (map JStr (snd p)).

(** ** Errors *)
(** the messages an attempt to parse something leaves behind; SPDXParsingError, ConstructorTypeErrors, TypeError and
    ValueError are turned into messages *)
Definition complaints {A} (o : list pystr * result A) : list pystr :=
  fst o ++ match snd o with
           | Raise (EParsing ms) => ms
           | Raise (EConstructor ms) => [Construct.show_list ms]
           | Raise (EType m) => [m]
           | Raise (EValue m) => [m]
           | _ => []
           end.

(** ** Snippet ranges *)
Definition kind_key (k : bool) : pystr := if k then $"offset" else $"lineNumber".
(** a pointer object that carries a value under exactly one of the two keys *)
Definition IsPointer (k : bool) (j v : json) : Prop :=
  exists kvs, j = JObj kvs /\ assoc (kind_key k) kvs = Some v /\ assoc (kind_key (negb k)) kvs = None.
(** a range object whose two pointers are of the same kind; true for bytes, false for lines *)
Definition IsRange (j : json) (r : bool * (json * json)) : Prop :=
  exists kvs sp ep, j = JObj kvs /\ assoc $"startPointer" kvs = Some sp /\ assoc $"endPointer" kvs = Some ep
    /\ IsPointer (fst r) sp (fst (snd r)) /\ IsPointer (fst r) ep (snd (snd r)).
(** the last range of a kind *)
Fixpoint last_of (k : bool) (l : list (bool * (json * json))) : option (json * json) :=
  match l with
  | [] => None
  | (k', r) :: l' => match last_of k l' with Some x => Some x | None => if Bool.eqb k k' then Some r else None end
  end.
(** nothing but objects where objects are expected *)
Definition ObjectRange (j : json) : Prop :=
  exists kvs, j = JObj kvs
    /\ forall k v, In k [$"startPointer"; $"endPointer"] -> assoc k kvs = Some v -> exists kvs', v = JObj kvs'.
(** the entries of the array stored under k; a missing or empty value has none *)
Definition EntriesAt (k : pystr) (kvs : list (pystr * json)) (l : list json) : Prop :=
  match assoc k kvs with
  | None => l = []
  | Some (JArr l') => l = l'
  | Some v => jtruthy v = false /\ l = []
  end.
(** parsing the entry j succeeds with x and leaves no message *)
Definition Parses {A} (parse : json -> list pystr * result A) (j : json) (x : A) : Prop := parse j = ([], Ok x).
(** a parser that reports by its outcome only *)
Definition silent {A} (parse : json -> result A) (j : json) : list pystr * result A := ([], parse j).

(** the names of the checksum algorithms in the JSON schema of the specification *)
Definition algorithm_json_name (a : checksum_alg) : pystr :=
  match a with
  | CA_SHA1 => $"SHA1" | CA_SHA224 => $"SHA224" | CA_SHA256 => $"SHA256" | CA_SHA384 => $"SHA384" | CA_SHA512 => $"SHA512"
  | CA_SHA3_256 => $"SHA3-256" | CA_SHA3_384 => $"SHA3-384" | CA_SHA3_512 => $"SHA3-512"
  | CA_BLAKE2B_256 => $"BLAKE2b-256" | CA_BLAKE2B_384 => $"BLAKE2b-384" | CA_BLAKE2B_512 => $"BLAKE2b-512" | CA_BLAKE3 => $"BLAKE3"
  | CA_MD2 => $"MD2" | CA_MD4 => $"MD4" | CA_MD5 => $"MD5" | CA_MD6 => $"MD6" | CA_ADLER32 => $"ADLER32"
  end.
