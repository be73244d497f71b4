(** What an RDF graph says, property by property. *)
From Verif Require Import Py Data Oracles Basics Rdf.

(** ** Vocabulary *)
Definition term (name : string) : pystr := $"http://spdx.org/rdf/terms#" ++ lit name.
Definition pointer (name : string) : pystr := $"http://www.w3.org/2009/pointers#" ++ lit name.
Definition is_a : pystr := $"http://www.w3.org/1999/02/22-rdf-syntax-ns#type".
Definition says_comment : pystr := $"http://www.w3.org/2000/01/rdf-schema#comment".
Definition see_also : pystr := $"http://www.w3.org/2000/01/rdf-schema#seeAlso".
Definition has_homepage : pystr := $"http://usefulinc.com/ns/doap#homepage".
Definition license_list : pystr := $"http://spdx.org/licenses/".
Definition reference_list : pystr := $"http://spdx.org/rdf/references/".

(** ** Questions to a graph, answered in the order of its triples *)
(** the objects of a property of a node *)
Inductive Objects (s : node) (p : pystr) : list triple -> list node -> Prop :=
| Objects_nil : Objects s p [] []
| Objects_this o G l : Objects s p G l -> Objects s p ((s, p, o) :: G) (o :: l)
| Objects_other t G l : fst t <> (s, p) -> Objects s p G l -> Objects s p (t :: G) l.
(** the nodes that have this object as value of a property *)
Inductive Subjects (p : pystr) (o : node) : list triple -> list node -> Prop :=
| Subjects_nil : Subjects p o [] []
| Subjects_this s G l : Subjects p o G l -> Subjects p o ((s, p, o) :: G) (s :: l)
| Subjects_other t G l : (snd (fst t), snd t) <> (p, o) -> Subjects p o G l -> Subjects p o (t :: G) l.
(** subject and object wherever a property is used *)
Inductive Links (p : pystr) : list triple -> list (node * node) -> Prop :=
| Links_nil : Links p [] []
| Links_this s o G l : Links p G l -> Links p ((s, p, o) :: G) ((s, o) :: l)
| Links_other t G l : snd (fst t) <> p -> Links p G l -> Links p (t :: G) l.

Definition Begins (t s : pystr) : Prop := exists u, s = t ++ u.

Section Reading.
Variable O : oracles.
Variable L : rdf_library.

(** values that are not false for Python *)
Definition Truthy (n : node) : Prop := node_truthy L n = true.
(** the text of a node, without white space at its ends *)
Definition TextIs (n : node) (s : pystr) : Prop := s = strip (node_str n).
(** the reserved values, as URI or as text *)
Definition NoAssertion (n : node) : Prop := n = NUri (term "noassertion") \/ py_is L n $"NOASSERTION" = true.
Definition Nothing (n : node) : Prop := n = NUri (term "none") \/ py_is L n $"NONE" = true.
Definition Word {A} (R : node -> A -> Prop) (n : node) (x : nn A) : Prop :=
  match x with
  | NNoAssertion => NoAssertion n
  | NNone => Nothing n
  | NVal a => ~ NoAssertion n /\ ~ Nothing n /\ R n a
  end.
(** the same where NONE is not admitted *)
Definition WordNA {A} (R : node -> A -> Prop) (n : node) (x : na A) : Prop :=
  match x with ANoAssertion => NoAssertion n | AVal a => ~ NoAssertion n /\ ~ Nothing n /\ R n a end.
(** a text, possibly with a prefix that does not count *)
Definition Unprefixed (prefix : pystr) (n : node) (s : pystr) : Prop :=
  node_str n = prefix ++ s \/ (node_str n = s /\ ~ Begins prefix s).
(** a member of an enumeration, in camel case *)
Definition Member {A} (name : A -> pystr) (prefix : string) (n : node) (a : A) : Prop :=
  exists s, Unprefixed (term prefix) n s /\ upper (camel_to_snake s) = name a.
(** a checksum algorithm: in any case, and without an underscore after BLAKE2B *)
Definition Algorithm (n : node) (a : checksum_alg) : Prop :=
  exists s, Unprefixed (term "checksumAlgorithm_") n s /\ replace $"BLAKE2B" $"BLAKE2B_" (upper s) = checksum_alg_name a.
Definition SaysDate (n : node) (d : datetime) : Prop := datetime_from_str (node_str n) = Ok d.
Definition SaysActor (n : node) (a : actor) : Prop := parse_actor (node_str n) = Ok a.
Definition SaysVersion (n : node) (v : version) : Prop := version_from_string (node_str n) = Ok v.
Definition Plain (n : node) (s : pystr) : Prop := py_text L n = Some s.

(** The id that a node stands for: what follows the namespace and '#', otherwise the URI shortened with the bound
    prefixes, otherwise the text. *)
Inductive Identifies (bound : list (pystr * pystr)) (ns : pystr) : node -> pystr -> Prop :=
| Id_own u x : Begins (ns ++ $"#") u -> r_fragment L u = Ok x -> Identifies bound ns (NUri u) x
| Id_shortened n : (forall b, n <> NBlank b) -> Truthy n -> ~ Begins (ns ++ $"#") (node_str n) -> In #"#" (node_str n) ->
    Identifies bound ns n (r_normalize L bound (node_str n))
| Id_text n x : (forall b, n <> NBlank b) -> Truthy n -> ~ In #"#" (node_str n) -> Plain n x -> x <> [] ->
    Identifies bound ns n x.

Section Graph.
Variable G : list triple.

(** no object, or one *)
Definition Single (s : node) (p : pystr) (o : option node) : Prop :=
  Objects s p G (match o with Some n => [n] | None => [] end).
(** a property with at most one value; a value that is false counts as missing *)
Definition MaybeAt {A} (R : node -> A -> Prop) (s : node) (p : pystr) (o : option A) : Prop :=
  exists v, Single s p v
    /\ match o with
       | Some a => exists n, v = Some n /\ Truthy n /\ R n a
       | None => forall n, v = Some n -> ~ Truthy n
       end.
(** a property with exactly one value *)
Definition At {A} (R : node -> A -> Prop) (s : node) (p : pystr) (a : A) : Prop := MaybeAt R s p (Some a).
(** a property with any number of values *)
Definition EachAt {A} (R : node -> A -> Prop) (s : node) (p : pystr) (l : list A) : Prop :=
  exists ns, Objects s p G ns /\ Forall2 R ns l.
(** the first value of a property *)
Definition First (s : node) (p : pystr) (o : option node) : Prop := exists l, Objects s p G l /\ o = hd_error l.

(** ** Licenses *)
(** what the license library reads: nothing from blanks *)
Definition Licensing (s : pystr) (e : option lexpr) : Prop :=
  match e with None => strip s = [] | Some x => strip s <> [] /\ o_lic_parse O s = Ok x end.
Definition shown (e : option lexpr) : pystr := match e with Some x => o_lic_str O x | None => $"None" end.
(** an exception of the SPDX list, or one with an id of its own *)
Definition ExceptionId (n : node) (x : pystr) : Prop :=
  node_str n = license_list ++ x
  \/ (~ Begins license_list (node_str n)
      /\ exists m, First n (term "licenseExceptionId") (Some m) /\ x = py_str L m).
(** the license expression that a node stands for; the number bounds the depth of nesting *)
Inductive Expresses (ns : pystr) : nat -> node -> option lexpr -> Prop :=
| Ex_listed k n s e : node_str n = license_list ++ s -> Licensing s e -> Expresses ns (S k) n e
| Ex_own k u s e : ~ Begins license_list u -> Begins ns u -> r_fragment L u = Ok s -> Licensing s e ->
    Expresses ns (S k) (NUri u) e
| Ex_and k n ms es e : ~ Begins license_list (node_str n) -> ~ Begins ns (node_str n) ->
    First n is_a (Some (NUri (term "ConjunctiveLicenseSet"))) ->
    Objects n (term "member") G ms -> Forall2 (Expresses ns k) ms es ->
    Licensing (join $" AND " (map shown es)) e -> Expresses ns (S k) n e
| Ex_or k n ms es e : ~ Begins license_list (node_str n) -> ~ Begins ns (node_str n) ->
    First n is_a (Some (NUri (term "DisjunctiveLicenseSet"))) ->
    Objects n (term "member") G ms -> Forall2 (Expresses ns k) ms es ->
    Licensing (join $" OR " (map shown es)) e -> Expresses ns (S k) n e
| Ex_with k n m x l s e : ~ Begins license_list (node_str n) -> ~ Begins ns (node_str n) ->
    First n is_a (Some (NUri (term "WithExceptionOperator"))) ->
    First n (term "member") (Some m) -> Expresses ns k m l ->
    First n (term "licenseException") (Some x) -> ExceptionId x s ->
    Licensing (shown l ++ $" WITH " ++ s) e -> Expresses ns (S k) n e
| Ex_other k n ty : ~ Begins license_list (node_str n) -> ~ Begins ns (node_str n) -> First n is_a ty ->
    ty <> Some (NUri (term "ConjunctiveLicenseSet")) -> ty <> Some (NUri (term "DisjunctiveLicenseSet")) ->
    ty <> Some (NUri (term "WithExceptionOperator")) -> Expresses ns (S k) n None.
Definition SaysLicense (ns : pystr) (n : node) (l : license) : Prop :=
  Truthy n /\ Word (fun n e => Expresses ns (r_depth L) n (Some e)) n l.
(** no license, or one *)
Definition LicenseAt (ns : pystr) (s : node) (p : pystr) (o : option license) : Prop :=
  exists v, Single s p v
    /\ match o with
       | Some l => exists n, v = Some n /\ SaysLicense ns n l
       | None => forall n, v = Some n -> ~ Truthy n \/ (~ NoAssertion n /\ ~ Nothing n /\ Expresses ns (r_depth L) n None)
       end.

(** ** Parts of elements *)
Record ChecksumIn (n : node) (c : checksum) : Prop := {
  gk_algorithm : At Algorithm n (term "algorithm") (ck_alg c);
  gk_value : At TextIs n (term "checksumValue") (ck_value c) }.
Record CodeIn (n : node) (v : verif_code) : Prop := {
  gv_value : At TextIs n (term "packageVerificationCodeValue") (vc_value v);
  gv_excluded : EachAt Plain n (term "packageVerificationCodeExcludedFile") (vc_excluded v) }.
(** a type of the document, one of the SPDX list, or any text *)
Inductive RefType (ns : pystr) : node -> pystr -> Prop :=
| Ref_own u x : Begins ns u -> r_fragment L u = Ok x -> RefType ns (NUri u) x
| Ref_listed n : ~ Begins ns (node_str n) -> Begins reference_list (node_str n) ->
    RefType ns n (replace reference_list [] (node_str n))
| Ref_text n x : ~ Begins ns (node_str n) -> ~ Begins reference_list (node_str n) -> Plain n x -> RefType ns n x.
Record RefIn (ns : pystr) (n : node) (r : ext_pkg_ref) : Prop := {
  gr_locator : At TextIs n (term "referenceLocator") (er_locator r);
  gr_category : At (Member ref_category_name "referenceCategory_") n (term "referenceCategory") (er_category r);
  gr_type : At (RefType ns) n (term "referenceType") (er_type r);
  gr_comment : MaybeAt TextIs n says_comment (er_comment r) }.

(** ** Elements *)
Section Elements.
Variable bound : list (pystr * pystr).
Variable ns : pystr.
Record PackageIn (s : node) (p : package) : Prop := {
  gp_id : Identifies bound ns s (pk_id p);
  gp_name : At TextIs s (term "name") (pk_name p);
  gp_download : At (Word TextIs) s (term "downloadLocation") (pk_download p);
  gp_version : MaybeAt TextIs s (term "versionInfo") (pk_version p);
  gp_file_name : MaybeAt TextIs s (term "packageFileName") (pk_file_name p);
  gp_supplier : MaybeAt (WordNA SaysActor) s (term "supplier") (pk_supplier p);
  gp_originator : MaybeAt (WordNA SaysActor) s (term "originator") (pk_originator p);
  (** true if not stated *)
  gp_analyzed : exists o, First s (term "filesAnalyzed") o
    /\ pk_files_analyzed p = match o with Some n => node_truthy L n | None => true end;
  gp_verif : MaybeAt CodeIn s (term "packageVerificationCode") (pk_verif p);
  gp_checksums : EachAt ChecksumIn s (term "checksum") (pk_checksums p);
  (** a text, even if it is a reserved word *)
  gp_homepage : match pk_homepage p with
                | Some (NVal h) => At TextIs s has_homepage h
                | Some _ => False
                | None => MaybeAt TextIs s has_homepage None
                end;
  gp_source_info : MaybeAt TextIs s (term "sourceInfo") (pk_source_info p);
  gp_concluded : LicenseAt ns s (term "licenseConcluded") (pk_concluded p);
  gp_info : EachAt (SaysLicense ns) s (term "licenseInfoFromFiles") (pk_info p);
  gp_declared : LicenseAt ns s (term "licenseDeclared") (pk_declared p);
  gp_lic_comment : MaybeAt TextIs s (term "licenseComments") (pk_lic_comment p);
  gp_copyright : MaybeAt (Word TextIs) s (term "copyrightText") (pk_copyright p);
  gp_summary : MaybeAt TextIs s (term "summary") (pk_summary p);
  gp_description : MaybeAt TextIs s (term "description") (pk_description p);
  gp_comment : MaybeAt TextIs s says_comment (pk_comment p);
  gp_refs : EachAt (RefIn ns) s (term "externalRef") (pk_refs p);
  gp_attribution : EachAt Plain s (term "attributionText") (pk_attribution p);
  gp_purpose : MaybeAt (Member purpose_name "purpose_") s (term "primaryPackagePurpose") (pk_purpose p);
  gp_release : MaybeAt SaysDate s (term "releaseDate") (pk_release p);
  gp_built : MaybeAt SaysDate s (term "builtDate") (pk_built p);
  gp_valid : MaybeAt SaysDate s (term "validUntilDate") (pk_valid_until p) }.
Record FileIn (s : node) (f : file) : Prop := {
  gf_id : Identifies bound ns s (fi_id f);
  gf_name : At TextIs s (term "fileName") (fi_name f);
  gf_checksums : EachAt ChecksumIn s (term "checksum") (fi_checksums f);
  gf_types : EachAt (Member file_type_name "fileType_") s (term "fileType") (fi_types f);
  gf_concluded : LicenseAt ns s (term "licenseConcluded") (fi_concluded f);
  gf_info : EachAt (SaysLicense ns) s (term "licenseInfoInFile") (fi_info f);
  gf_lic_comment : MaybeAt TextIs s (term "licenseComments") (fi_lic_comment f);
  gf_copyright : MaybeAt (Word TextIs) s (term "copyrightText") (fi_copyright f);
  gf_comment : MaybeAt TextIs s says_comment (fi_comment f);
  gf_notice : MaybeAt TextIs s (term "noticeText") (fi_notice f);
  gf_contributors : EachAt Plain s (term "fileContributor") (fi_contributors f);
  gf_attribution : EachAt Plain s (term "attributionText") (fi_attribution f) }.
(** the position a pointer points to *)
Definition Position (bytes : bool) (n : node) (z : Z) : Prop :=
  First n is_a (Some (NUri (pointer (if bytes then "ByteOffsetPointer" else "LineCharPointer"))))
  /\ At (fun v z => py_int L v = Ok z) n (pointer (if bytes then "offset" else "lineNumber")) z.
(** a range, of bytes or of lines *)
Definition RangeIn (n : node) (r : bool * (Z * Z)) : Prop :=
  At (Position (fst r)) n (pointer "startPointer") (fst (snd r)) /\ At (Position (fst r)) n (pointer "endPointer") (snd (snd r)).
Record SnippetIn (s : node) (x : snippet) : Prop := {
  gn_id : Identifies bound ns s (sn_id x);
  gn_file : exists f, First s (term "snippetFromFile") (Some f) /\ Identifies bound ns f (sn_file x);
  (** one range of bytes and at most one of lines *)
  gn_ranges : exists rs, EachAt RangeIn s (term "range") rs
    /\ map snd (filter fst rs) = [sn_bytes x]
    /\ map snd (filter (fun r => negb (fst r)) rs) = match sn_lines x with Some r => [r] | None => [] end;
  gn_concluded : LicenseAt ns s (term "licenseConcluded") (sn_concluded x);
  gn_info : EachAt (SaysLicense ns) s (term "licenseInfoInSnippet") (sn_info x);
  gn_lic_comment : MaybeAt TextIs s (term "licenseComments") (sn_lic_comment x);
  gn_copyright : MaybeAt (Word TextIs) s (term "copyrightText") (sn_copyright x);
  gn_comment : MaybeAt TextIs s says_comment (sn_comment x);
  gn_name : MaybeAt TextIs s (term "name") (sn_name x);
  gn_attribution : EachAt Plain s (term "attributionText") (sn_attribution x) }.
(** from the annotated element to the annotation *)
Record AnnotationIn (link : node * node) (a : annotation) : Prop := {
  ga_id : Identifies bound ns (fst link) (an_id a);
  ga_type : At (Member annotation_type_name "annotationType_") (snd link) (term "annotationType") (an_type a);
  ga_annotator : At SaysActor (snd link) (term "annotator") (an_annotator a);
  ga_date : At SaysDate (snd link) (term "annotationDate") (an_date a);
  ga_comment : At TextIs (snd link) says_comment (an_comment a) }.
Record RelationshipIn (link : node * node) (r : relationship) : Prop := {
  gl_id : Identifies bound ns (fst link) (re_id r);
  gl_type : At (Member rel_type_name "relationshipType_") (snd link) (term "relationshipType") (re_type r);
  gl_related : At (Word (Identifies bound ns)) (snd link) (term "relatedSpdxElement") (re_related r);
  gl_comment : MaybeAt TextIs (snd link) says_comment (re_comment r) }.
(** a property that counts as a relationship of a given type *)
Definition ImpliedBy (ty : rel_type) (link : node * node) (r : relationship) : Prop :=
  exists id, re_related r = NVal id /\ Identifies bound ns (fst link) (re_id r) /\ Identifies bound ns (snd link) id
    /\ re_type r = ty /\ re_comment r = None.
Record ExtractedIn (n : node) (e : extracted) : Prop := {
  (** its id, otherwise what follows the namespace and '#', otherwise the text of the node *)
  ge_id : exists o, MaybeAt TextIs n (term "licenseId") o
    /\ match o with
       | Some ((_ :: _) as i) => el_id e = Some i
       | _ => (Begins (ns ++ $"#") (node_str n) /\ exists u x, n = NUri u /\ r_fragment L u = Ok x /\ el_id e = Some x)
              \/ (~ Begins (ns ++ $"#") (node_str n) /\ exists x, Plain n x /\ el_id e = Some x)
       end;
  ge_text : MaybeAt TextIs n (term "extractedText") (el_text e);
  ge_name : MaybeAt (WordNA TextIs) n (term "name") (el_name e);
  ge_xrefs : EachAt Plain n see_also (el_xrefs e);
  ge_comment : MaybeAt TextIs n says_comment (el_comment e) }.
End Elements.

(** ** The document *)
(** references to other documents; each one binds a prefix for the next ones *)
Inductive DocRefs (ns : pystr) : list (pystr * pystr) -> list node -> list ext_doc_ref -> Prop :=
| DocRefs_nil bound : DocRefs ns bound [] []
| DocRefs_cons bound n l r rs :
    Identifies bound ns n (edr_id r) -> At TextIs n (term "spdxDocument") (edr_uri r) ->
    At ChecksumIn n (term "checksum") (edr_checksum r) ->
    DocRefs ns (bound ++ [(edr_id r, edr_uri r ++ $"#")]) l rs -> DocRefs ns bound (n :: l) (r :: rs).
Record CreationIn (bound : list (pystr * pystr)) (doc : node) (c : creation_info) : Prop := {
  gc_only : Subjects is_a (NUri (term "SpdxDocument")) G [doc];
  gc_doc : Truthy doc /\ In #"#" (node_str doc) /\ r_defrag L (node_str doc) = Ok (ci_namespace c, ci_id c)
    /\ ci_namespace c <> [] /\ ci_id c <> [];
  gc_version : At TextIs doc (term "specVersion") (ci_version c);
  gc_license : At (Unprefixed license_list) doc (term "dataLicense") (ci_data_license c);
  gc_name : At TextIs doc (term "name") (ci_name c);
  gc_doc_comment : MaybeAt TextIs doc says_comment (ci_doc_comment c);
  gc_info : exists b bs, Subjects is_a (NUri (term "CreationInfo")) G (b :: bs) /\ Truthy b
    /\ At SaysDate b (term "created") (ci_created c)
    /\ EachAt (fun n a => exists s, Plain n s /\ parse_actor s = Ok a) b (term "creator") (ci_creators c) /\ ci_creators c <> []
    /\ MaybeAt SaysVersion b (term "licenseListVersion") (ci_list_version c)
    /\ MaybeAt TextIs b says_comment (ci_creator_comment c);
  gc_refs : exists l, Objects doc (term "externalDocumentRef") G l /\ DocRefs (ci_namespace c) bound l (ci_refs c) }.
(** one element for each node of the class *)
Definition AllOf {A} (class : string) (P : node -> A -> Prop) (l : list A) : Prop :=
  exists ns, Subjects is_a (NUri (term class)) G ns /\ Forall2 P ns l.
Definition AllLinks {A} (p : string) (P : node * node -> A -> Prop) (l : list A) : Prop :=
  exists xs, Links (term p) G xs /\ Forall2 P xs l.
(** relationships are added at the end unless they are there *)
Inductive Added : list relationship -> list relationship -> list relationship -> Prop :=
| Added_nil l : Added l [] l
| Added_known l r more l' : In r l -> Added l more l' -> Added l (r :: more) l'
| Added_new l r more l' : ~ In r l -> Added (l ++ [r]) more l' -> Added l (r :: more) l'.
End Graph.

(** the prefixes bound in the graph and those of the references *)
Definition prefixes (g : graph) (d : document) : list (pystr * pystr) :=
  g_bound g ++ map (fun r => (edr_id r, edr_uri r ++ $"#")) (ci_refs (do_ci d)).
Record DocumentIn (g : graph) (d : document) : Prop := {
  gd_ci : exists doc, CreationIn (g_triples g) (g_bound g) doc (do_ci d);
  gd_packages : AllOf (g_triples g) "Package" (PackageIn (g_triples g) (prefixes g d) (ci_namespace (do_ci d))) (do_packages d);
  gd_files : AllOf (g_triples g) "File" (FileIn (g_triples g) (prefixes g d) (ci_namespace (do_ci d))) (do_files d);
  gd_snippets : AllOf (g_triples g) "Snippet" (SnippetIn (g_triples g) (prefixes g d) (ci_namespace (do_ci d))) (do_snippets d);
  gd_annotations : AllLinks (g_triples g) "annotation"
    (AnnotationIn (g_triples g) (prefixes g d) (ci_namespace (do_ci d))) (do_annotations d);
  gd_relationships : exists rs cs ds,
    AllLinks (g_triples g) "relationship" (RelationshipIn (g_triples g) (prefixes g d) (ci_namespace (do_ci d))) rs
    /\ AllLinks (g_triples g) "hasFile" (ImpliedBy (prefixes g d) (ci_namespace (do_ci d)) RT_CONTAINS) cs
    /\ AllLinks (g_triples g) "describesPackage" (ImpliedBy (prefixes g d) (ci_namespace (do_ci d)) RT_DESCRIBES) ds
    /\ Added rs (cs ++ ds) (do_relationships d);
  gd_extracted : AllLinks (g_triples g) "hasExtractedLicensingInfo"
    (fun x => ExtractedIn (g_triples g) (ci_namespace (do_ci d)) (snd x)) (do_extracted d) }.
End Reading.

(** the libraries do not raise SPDXParsingError *)
Record Foreign (O : oracles) (L : rdf_library) : Prop := {
  fo_license : forall s m, o_lic_parse O s <> Raise (EParsing m);
  fo_fragment : forall s m, r_fragment L s <> Raise (EParsing m);
  fo_int : forall d t b m, r_value L d t <> VOther b (Raise (EParsing m)) }.

(** ** How a license expression is to be written *)
Section Depiction.
Variable O : oracles.
Variable ns : pystr.
(** licenses and exceptions that the license library knows are those of the SPDX list *)
Definition Listed (key : pystr) : Prop := o_invalid_symbols O (LSym key) = [].
(** a license of the SPDX list is its URI there, any other is one of the document *)
Definition LicenseNode (n : node) (key : pystr) : Prop :=
  (Listed key /\ n = NUri (license_list ++ key)) \/ (~ Listed key /\ n = NUri (ns ++ $"#" ++ key)).
Definition ExceptionNode (G : list triple) (n : node) (key : pystr) : Prop :=
  (Listed key /\ n = NUri (license_list ++ key))
  \/ (~ Listed key /\ (exists b, n = NBlank b) /\ In (n, term "licenseExceptionId", NLit key KPlain) G).
Inductive Depicts (G : list triple) : node -> lexpr -> Prop :=
| De_symbol n key : LicenseNode n key -> Depicts G n (LSym key)
| De_with n key exc m x : In (n, is_a, NUri (term "WithExceptionOperator")) G ->
    In (n, term "member", m) G -> LicenseNode m key ->
    In (n, term "licenseException", x) G -> In (x, is_a, NUri (term "LicenseException")) G -> ExceptionNode G x exc ->
    Depicts G n (LWith key exc)
| De_and n l : In (n, is_a, NUri (term "ConjunctiveLicenseSet")) G ->
    Forall (fun e => exists m, In (n, term "member", m) G /\ Depicts G m e) l -> Depicts G n (LAnd l)
| De_or n l : In (n, is_a, NUri (term "DisjunctiveLicenseSet")) G ->
    Forall (fun e => exists m, In (n, term "member", m) G /\ Depicts G m e) l -> Depicts G n (LOr l).
End Depiction.
