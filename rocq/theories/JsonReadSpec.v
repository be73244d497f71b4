(** What an entry of the JSON form says, key by key. *)
From Verif Require Import Py Data Oracles Basics Json JsonSpec.

(** the value under a key; a missing key counts as null *)
Definition value_at (k : pystr) (kvs : list (pystr * json)) : json := match assoc k kvs with Some v => v | None => JNull end.

(** ** Values *)
Definition SaysText (j : json) (s : pystr) : Prop := j = JStr s.
Definition SaysOptText (j : json) (o : option pystr) : Prop := match o with Some s => j = JStr s | None => j = JNull end.
(** text, or one of the reserved words *)
Definition SaysWord (j : json) (x : nn pystr) : Prop :=
  match x with
  | NNoAssertion => j = JStr $"NOASSERTION"
  | NNone => j = JStr $"NONE"
  | NVal s => j = JStr s /\ s <> $"NOASSERTION" /\ s <> $"NONE"
  end.
Definition SaysOptWord (j : json) (o : option (nn pystr)) : Prop := match o with Some x => SaysWord j x | None => j = JNull end.
Definition SaysOptName (j : json) (o : option (na pystr)) : Prop :=
  match o with
  | Some ANoAssertion => j = JStr $"NOASSERTION"
  | Some (AVal s) => j = JStr s /\ s <> $"NOASSERTION"
  | None => j = JNull
  end.
Definition SaysTexts (j : json) (l : list pystr) : Prop := j = JArr (map JStr l) \/ j = JNull /\ l = [].
(** a field that is optional: values that are false for Python (null, "", 0, false, [], {}) count as missing *)
Definition Maybe {A} (P : json -> A -> Prop) (j : json) (o : option A) : Prop :=
  match o with None => jtruthy j = false | Some a => jtruthy j = true /\ P j a end.
(** the items of a list; a text counts as the list of its characters, an object as the list of its keys *)
Definition Items (j : json) (l : list json) : Prop :=
  match j with
  | JArr l' => l = l'
  | JObj kvs => l = map (fun kv => JStr (fst kv)) kvs
  | JStr s => l = map (fun c => JStr [c]) s
  | _ => False
  end.
Definition ListOf {A} (P : json -> A -> Prop) (j : json) (r : list A) : Prop := exists l, Items j l /\ Forall2 P l r.
(** a list that is optional *)
Definition MaybeList {A} (P : json -> A -> Prop) (j : json) (r : list A) : Prop :=
  (jtruthy j = false /\ r = []) \/ (jtruthy j = true /\ ListOf P j r).

Definition SaysDate (j : json) (d : datetime) : Prop := exists s, j = JStr s /\ datetime_from_str s = Ok d.
Definition SaysActor (j : json) (a : actor) : Prop := exists s, j = JStr s /\ parse_actor s = Ok a.
Definition SaysVersion (j : json) (v : version) : Prop := exists s, j = JStr s /\ version_from_string s = Ok v.
Definition SaysOptActor (j : json) (a : na actor) : Prop :=
  match a with ANoAssertion => j = JStr $"NOASSERTION" | AVal x => j <> JStr $"NOASSERTION" /\ SaysActor j x end.
(** a license expression: the reserved words in any case, otherwise what the license library reads *)
Definition SaysLicense (O : oracles) (j : json) (l : license) : Prop :=
  exists s, j = JStr s
    /\ match l with
       | NNoAssertion => upper s = $"NOASSERTION"
       | NNone => upper s = $"NONE"
       | NVal e => upper s <> $"NOASSERTION" /\ upper s <> $"NONE" /\ strip s <> [] /\ o_lic_parse O s = Ok e
       end.
(** ... or nothing: a missing value, or only blanks *)
Definition SaysOptLicense (O : oracles) (j : json) (o : option license) : Prop :=
  match o with
  | Some l => jtruthy j = true /\ SaysLicense O j l
  | None => jtruthy j = false \/ exists s, j = JStr s /\ strip s = []
  end.
(** the name of an enumeration member: in upper case, with underscores for hyphens *)
Definition SaysMember (j : json) (name : pystr) : Prop := exists s, j = JStr s /\ upper (replace $"-" $"_" s) = name.
(** filesAnalyzed is true unless stated otherwise; XML files have it as text *)
Definition SaysAnalyzed (j : json) (b : bool) : Prop :=
  match j with
  | JNull => b = true
  | JBool x => b = x
  | JStr s => lower s = (if b then $"true" else $"false")
  | _ => False
  end.
(** an integer; bool is an int for Python, and XML files have texts of decimal digits *)
Definition SaysInt (j : json) (z : Z) : Prop :=
  match j with
  | JInt x => x = z
  | JBool b => z = if b then 1%Z else 0%Z
  | JStr s => exists n, dec_val s = Some n /\ z = Z.of_N n
  | _ => False
  end.

(** ** Entries *)
Definition SaysChecksum (j : json) (c : checksum) : Prop :=
  exists kvs, j = JObj kvs /\ SaysMember (value_at $"algorithm" kvs) (checksum_alg_name (ck_alg c))
    /\ SaysText (value_at $"checksumValue" kvs) (ck_value c).
Definition SaysRef (j : json) (r : ext_pkg_ref) : Prop :=
  exists kvs, j = JObj kvs /\ SaysMember (value_at $"referenceCategory" kvs) (ref_category_name (er_category r))
    /\ SaysText (value_at $"referenceType" kvs) (er_type r) /\ SaysText (value_at $"referenceLocator" kvs) (er_locator r)
    /\ SaysOptText (value_at $"comment" kvs) (er_comment r).
Definition SaysCode (j : json) (v : verif_code) : Prop :=
  exists kvs, j = JObj kvs /\ SaysText (value_at $"packageVerificationCodeValue" kvs) (vc_value v)
    /\ SaysTexts (value_at $"packageVerificationCodeExcludedFiles" kvs) (vc_excluded v).
Definition SaysDocRef (j : json) (r : ext_doc_ref) : Prop :=
  exists kvs, j = JObj kvs /\ SaysText (value_at $"externalDocumentId" kvs) (edr_id r) /\ SaysText (value_at $"spdxDocument" kvs) (edr_uri r)
    /\ SaysChecksum (value_at $"checksum" kvs) (edr_checksum r).

Record SaysPackage (O : oracles) (kvs : list (pystr * json)) (p : package) : Prop := {
  sp_id : SaysText (value_at $"SPDXID" kvs) (pk_id p);
  sp_name : SaysText (value_at $"name" kvs) (pk_name p);
  sp_download : SaysWord (value_at $"downloadLocation" kvs) (pk_download p);
  sp_version : SaysOptText (value_at $"versionInfo" kvs) (pk_version p);
  sp_file_name : SaysOptText (value_at $"packageFileName" kvs) (pk_file_name p);
  sp_supplier : Maybe SaysOptActor (value_at $"supplier" kvs) (pk_supplier p);
  sp_originator : Maybe SaysOptActor (value_at $"originator" kvs) (pk_originator p);
  sp_analyzed : SaysAnalyzed (value_at $"filesAnalyzed" kvs) (pk_files_analyzed p);
  sp_verif : Maybe SaysCode (value_at $"packageVerificationCode" kvs) (pk_verif p);
  sp_checksums : MaybeList SaysChecksum (value_at $"checksums" kvs) (pk_checksums p);
  sp_homepage : SaysOptWord (value_at $"homepage" kvs) (pk_homepage p);
  sp_source_info : SaysOptText (value_at $"sourceInfo" kvs) (pk_source_info p);
  sp_concluded : SaysOptLicense O (value_at $"licenseConcluded" kvs) (pk_concluded p);
  sp_info : MaybeList (SaysLicense O) (value_at $"licenseInfoFromFiles" kvs) (pk_info p);
  sp_declared : SaysOptLicense O (value_at $"licenseDeclared" kvs) (pk_declared p);
  sp_lic_comment : SaysOptText (value_at $"licenseComments" kvs) (pk_lic_comment p);
  sp_copyright : SaysOptWord (value_at $"copyrightText" kvs) (pk_copyright p);
  sp_summary : SaysOptText (value_at $"summary" kvs) (pk_summary p);
  sp_description : SaysOptText (value_at $"description" kvs) (pk_description p);
  sp_comment : SaysOptText (value_at $"comment" kvs) (pk_comment p);
  sp_refs : MaybeList SaysRef (value_at $"externalRefs" kvs) (pk_refs p);
  sp_attribution : SaysTexts (value_at $"attributionTexts" kvs) (pk_attribution p);
  sp_purpose : Maybe (fun j x => SaysMember j (purpose_name x)) (value_at $"primaryPackagePurpose" kvs) (pk_purpose p);
  sp_release : Maybe SaysDate (value_at $"releaseDate" kvs) (pk_release p);
  sp_built : Maybe SaysDate (value_at $"builtDate" kvs) (pk_built p);
  sp_valid : Maybe SaysDate (value_at $"validUntilDate" kvs) (pk_valid_until p) }.

Record SaysFile (O : oracles) (kvs : list (pystr * json)) (f : file) : Prop := {
  sf_name : SaysText (value_at $"fileName" kvs) (fi_name f);
  sf_id : SaysText (value_at $"SPDXID" kvs) (fi_id f);
  (** an empty list of checksums is rejected like a missing one *)
  sf_checksums : jtruthy (value_at $"checksums" kvs) = true /\ ListOf SaysChecksum (value_at $"checksums" kvs) (fi_checksums f);
  sf_types : MaybeList (fun j t => j = JStr (file_type_name t)) (value_at $"fileTypes" kvs) (fi_types f);
  sf_concluded : SaysOptLicense O (value_at $"licenseConcluded" kvs) (fi_concluded f);
  sf_info : MaybeList (SaysLicense O) (value_at $"licenseInfoInFiles" kvs) (fi_info f);
  sf_lic_comment : SaysOptText (value_at $"licenseComments" kvs) (fi_lic_comment f);
  sf_copyright : SaysOptWord (value_at $"copyrightText" kvs) (fi_copyright f);
  sf_comment : SaysOptText (value_at $"comment" kvs) (fi_comment f);
  sf_notice : SaysOptText (value_at $"noticeText" kvs) (fi_notice f);
  sf_contributors : SaysTexts (value_at $"fileContributors" kvs) (fi_contributors f);
  sf_attribution : SaysTexts (value_at $"attributionTexts" kvs) (fi_attribution f) }.

(** the last range of the kind *)
Definition SaysRange (r : option (json * json)) (o : option (Z * Z)) : Prop :=
  match r, o with
  | None, None => True
  | Some (a, b), Some (x, y) => SaysInt a x /\ SaysInt b y
  | _, _ => False
  end.
Record SaysSnippet (O : oracles) (kvs : list (pystr * json)) (s : snippet) : Prop := {
  ss_id : SaysText (value_at $"SPDXID" kvs) (sn_id s);
  ss_file : SaysText (value_at $"snippetFromFile" kvs) (sn_file s);
  ss_ranges : jtruthy (value_at $"ranges" kvs) = true /\ exists ks, ListOf IsRange (value_at $"ranges" kvs) ks
    /\ SaysRange (last_of true ks) (Some (sn_bytes s)) /\ SaysRange (last_of false ks) (sn_lines s);
  ss_concluded : SaysOptLicense O (value_at $"licenseConcluded" kvs) (sn_concluded s);
  ss_info : MaybeList (SaysLicense O) (value_at $"licenseInfoInSnippets" kvs) (sn_info s);
  ss_lic_comment : SaysOptText (value_at $"licenseComments" kvs) (sn_lic_comment s);
  ss_copyright : SaysOptWord (value_at $"copyrightText" kvs) (sn_copyright s);
  ss_comment : SaysOptText (value_at $"comment" kvs) (sn_comment s);
  ss_name : SaysOptText (value_at $"name" kvs) (sn_name s);
  ss_attribution : SaysTexts (value_at $"attributionTexts" kvs) (sn_attribution s) }.

Record SaysExtracted (kvs : list (pystr * json)) (e : extracted) : Prop := {
  se_id : SaysOptText (value_at $"licenseId" kvs) (el_id e);
  se_text : SaysOptText (value_at $"extractedText" kvs) (el_text e);
  se_name : SaysOptName (value_at $"name" kvs) (el_name e);
  se_xrefs : SaysTexts (value_at $"seeAlsos" kvs) (el_xrefs e);
  se_comment : SaysOptText (value_at $"comment" kvs) (el_comment e) }.

Record SaysRelationship (kvs : list (pystr * json)) (r : relationship) : Prop := {
  sr_id : SaysText (value_at $"spdxElementId" kvs) (re_id r);
  sr_type : SaysMember (value_at $"relationshipType" kvs) (rel_type_name (re_type r));
  sr_related : SaysWord (value_at $"relatedSpdxElement" kvs) (re_related r);
  sr_comment : SaysOptText (value_at $"comment" kvs) (re_comment r) }.

(** an annotation belongs to the element it is listed under unless it names another one *)
Record SaysAnnotation (parent : json) (kvs : list (pystr * json)) (a : annotation) : Prop := {
  sa_id : SaysText (if jtruthy (value_at $"SPDXID" kvs) then value_at $"SPDXID" kvs else parent) (an_id a);
  sa_type : value_at $"annotationType" kvs = JStr (annotation_type_name (an_type a));
  sa_annotator : SaysActor (value_at $"annotator" kvs) (an_annotator a);
  sa_date : SaysDate (value_at $"annotationDate" kvs) (an_date a);
  sa_comment : SaysText (value_at $"comment" kvs) (an_comment a) }.

Record SaysCreation (kvs : list (pystr * json)) (c : creation_info) : Prop := {
  sc_version : SaysText (value_at $"spdxVersion" kvs) (ci_version c);
  sc_id : SaysText (value_at $"SPDXID" kvs) (ci_id c);
  sc_name : SaysText (value_at $"name" kvs) (ci_name c);
  sc_namespace : SaysText (value_at $"documentNamespace" kvs) (ci_namespace c);
  sc_license : SaysText (value_at $"dataLicense" kvs) (ci_data_license c);
  sc_refs : MaybeList SaysDocRef (value_at $"externalDocumentRefs" kvs) (ci_refs c);
  sc_comment : SaysOptText (value_at $"comment" kvs) (ci_doc_comment c);
  sc_inner : exists kvs', value_at $"creationInfo" kvs = JObj kvs'
    /\ (jtruthy (value_at $"creators" kvs') = true /\ ListOf SaysActor (value_at $"creators" kvs') (ci_creators c))
    /\ SaysDate (value_at $"created" kvs') (ci_created c)
    /\ SaysOptText (value_at $"comment" kvs') (ci_creator_comment c)
    /\ Maybe SaysVersion (value_at $"licenseListVersion" kvs') (ci_list_version c) }.

(** ** Annotations *)
(** a list of a document that is optional; absent means empty, but null is not a list *)
Definition EntriesOf (k : pystr) (kvs : list (pystr * json)) (l : list json) : Prop :=
  match assoc k kvs with None => l = [] | Some v => Items v l end.
(** the annotations listed in an element *)
Definition OwnAnnotations (j : json) (l : list annotation) : Prop :=
  exists kvs, j = JObj kvs
    /\ MaybeList (fun x a => exists akvs, x = JObj akvs /\ SaysAnnotation (value_at $"SPDXID" kvs) akvs a) (value_at $"annotations" kvs) l.
(** an entry of the old "revieweds" list is an annotation of the document *)
Definition SaysReview (parent : json) (j : json) (a : annotation) : Prop :=
  exists kvs, j = JObj kvs /\ SaysText parent (an_id a) /\ an_type a = ANT_REVIEW
    /\ SaysActor (value_at $"reviewer" kvs) (an_annotator a) /\ SaysDate (value_at $"reviewDate" kvs) (an_date a)
    /\ SaysText (value_at $"comment" kvs) (an_comment a).
(** those of the document come first, then the reviews, then those of packages, files and snippets *)
Definition SaysAnnotations (kvs : list (pystr * json)) (l : list annotation) : Prop :=
  exists own reviews rs ps fs ss pas fas sas,
    OwnAnnotations (JObj kvs) own
    /\ EntriesOf $"revieweds" kvs reviews /\ Forall2 (SaysReview (value_at $"SPDXID" kvs)) reviews rs
    /\ EntriesOf $"packages" kvs ps /\ Forall2 OwnAnnotations ps pas
    /\ EntriesOf $"files" kvs fs /\ Forall2 OwnAnnotations fs fas
    /\ EntriesOf $"snippets" kvs ss /\ Forall2 OwnAnnotations ss sas
    /\ l = own ++ rs ++ List.concat pas ++ List.concat fas ++ List.concat sas.

(** ** Documents *)
Definition Entry {A} (P : list (pystr * json) -> A -> Prop) (j : json) (x : A) : Prop := exists kvs, j = JObj kvs /\ P kvs x.
Definition SaysEntries {A} (k : pystr) (P : list (pystr * json) -> A -> Prop) (kvs : list (pystr * json)) (r : list A) : Prop :=
  exists l, EntriesAt k kvs l /\ Forall2 (Entry P) l r.

(** ** Relationships *)
(** a package entry with this id and these entries under hasFiles *)
Definition HasFiles (j : json) (p : pystr * list pystr) : Prop :=
  exists kvs, j = JObj kvs /\ SaysText (value_at $"SPDXID" kvs) (fst p) /\ EntriesOf $"hasFiles" kvs (map JStr (snd p)).
(** the listed relationships come first, then what documentDescribes adds to them, then what hasFiles of the packages adds to these *)
Definition SaysRelationships (kvs : list (pystr * json)) (l : list relationship) : Prop :=
  exists listed doc ids js pkgs described,
    MaybeList (Entry SaysRelationship) (value_at $"relationships" kvs) listed
    /\ SaysText (value_at $"SPDXID" kvs) doc /\ EntriesOf $"documentDescribes" kvs (map JStr ids)
    /\ EntriesAt $"packages" kvs js /\ Forall2 HasFiles js pkgs
    /\ described = missing listed doc RT_DESCRIBES RT_DESCRIBED_BY ids
    /\ l = listed ++ described ++ flat_map (fun p => missing (listed ++ described) (fst p) RT_CONTAINS RT_CONTAINED_BY (snd p)) pkgs.
