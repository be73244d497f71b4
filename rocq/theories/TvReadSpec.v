(** What the attributes of a tag-value file say: a specification of reading, tag by tag and element by element. *)
From Verif Require Import Py PyRe Data Oracles Basics JsonSpec TvLexer TvParser TvSpec TvTokSpec.

(** ** Values *)
(** the text that a value token stands for: <text>...</text> stands for what it encloses, unless that is empty *)
Definition TextOf (k : token) (s : pystr) : Prop :=
  match tk_type k with
  | TT_TEXT => (s <> [] /\ tk_value k = $"<text>" ++ s ++ $"</text>") \/ (s = $"<text></text>" /\ tk_value k = s)
  | _ => s = tk_value k
  end.
Definition SaysLine (g : grp) (s : pystr) : Prop := s = tk_value (g_val g).
Definition SaysText (g : grp) (s : pystr) : Prop := TextOf (g_val g) s.
(** text, or one of the reserved words *)
Definition SaysWord (g : grp) (x : nn pystr) : Prop :=
  match tk_type (g_val g) with
  | TT_NO_ASSERTION => x = NNoAssertion
  | TT_NONE => x = NNone
  | _ => exists s, x = NVal s /\ SaysText g s
  end.
Definition SaysName (g : grp) (x : na pystr) : Prop :=
  match tk_type (g_val g) with TT_NO_ASSERTION => x = ANoAssertion | _ => exists s, x = AVal s /\ SaysText g s end.
Definition SaysDate (g : grp) (d : datetime) : Prop := datetime_from_str (tk_value (g_val g)) = Ok d.
Definition SaysVersion (g : grp) (v : version) : Prop := version_from_string (tk_value (g_val g)) = Ok v.
Definition SaysActor (g : grp) (a : actor) : Prop := parse_actor (tk_value (g_val g)) = Ok a.
Definition SaysActorOrNot (g : grp) (x : na actor) : Prop :=
  match tk_type (g_val g) with TT_NO_ASSERTION => x = ANoAssertion | _ => exists a, x = AVal a /\ SaysActor g a end.
Definition SaysAnalyzed (g : grp) (b : bool) : Prop := tk_value (g_val g) = if b then $"true" else $"false".
(** the name of an enumeration member, possibly with hyphens for underscores *)
Definition SaysPurpose (g : grp) (p : purpose) : Prop := replace $"-" $"_" (tk_value (g_val g)) = purpose_name p.
Definition SaysFileType (g : grp) (t : file_type) : Prop := strip (tk_value (g_val g)) = file_type_name t.
Definition SaysAnnotationType (g : grp) (t : annotation_type) : Prop := tk_value (g_val g) = annotation_type_name t.
(** two numbers with a colon between *)
Definition SaysRange (g : grp) (r : Z * Z) : Prop :=
  exists a b m n, tk_value (g_val g) = a ++ $":" ++ b /\ dec_val a = Some m /\ dec_val b = Some n /\ r = (Z.of_N m, Z.of_N n).
(** "ALGORITHM: value" *)
Definition ChecksumText (s : pystr) (c : checksum) : Prop :=
  exists alg v, s = alg ++ $":" ++ v /\ ~ In #":" alg /\ ~ In #":" v
    /\ replace $"-" $"_" (upper alg) = checksum_alg_name (ck_alg c) /\ ck_value c = strip v.
Definition SaysChecksum (g : grp) (c : checksum) : Prop := ChecksumText (tk_value (g_val g)) c.
(** the pattern of parser.py:414, 418: 40 hexadecimal digits, and the names in "(excludes: ...)", separated by commas *)
Definition SaysCode (g : grp) (v : verif_code) : Prop :=
  exists m, re_match verif_code_re (tk_value (g_val g)) = Some m /\ group 1 m = Some (vc_value v)
    /\ match group 3 m with
       | Some (c :: x) => vc_excluded v = split_on #"," (c :: x)
       | _ => vc_excluded v = []
       end.
(** the pattern of parser.py:292: an identifier and a URI, separated by one blank, and a SHA1 checksum *)
Definition SaysDocRef (g : grp) (r : ext_doc_ref) : Prop :=
  exists m a b, re_match ext_doc_ref_re (tk_value (g_val g)) = Some m /\ group 1 m = Some a /\ group 2 m = Some b
    /\ strip a = edr_id r ++ $" " ++ edr_uri r /\ ~ In #" " (edr_id r) /\ ~ In #" " (edr_uri r)
    /\ ChecksumText (strip b) (edr_checksum r).
(** the text of the comment that follows *)
Definition SaysComment (g : grp) (o : option pystr) : Prop :=
  match g_com g with None => o = None | Some c => exists s, o = Some s /\ TextOf c s end.
(** three words with one blank between *)
Definition Words (s a b c : pystr) : Prop :=
  s = a ++ $" " ++ b ++ $" " ++ c /\ ~ In #" " a /\ ~ In #" " b /\ ~ In #" " c.
Definition SaysRef (g : grp) (r : ext_pkg_ref) : Prop :=
  (exists c, Words (tk_value (g_val g)) c (er_type r) (er_locator r)
             /\ replace $"-" $"_" c = ref_category_name (er_category r))
  /\ SaysComment g (er_comment r).
Definition SaysRelationship (g : grp) (r : relationship) : Prop :=
  (exists x, Words (tk_value (g_val g)) (re_id r) (rel_type_name (re_type r)) x
     /\ match re_related r with
        | NNone => x = $"NONE"
        | NNoAssertion => x = $"NOASSERTION"
        | NVal s => x = s /\ s <> $"NONE" /\ s <> $"NOASSERTION"
        end)
  /\ SaysComment g (re_comment r).

Section WithOracles.
Variable O : oracles.
Definition SaysLicense (g : grp) (l : license) : Prop :=
  match tk_type (g_val g) with
  | TT_NO_ASSERTION => l = NNoAssertion
  | TT_NONE => l = NNone
  | _ => exists e, l = NVal e /\ strip (tk_value (g_val g)) <> [] /\ o_lic_parse O (tk_value (g_val g)) = Ok e
  end.
(** a blank expression counts as no license *)
Definition SaysOptLicense (g : grp) (o : option license) : Prop :=
  match o with
  | Some l => SaysLicense g l
  | None => tk_type (g_val g) <> TT_NO_ASSERTION /\ tk_type (g_val g) <> TT_NONE /\ strip (tk_value (g_val g)) = []
  end.

(** ** The attributes with a given tag *)
Definition with_tag (t : tag) (gs : list grp) : list grp := filter (fun g => tag_eqb (g_tag g) t) gs.
(** exactly one, at most one, any number *)
Definition One {A} (P : grp -> A -> Prop) (t : tag) (gs : list grp) (x : A) : Prop := exists g, with_tag t gs = [g] /\ P g x.
Definition Optional {A} (P : grp -> A -> Prop) (t : tag) (gs : list grp) (o : option A) : Prop :=
  match with_tag t gs with
  | [] => o = None
  | [g] => exists x, o = Some x /\ P g x
  | _ => False
  end.
Definition Default {A} (P : grp -> A -> Prop) (t : tag) (gs : list grp) (dflt x : A) : Prop :=
  match with_tag t gs with
  | [] => x = dflt
  | [g] => P g x
  | _ => False
  end.
Definition Each {A} (P : grp -> A -> Prop) (t : tag) (gs : list grp) (l : list A) : Prop := Forall2 P (with_tag t gs) l.

(** ** The document's own attributes *)
Definition creation_tags : list tag :=
  [T_SPDXVersion; T_DataLicense; T_DocumentName; T_DocumentNamespace; T_DocumentComment; T_LicenseListVersion; T_Creator;
   T_Created; T_CreatorComment; T_ExternalDocumentRef].
(** they may stand anywhere; the first SPDXID is the document's *)
Record SaysCreation (gs : list grp) (c : creation_info) : Prop := {
  sc_version : One SaysLine T_SPDXVersion gs (ci_version c);
  sc_id : exists g l, with_tag T_SPDXID gs = g :: l /\ SaysLine g (ci_id c);
  sc_name : One SaysLine T_DocumentName gs (ci_name c);
  sc_namespace : One SaysLine T_DocumentNamespace gs (ci_namespace c);
  sc_creators : Each SaysActor T_Creator gs (ci_creators c) /\ ci_creators c <> [];
  sc_created : One SaysDate T_Created gs (ci_created c);
  sc_creator_comment : Optional SaysText T_CreatorComment gs (ci_creator_comment c);
  sc_data_license : Default SaysLine T_DataLicense gs $"CC0-1.0" (ci_data_license c);
  sc_refs : Each SaysDocRef T_ExternalDocumentRef gs (ci_refs c);
  sc_list_version : Optional SaysVersion T_LicenseListVersion gs (ci_list_version c);
  sc_comment : Optional SaysText T_DocumentComment gs (ci_doc_comment c) }.

(** ** Elements: what a block of attributes says *)
Definition Only (tags : list tag) (gs : list grp) : Prop := Forall (fun g => In (g_tag g) tags) gs.
(** the last SPDXID of the block counts *)
Definition LastId (gs : list grp) (s : pystr) : Prop := exists l g, with_tag T_SPDXID gs = l ++ [g] /\ SaysLine g s.
(** the same, where the attribute with tag [t] gives an identifier too: no SPDXID may precede it, a later one counts *)
Definition IdFrom (t : tag) (gs : list grp) (s : pystr) : Prop :=
  exists before g after, gs = before ++ g :: after /\ g_tag g = t /\ with_tag t before = [] /\ with_tag t after = []
    /\ with_tag T_SPDXID before = []
    /\ (LastId after s \/ with_tag T_SPDXID after = [] /\ SaysLine g s).

Definition package_tags : list tag :=
  [T_PackageName; T_SPDXID; T_PackageVersion; T_PackageFileName; T_PackageSupplier; T_PackageOriginator;
   T_PackageDownloadLocation; T_FilesAnalyzed; T_PackageVerificationCode; T_PackageChecksum; T_PackageHomePage;
   T_PackageSourceInfo; T_PackageLicenseConcluded; T_PackageLicenseInfoFromFiles; T_PackageLicenseDeclared;
   T_PackageLicenseComments; T_PackageCopyrightText; T_PackageSummary; T_PackageDescription; T_PackageComment; T_ExternalRef;
   T_PackageAttributionText; T_PrimaryPackagePurpose; T_ReleaseDate; T_BuiltDate; T_ValidUntilDate].
Record SaysPackage (gs : list grp) (p : package) : Prop := {
  sp_only : Only package_tags gs;
  sp_id : LastId gs (pk_id p);
  sp_name : One SaysLine T_PackageName gs (pk_name p);
  sp_download : One SaysWord T_PackageDownloadLocation gs (pk_download p);
  sp_version : Optional SaysLine T_PackageVersion gs (pk_version p);
  sp_file_name : Optional SaysLine T_PackageFileName gs (pk_file_name p);
  sp_supplier : Optional SaysActorOrNot T_PackageSupplier gs (pk_supplier p);
  sp_originator : Optional SaysActorOrNot T_PackageOriginator gs (pk_originator p);
  sp_analyzed : Default SaysAnalyzed T_FilesAnalyzed gs true (pk_files_analyzed p);
  sp_verif : Optional SaysCode T_PackageVerificationCode gs (pk_verif p);
  sp_checksums : Each SaysChecksum T_PackageChecksum gs (pk_checksums p);
  sp_homepage : Optional SaysWord T_PackageHomePage gs (pk_homepage p);
  sp_source_info : Optional SaysText T_PackageSourceInfo gs (pk_source_info p);
  sp_concluded : Default SaysOptLicense T_PackageLicenseConcluded gs None (pk_concluded p);
  sp_info : Each SaysLicense T_PackageLicenseInfoFromFiles gs (pk_info p);
  sp_declared : Default SaysOptLicense T_PackageLicenseDeclared gs None (pk_declared p);
  sp_lic_comment : Optional SaysText T_PackageLicenseComments gs (pk_lic_comment p);
  sp_copyright : Optional SaysWord T_PackageCopyrightText gs (pk_copyright p);
  sp_summary : Optional SaysText T_PackageSummary gs (pk_summary p);
  sp_description : Optional SaysText T_PackageDescription gs (pk_description p);
  sp_comment : Optional SaysText T_PackageComment gs (pk_comment p);
  sp_refs : Each SaysRef T_ExternalRef gs (pk_refs p);
  sp_attribution : Each SaysText T_PackageAttributionText gs (pk_attribution p);
  sp_purpose : Optional SaysPurpose T_PrimaryPackagePurpose gs (pk_purpose p);
  sp_release : Optional SaysDate T_ReleaseDate gs (pk_release p);
  sp_built : Optional SaysDate T_BuiltDate gs (pk_built p);
  sp_valid : Optional SaysDate T_ValidUntilDate gs (pk_valid_until p) }.

Definition file_tags : list tag :=
  [T_FileName; T_SPDXID; T_FileChecksum; T_FileType; T_LicenseConcluded; T_LicenseInfoInFile; T_LicenseComments;
   T_FileCopyrightText; T_FileComment; T_FileNotice; T_FileContributor; T_FileAttributionText].
Record SaysFile (gs : list grp) (f : file) : Prop := {
  sf_only : Only file_tags gs;
  sf_name : One SaysLine T_FileName gs (fi_name f);
  sf_id : LastId gs (fi_id f);
  sf_checksums : Each SaysChecksum T_FileChecksum gs (fi_checksums f) /\ fi_checksums f <> [];
  sf_types : Each SaysFileType T_FileType gs (fi_types f);
  sf_concluded : Default SaysOptLicense T_LicenseConcluded gs None (fi_concluded f);
  sf_info : Each SaysLicense T_LicenseInfoInFile gs (fi_info f);
  sf_lic_comment : Optional SaysText T_LicenseComments gs (fi_lic_comment f);
  sf_copyright : Optional SaysWord T_FileCopyrightText gs (fi_copyright f);
  sf_comment : Optional SaysText T_FileComment gs (fi_comment f);
  sf_notice : Optional SaysText T_FileNotice gs (fi_notice f);
  sf_contributors : Each SaysLine T_FileContributor gs (fi_contributors f);
  sf_attribution : Each SaysText T_FileAttributionText gs (fi_attribution f) }.

Definition snippet_tags : list tag :=
  [T_SnippetSPDXID; T_SPDXID; T_SnippetFromFileSPDXID; T_SnippetByteRange; T_SnippetLineRange; T_SnippetLicenseConcluded;
   T_LicenseInfoInSnippet; T_SnippetLicenseComments; T_SnippetCopyrightText; T_SnippetComment; T_SnippetName;
   T_SnippetAttributionText].
Record SaysSnippet (gs : list grp) (s : snippet) : Prop := {
  ss_only : Only snippet_tags gs;
  ss_id : IdFrom T_SnippetSPDXID gs (sn_id s);
  ss_file : One SaysLine T_SnippetFromFileSPDXID gs (sn_file s);
  ss_bytes : One SaysRange T_SnippetByteRange gs (sn_bytes s);
  ss_lines : Optional SaysRange T_SnippetLineRange gs (sn_lines s);
  ss_concluded : Default SaysOptLicense T_SnippetLicenseConcluded gs None (sn_concluded s);
  ss_info : Each SaysLicense T_LicenseInfoInSnippet gs (sn_info s);
  ss_lic_comment : Optional SaysText T_SnippetLicenseComments gs (sn_lic_comment s);
  ss_copyright : Optional SaysWord T_SnippetCopyrightText gs (sn_copyright s);
  ss_comment : Optional SaysText T_SnippetComment gs (sn_comment s);
  ss_name : Optional SaysLine T_SnippetName gs (sn_name s);
  ss_attribution : Each SaysText T_SnippetAttributionText gs (sn_attribution s) }.

Definition annotation_tags : list tag :=
  [T_Annotator; T_SPDXID; T_AnnotationDate; T_AnnotationType; T_SPDXREF; T_AnnotationComment].
Record SaysAnnotation (gs : list grp) (a : annotation) : Prop := {
  sa_only : Only annotation_tags gs;
  sa_id : IdFrom T_SPDXREF gs (an_id a) \/ with_tag T_SPDXREF gs = [] /\ LastId gs (an_id a);
  sa_type : One SaysAnnotationType T_AnnotationType gs (an_type a);
  sa_annotator : One SaysActor T_Annotator gs (an_annotator a);
  sa_date : One SaysDate T_AnnotationDate gs (an_date a);
  sa_comment : One SaysText T_AnnotationComment gs (an_comment a) }.

Definition extracted_tags : list tag :=
  [T_LicenseID; T_ExtractedText; T_LicenseName; T_LicenseCrossReference; T_LicenseComment].
Record SaysExtracted (gs : list grp) (e : extracted) : Prop := {
  se_only : Only extracted_tags gs;
  se_id : exists s, el_id e = Some s /\ One SaysLine T_LicenseID gs s;
  se_text : Optional SaysText T_ExtractedText gs (el_text e);
  se_name : Optional SaysName T_LicenseName gs (el_name e);
  se_refs : Each SaysLine T_LicenseCrossReference gs (el_xrefs e);
  se_comment : Optional SaysText T_LicenseComment gs (el_comment e) }.

Inductive element :=
| E_Package (p : package) | E_File (f : file) | E_Snippet (s : snippet) | E_Annotation (a : annotation)
| E_Relationship (r : relationship) | E_Extracted (e : extracted).
Definition SaysElement (gs : list grp) (e : element) : Prop :=
  match e with
  | E_Package p => SaysPackage gs p
  | E_File f => SaysFile gs f
  | E_Snippet s => SaysSnippet gs s
  | E_Annotation a => SaysAnnotation gs a
  | E_Relationship r => exists g, gs = [g] /\ g_tag g = T_Relationship /\ SaysRelationship g r
  | E_Extracted e => SaysExtracted gs e
  end.

(** ** Blocks *)
Definition is_in (t : tag) (l : list tag) : bool := existsb (tag_eqb t) l.
(** all attributes except those of the document *)
Fixpoint without_first_id (gs : list grp) : list grp :=
  match gs with
  | [] => []
  | g :: gs' => if tag_eqb (g_tag g) T_SPDXID then gs' else g :: without_first_id gs'
  end.
Definition element_attributes (gs : list grp) : list grp :=
  filter (fun g => negb (is_in (g_tag g) creation_tags)) (without_first_id gs).
(** what comes before the first element, and the elements; each begins with one of the six start tags *)
Fixpoint blocks (gs : list grp) : list grp * list (list grp) :=
  match gs with
  | [] => ([], [])
  | g :: gs' =>
      let (before, bs) := blocks gs' in
      if is_in (g_tag g) start_tags then ([], (g :: before) :: bs) else (g :: before, bs)
  end.
(** further SPDXIDs before the first element count for that element *)
Definition element_blocks (gs : list grp) : list (list grp) :=
  match blocks (element_attributes gs) with
  | (before, b :: bs) => (before ++ b) :: bs
  | (_, []) => []
  end.

(** ** The relationships: those that are stated, and "the package contains the file" for a file that follows a package,
    unless that is already known *)
Definition contained (package_id file_id : pystr) : relationship :=
  {| re_id := package_id; re_type := RT_CONTAINS; re_related := NVal file_id; re_comment := None |}.
Inductive Gathered : option pystr -> list relationship -> list element -> list relationship -> Prop :=
| Ga_end owner l : Gathered owner l [] l
| Ga_package owner l p es r : Gathered (Some (pk_id p)) l es r -> Gathered owner l (E_Package p :: es) r
| Ga_stated owner l x es r : Gathered owner (l ++ [x]) es r -> Gathered owner l (E_Relationship x :: es) r
| Ga_alone l f es r : Gathered None l es r -> Gathered None l (E_File f :: es) r
| Ga_known o l f es r : In (contained o (fi_id f)) l -> Gathered (Some o) l es r -> Gathered (Some o) l (E_File f :: es) r
| Ga_new o l f es r : ~ In (contained o (fi_id f)) l -> Gathered (Some o) (l ++ [contained o (fi_id f)]) es r ->
    Gathered (Some o) l (E_File f :: es) r
| Ga_snippet owner l s es r : Gathered owner l es r -> Gathered owner l (E_Snippet s :: es) r
| Ga_annotation owner l a es r : Gathered owner l es r -> Gathered owner l (E_Annotation a :: es) r
| Ga_extracted owner l e es r : Gathered owner l es r -> Gathered owner l (E_Extracted e :: es) r.

Definition packages_of (es : list element) : list package := flat_map (fun e => match e with E_Package x => [x] | _ => [] end) es.
Definition files_of (es : list element) : list file := flat_map (fun e => match e with E_File x => [x] | _ => [] end) es.
Definition snippets_of (es : list element) : list snippet := flat_map (fun e => match e with E_Snippet x => [x] | _ => [] end) es.
Definition annotations_of (es : list element) : list annotation := flat_map (fun e => match e with E_Annotation x => [x] | _ => [] end) es.
Definition extracted_of (es : list element) : list extracted := flat_map (fun e => match e with E_Extracted x => [x] | _ => [] end) es.

(** ** The document *)
Record SaysDocument (gs : list grp) (d : document) : Prop := {
  sd_creation : SaysCreation gs (do_ci d);
  sd_before : Forall (fun g => g_tag g = T_SPDXID) (fst (blocks (element_attributes gs)));
  sd_elements : exists es, Forall2 SaysElement (element_blocks gs) es
    /\ do_packages d = packages_of es /\ do_files d = files_of es /\ do_snippets d = snippets_of es
    /\ do_annotations d = annotations_of es /\ do_extracted d = extracted_of es
    /\ Gathered None [] es (do_relationships d) }.
End WithOracles.
