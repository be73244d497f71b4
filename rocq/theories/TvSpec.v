(** Specifications for the tag-value format. *)
From Verif Require Import Py Data Oracles Basics BasicsSpec JsonSpec TvWriter.

(** ** Values *)
Definition CR : char := 13%N.

(** The words that are tags of the format, or NOASSERTION or NONE (section 6 of the SPDX specification lists them; the
    spelling is that of the reserved words of the reader). *)
Definition format_words : list pystr :=
  [ $"SPDXVersion"; $"DataLicense"; $"DocumentName"; $"SPDXID"; $"DocumentComment"; $"DocumentNamespace";
    $"ExternalDocumentRef"; $"Creator"; $"Created"; $"CreatorComment"; $"LicenseListVersion"; $"Annotator";
    $"AnnotationDate"; $"AnnotationComment"; $"AnnotationType"; $"SPDXREF"; $"Relationship"; $"RelationshipComment";
    $"PackageName"; $"PackageVersion"; $"PackageDownloadLocation"; $"FilesAnalyzed"; $"PackageSummary";
    $"PackageSourceInfo"; $"PackageFileName"; $"PackageSupplier"; $"PackageOriginator"; $"PackageChecksum";
    $"PackageVerificationCode"; $"PackageDescription"; $"PackageComment"; $"PackageLicenseDeclared";
    $"PackageLicenseConcluded"; $"PackageLicenseInfoFromFiles"; $"PackageLicenseComments"; $"PackageCopyrightText";
    $"PackageHomePage"; $"ExternalRef"; $"ExternalRefComment"; $"PackageAttributionText"; $"PrimaryPackagePurpose";
    $"BuiltDate"; $"ReleaseDate"; $"ValidUntilDate"; $"FileName"; $"FileType"; $"FileChecksum"; $"LicenseConcluded";
    $"LicenseInfoInFile"; $"FileCopyrightText"; $"LicenseComments"; $"FileComment"; $"FileNotice"; $"FileContributor";
    $"FileAttributionText"; $"LicenseID"; $"ExtractedText"; $"LicenseName"; $"LicenseCrossReference"; $"LicenseComment";
    $"SnippetSPDXID"; $"SnippetName"; $"SnippetComment"; $"SnippetCopyrightText"; $"SnippetLicenseComments";
    $"SnippetFromFileSPDXID"; $"SnippetLicenseConcluded"; $"LicenseInfoInSnippet"; $"SnippetAttributionText";
    $"SnippetByteRange"; $"SnippetLineRange"; $"NOASSERTION"; $"NONE" ].
(** beginnings of values that the format gives a meaning of its own *)
Definition special_prefixes : list pystr :=
  [ $"<text>"; $"Tool:"; $"Organization:"; $"Person:"; $"ADLER32:"; $"BLAKE2b-256:"; $"BLAKE2b-384:"; $"BLAKE2b-512:";
    $"BLAKE3:"; $"MD2:"; $"MD4:"; $"MD5:"; $"MD6:"; $"SHA1:"; $"SHA224:"; $"SHA256:"; $"SHA384:"; $"SHA512:";
    $"SHA3-256:"; $"SHA3-384:"; $"SHA3-512:" ].
(** s starts like a timestamp: in the shape, "0" stands for any digit *)
Fixpoint begins_like (shape s : pystr) : bool :=
  match shape, s with
  | [], _ => true
  | x :: shape', c :: s' => (if N.eqb x #"0" then is_digit c else N.eqb x c) && begins_like shape' s'
  | _ :: _, [] => false
  end.
Definition stamp_shape : pystr := $"0000-00-00T00:00:00Z".
(** s has a meaning of its own when it is the value of a tag *)
Definition special (s : pystr) : bool :=
  str_in s format_words || existsb (fun p => startswith p s) special_prefixes || begins_like stamp_shape s.

(** a plain one-line value; the name of a kind of actor without anything after it is one, too *)
Definition Line (s : pystr) : Prop :=
  ~ In LF s /\ ~ In CR s /\ strip s = s /\ (special s = false \/ In s [$"Tool:"; $"Organization:"; $"Person:"]).
(** a word that could be a tag but is none; the names of the kinds of actor are excluded, since a line that begins with them can be the value of the tag
    before *)
Definition UnknownTag (w : pystr) : Prop :=
  w <> [] /\ forallb is_alpha w = true /\ ~ In w format_words /\ ~ In w [$"Tool"; $"Organization"; $"Person"].
(** a text of one or several lines; where only text is expected, the two reserved words are texts too *)
Definition Text (s : pystr) : Prop :=
  Line s \/ In s [$"NOASSERTION"; $"NONE"] \/ (In LF s /\ ~ In CR s /\ contains $"</text>" s = false).
(** a non-empty value without white space *)
Definition Unspaced (s : pystr) : Prop := s <> [] /\ forall c, In c s -> is_space c = false.
(** lower-case hexadecimal digits *)
Definition hex (c : char) : bool := ((48 <=? c) && (c <=? 57) || (97 <=? c) && (c <=? 102))%N.
Definition Hex (s : pystr) : Prop := s <> [] /\ forallb hex s = true.

(** ** Documents that survive the tag-value form *)
Definition TvLine (x : nn pystr) : Prop := match x with NVal s => Line s | _ => True end.
Definition TvText (x : nn pystr) : Prop := match x with NVal s => Text s /\ s <> $"NOASSERTION" /\ s <> $"NONE" | _ => True end.
Definition TvLicense (O : oracles) (l : license) : Prop :=
  match l with
  | NVal e => o_lic_parse O (o_lic_str O e) = Ok e /\ Line (o_lic_str O e) /\ o_lic_str O e <> []
  | _ => True
  end.
Definition TvActor (a : actor) : Prop := ReadableActor a /\ ~ In CR (ac_name a) /\ IfSome (fun e => ~ In CR e) (ac_email a).
Definition TvActorNA (x : na actor) : Prop := match x with AVal a => TvActor a /\ ac_type a <> AT_TOOL | _ => True end.
Definition TvChecksum (c : checksum) : Prop := Hex (ck_value c).
(** external documents are only read back with a SHA1 checksum *)
Record TvDocRef (r : ext_doc_ref) : Prop := {
  tr_id : Unspaced (edr_id r) /\ special (edr_id r) = false;
  tr_uri : Unspaced (edr_uri r);
  tr_alg : ck_alg (edr_checksum r) = CA_SHA1;
  tr_hash : Hex (ck_value (edr_checksum r)) /\ List.length (ck_value (edr_checksum r)) = 40 }.
(** a verification code excludes at most one file *)
Definition TvVerif (v : verif_code) : Prop :=
  Hex (vc_value v) /\ List.length (vc_value v) = 40
  /\ match vc_excluded v with
     | [] => True
     | [x] => (exists c t, x = c :: t /\ is_space c = false) /\ ~ In LF x /\ ~ In CR x /\ ~ In #"," x
     | _ => False
     end.
Record TvExtRef (r : ext_pkg_ref) : Prop := {
  te_type : Unspaced (er_type r);
  te_locator : Unspaced (er_locator r);
  te_comment : IfSome Text (er_comment r) /\ er_comment r <> Some [] }.

Record TvPackage (O : oracles) (p : package) : Prop := {
  tp_id : Line (pk_id p) /\ special (pk_id p) = false;
  tp_name : Line (pk_name p);
  tp_download : TvLine (pk_download p);
  tp_version : IfSome Line (pk_version p);
  tp_file_name : IfSome Line (pk_file_name p);
  tp_supplier : IfSome TvActorNA (pk_supplier p);
  tp_originator : IfSome TvActorNA (pk_originator p);
  tp_verif : IfSome TvVerif (pk_verif p);
  tp_checksums : Forall TvChecksum (pk_checksums p);
  tp_homepage : IfSome TvLine (pk_homepage p);
  tp_source_info : IfSome Text (pk_source_info p);
  tp_concluded : IfSome (TvLicense O) (pk_concluded p);
  tp_info : Forall (TvLicense O) (pk_info p);
  tp_declared : IfSome (TvLicense O) (pk_declared p);
  tp_lic_comment : IfSome Text (pk_lic_comment p);
  tp_copyright : IfSome TvText (pk_copyright p);
  tp_summary : IfSome Text (pk_summary p);
  tp_description : IfSome Text (pk_description p);
  tp_comment : IfSome Text (pk_comment p);
  tp_refs : Forall TvExtRef (pk_refs p);
  tp_attribution : Forall Text (pk_attribution p);
  tp_release : IfSome PlainDate (pk_release p);
  tp_built : IfSome PlainDate (pk_built p);
  tp_valid : IfSome PlainDate (pk_valid_until p) }.
Record TvFile (O : oracles) (f : file) : Prop := {
  tf_name : Line (fi_name f);
  tf_id : Line (fi_id f) /\ special (fi_id f) = false;
  tf_some : fi_checksums f <> [];
  tf_checksums : Forall TvChecksum (fi_checksums f);
  tf_concluded : IfSome (TvLicense O) (fi_concluded f);
  tf_info : Forall (TvLicense O) (fi_info f);
  tf_lic_comment : IfSome Text (fi_lic_comment f);
  tf_copyright : IfSome TvText (fi_copyright f);
  tf_comment : IfSome Text (fi_comment f);
  tf_notice : IfSome Text (fi_notice f);
  tf_contributors : Forall Line (fi_contributors f);
  tf_attribution : Forall Text (fi_attribution f) }.
Record TvSnippet (O : oracles) (s : snippet) : Prop := {
  ts_id : Line (sn_id s);
  ts_file : Line (sn_file s);
  ts_bytes : (0 <= fst (sn_bytes s) /\ 0 <= snd (sn_bytes s))%Z;
  ts_lines : IfSome (fun r => (0 <= fst r /\ 0 <= snd r)%Z) (sn_lines s);
  ts_concluded : IfSome (TvLicense O) (sn_concluded s);
  ts_info : Forall (TvLicense O) (sn_info s);
  ts_lic_comment : IfSome Text (sn_lic_comment s);
  ts_copyright : IfSome TvText (sn_copyright s);
  ts_comment : IfSome Text (sn_comment s);
  ts_name : IfSome Line (sn_name s);
  ts_attribution : Forall Text (sn_attribution s) }.
Record TvAnnotation (a : annotation) : Prop := {
  ta_id : Line (an_id a);
  ta_annotator : TvActor (an_annotator a);
  ta_date : PlainDate (an_date a);
  ta_comment : Text (an_comment a) }.
Record TvRelationship (r : relationship) : Prop := {
  tl_id : Unspaced (re_id r) /\ special (re_id r) = false;
  tl_related : match re_related r with NVal s => Unspaced s /\ s <> $"NONE" /\ s <> $"NOASSERTION" | _ => True end;
  tl_comment : IfSome Text (re_comment r) }.
Record TvExtracted (e : extracted) : Prop := {
  tx_id : exists id, el_id e = Some id /\ Line id;
  tx_text : IfSome Text (el_text e);
  tx_name : IfSome (fun x => match x with AVal s => Line s | _ => True end) (el_name e);
  tx_xrefs : Forall Line (el_xrefs e);
  tx_comment : IfSome Text (el_comment e) }.
Record TvCreationInfo (c : creation_info) : Prop := {
  tc_version : Line (ci_version c);
  tc_license : Line (ci_data_license c);
  tc_id : Line (ci_id c);
  tc_name : Line (ci_name c);
  tc_namespace : Line (ci_namespace c);
  tc_doc_comment : IfSome Text (ci_doc_comment c);
  tc_refs : Forall TvDocRef (ci_refs c);
  tc_some : ci_creators c <> [];
  tc_creators : Forall TvActor (ci_creators c);
  tc_created : PlainDate (ci_created c);
  tc_creator_comment : IfSome Text (ci_creator_comment c) }.

(** r says that a package contains a file; with the direction CONTAINED_BY it is turned around *)
Definition is_package (d : document) (id : pystr) : bool := str_in id (map pk_id (do_packages d)).
Definition is_file (d : document) (id : pystr) : bool := str_in id (map fi_id (do_files d)).
Definition packs (d : document) (r : relationship) : bool :=
  match re_type r, re_related r with
  | RT_CONTAINS, NVal x => is_package d (re_id r) && is_file d x
  | RT_CONTAINED_BY, NVal x => is_package d x && is_file d (re_id r)
  | _, _ => false
  end.
Definition turned (d : document) (r : relationship) : relationship :=
  match re_type r, re_related r with
  | RT_CONTAINED_BY, NVal x =>
      if packs d r then {| re_id := x; re_type := RT_CONTAINS; re_related := NVal (re_id r); re_comment := re_comment r |}
      else r
  | _, _ => r
  end.

(** what the relationship r says about a package and a file of d, without a comment *)
Definition plain (d : document) (r : relationship) : relationship :=
  {| re_id := re_id (turned d r); re_type := re_type (turned d r); re_related := re_related (turned d r); re_comment := None |}.
(** how the relationship r is expressed: by the place of a file, or by a section; both if it has a comment *)
Definition expressed (d : document) (r : relationship) : list relationship :=
  if packs d r then plain d r :: (if truthy_opt (re_comment r) then [r] else []) else [r].

Record TvDocument (O : oracles) (d : document) : Prop := {
  td_ci : TvCreationInfo (do_ci d);
  td_packages : Forall (TvPackage O) (do_packages d);
  td_files : Forall (TvFile O) (do_files d);
  td_snippets : Forall (TvSnippet O) (do_snippets d);
  td_annotations : Forall TvAnnotation (do_annotations d);
  td_relationships : Forall TvRelationship (do_relationships d);
  td_extracted : Forall TvExtracted (do_extracted d);
  td_distinct : NoDup (element_ids d) }.

(** ** What comes back *)
(** the same file, the contributors possibly in another order *)
Definition SameFile (f g : file) : Prop :=
  exists l, Permutation (fi_contributors f) l
    /\ g = {| fi_name := fi_name f; fi_id := fi_id f; fi_checksums := fi_checksums f; fi_types := fi_types f;
              fi_concluded := fi_concluded f; fi_info := fi_info f; fi_lic_comment := fi_lic_comment f;
              fi_copyright := fi_copyright f; fi_comment := fi_comment f; fi_notice := fi_notice f;
              fi_contributors := l; fi_attribution := fi_attribution f |}.
(** the same license text, the references possibly in another order *)
Definition SameExtracted (e g : extracted) : Prop :=
  exists l, Permutation (el_xrefs e) l
    /\ g = {| el_id := el_id e; el_text := el_text e; el_name := el_name e; el_xrefs := l; el_comment := el_comment e |}.
Record TvSame (d d' : document) : Prop := {
  sd_ci : do_ci d' = do_ci d;
  sd_packages : do_packages d' = do_packages d;
  sd_files : exists fs, Permutation (do_files d) fs /\ Forall2 SameFile fs (do_files d');
  sd_snippets : Permutation (do_snippets d) (do_snippets d');
  sd_annotations : do_annotations d' = do_annotations d;
  sd_relationships : Permutation (flat_map (expressed d) (do_relationships d)) (do_relationships d');
  sd_extracted : Forall2 SameExtracted (do_extracted d) (do_extracted d') }.

(** ** The sections of a tag-value file *)
Inductive part :=
| PDocument (c : creation_info) | PPackage (p : package) | PFile (f : file) | PSnippet (s : snippet)
| PExtracted (e : extracted) | PRelationship (r : relationship) | PAnnotation (a : annotation).
(** the text of a section *)
Definition part_text (O : oracles) (x : part) : result pystr :=
  match x with
  | PDocument c => write_creation_info c
  | PPackage p => write_package O p
  | PFile f => write_file O f
  | PSnippet s => write_snippet O s
  | PExtracted e => write_extracted_licensing_info e
  | PRelationship r => write_relationship r
  | PAnnotation a => write_annotation a
  end.
(** an empty line or a comment line *)
Definition Filler (s : pystr) : Prop := s = [LF] \/ exists u, s = $"##" ++ u ++ [LF] /\ ~ In LF u.
(** a text that consists of the given sections, between empty lines and comments *)
Inductive Layout (O : oracles) : pystr -> list part -> Prop :=
| Layout_nil : Layout O [] []
| Layout_filler s text l : Filler s -> Layout O text l -> Layout O (s ++ text) l
| Layout_part x s text l : part_text O x = Ok s -> Layout O text l -> Layout O (s ++ text) (x :: l).
Definition packages_of (l : list part) : list package := flat_map (fun x => match x with PPackage p => [p] | _ => [] end) l.
Definition files_of (l : list part) : list file := flat_map (fun x => match x with PFile f => [f] | _ => [] end) l.
Definition snippets_of (l : list part) : list snippet := flat_map (fun x => match x with PSnippet s => [s] | _ => [] end) l.
Definition relationships_of (l : list part) : list relationship := flat_map (fun x => match x with PRelationship r => [r] | _ => [] end) l.
Definition extracted_of (l : list part) : list extracted := flat_map (fun x => match x with PExtracted e => [e] | _ => [] end) l.
Definition annotations_of (l : list part) : list annotation := flat_map (fun x => match x with PAnnotation a => [a] | _ => [] end) l.
Definition documents_of (l : list part) : list creation_info := flat_map (fun x => match x with PDocument c => [c] | _ => [] end) l.
(** a file section belongs to the package whose section it follows *)
Definition contains_rel (p : package) (f : file) : relationship :=
  {| re_id := pk_id p; re_type := RT_CONTAINS; re_related := NVal (fi_id f); re_comment := None |}.
Fixpoint placed (last : option package) (l : list part) : list relationship :=
  match l with
  | [] => []
  | PPackage p :: l' => placed (Some p) l'
  | PFile f :: l' => match last with Some p => [contains_rel p f] | None => [] end ++ placed last l'
  | _ :: l' => placed last l'
  end.
(** every snippet of one of the files with the given ids follows the section of its file, with nothing but other
    snippets in between *)
Fixpoint snippets_in_place (ids : list pystr) (last : option file) (l : list part) : Prop :=
  match l with
  | [] => True
  | PFile f :: l' => snippets_in_place ids (Some f) l'
  | PSnippet s :: l' =>
      match last with Some f => sn_file s = fi_id f | None => ~ In (sn_file s) ids end /\ snippets_in_place ids last l'
  | _ :: l' => snippets_in_place ids None l'
  end.
