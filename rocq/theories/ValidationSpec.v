(** What it means for an SPDX document to be well formed, stated without reference to the validators.

    All patterns of the code end in [$], which in Python also matches before one final line feed;
    [modulo_final_LF] records that tolerance wherever it applies. *)
From Verif Require Import Py Data Oracles.
From Coq Require Import Sorting.Permutation.

Definition modulo_final_LF (P : pystr -> Prop) (s : pystr) : Prop := P s \/ exists t, s = t ++ [LF] /\ P t.

(** ** Characters *)
Definition LowerHex (c : char) : Prop := (48 <= c <= 57)%N \/ (97 <= c <= 102)%N.            (* 0-9 a-f *)
Definition AnyHex (c : char) : Prop := LowerHex c \/ (65 <= c <= 70)%N.                      (* 0-9 a-f A-F *)
Definition Letter (c : char) : Prop := (65 <= c <= 90)%N \/ (97 <= c <= 122)%N.              (* A-Z a-z *)
Definition Digit (c : char) : Prop := (48 <= c <= 57)%N.                                     (* 0-9 *)
Definition UnicodeDigit (c : char) : Prop := digit_val c <> None.                            (* \d *)
Definition Is (l : pystr) (c : char) : Prop := In c l.

(** ** Checksums: the number of digits each algorithm prescribes *)
Inductive count := Exactly (n : nat) | AtLeast (n : nat) | AtMost (n : nat).
Definition Counts (k : count) (n : nat) : Prop :=
  match k with Exactly m => n = m | AtLeast m => m <= n | AtMost m => n <= m end.
Definition digest_digits (a : checksum_alg) : count :=
  match a with
  | CA_ADLER32 => Exactly 8
  | CA_MD2 | CA_MD4 | CA_MD5 => Exactly 32
  | CA_SHA1 => Exactly 40
  | CA_SHA224 => Exactly 56
  | CA_SHA256 | CA_SHA3_256 | CA_BLAKE2B_256 => Exactly 64
  | CA_SHA384 | CA_SHA3_384 | CA_BLAKE2B_384 => Exactly 96
  | CA_SHA512 | CA_SHA3_512 | CA_BLAKE2B_512 => Exactly 128
  | CA_BLAKE3 => AtLeast 256
  | CA_MD6 => AtMost 512
  end.
Definition Digest (k : count) (s : pystr) : Prop := Forall LowerHex s /\ Counts k (List.length s).
Definition ValidDigest (a : checksum_alg) : pystr -> Prop := modulo_final_LF (Digest (digest_digits a)).
(** The algorithms introduced by SPDX 2.3 *)
Definition NewAlgorithm (a : checksum_alg) : Prop :=
  In a [CA_SHA3_256; CA_SHA3_384; CA_SHA3_512; CA_BLAKE2B_256; CA_BLAKE2B_384; CA_BLAKE2B_512; CA_BLAKE3; CA_ADLER32].
Definition ValidChecksum (v : pystr) (c : checksum) : Prop :=
  (v = $"SPDX-2.2" -> ~ NewAlgorithm (ck_alg c)) /\ ValidDigest (ck_alg c) (ck_value c).

(** ** Identifiers *)
Definition Prefixed (prefix : pystr) (P : char -> Prop) (s : pystr) : Prop :=
  exists t, s = prefix ++ t /\ t <> [] /\ Forall P t.
Definition IdChar (c : char) : Prop := Letter c \/ UnicodeDigit c \/ Is $".-" c.
Definition DocRefChar (c : char) : Prop := IdChar c \/ Is $"+" c.
Definition InternalId : pystr -> Prop := modulo_final_LF (Prefixed $"SPDXRef-" IdChar).
Definition DocRefId : pystr -> Prop := modulo_final_LF (Prefixed $"DocumentRef-" DocRefChar).
Definition LicenseRefId : pystr -> Prop := modulo_final_LF (Prefixed $"LicenseRef-" IdChar).

Definition external_ids (d : document) : list pystr := map edr_id (ci_refs (do_ci d)).
(** ids of the document, its files, packages and snippets *)
Definition all_ids (d : document) : list pystr :=
  ci_id (do_ci d) :: map fi_id (do_files d) ++ map pk_id (do_packages d) ++ map sn_id (do_snippets d).

(** "DocumentRef-x:SPDXRef-y" naming a listed external document *)
Definition ExternalId (d : document) (id : pystr) : Prop :=
  exists a b, id = a ++ $":" ++ b /\ DocRefId a /\ InternalId b /\ In a (external_ids d).
Definition ElementId (d : document) (id : pystr) : Prop := InternalId id \/ ExternalId d id.
(** a reference to an element of this document or of a listed external one *)
Definition Resolves (d : document) (id : pystr) : Prop := (InternalId id /\ In id (all_ids d)) \/ ExternalId d id.
(** a reference to a file *)
Definition ResolvesToFile (d : document) (id : pystr) : Prop :=
  (InternalId id /\ In id (map fi_id (do_files d))) \/ ExternalId d id.

(** ** URLs (letter case is ignored; re.IGNORECASE identifies a few non-ASCII characters with i, s and k) *)
Definition UrlLetter (c : char) : Prop := Letter c \/ In c [304; 305; 383; 8490]%N.
Definition UrlAlnum (c : char) : Prop := UrlLetter c \/ Digit c.
Definition SameLetter (c x : char) : Prop :=
  loc x = loc c \/ (loc c = #"i" /\ In x [304; 305]%N) \/ (loc c = #"s" /\ x = 383%N) \/ (loc c = #"k" /\ x = 8490%N).
(** equal up to letter case *)
Definition SameWord (w s : pystr) : Prop := Forall2 SameLetter w s.
Definition url_schemes : list pystr :=
  [$"http://www."; $"https://www."; $"http://"; $"https://"; $"ssh://"; $"git://"; $"svn://"; $"sftp://"; $"ftp://"].
Definition Scheme (s : pystr) : Prop := s = [] \/ exists w, In w url_schemes /\ SameWord w s.
Definition UserInfo (s : pystr) : Prop :=
  s = [] \/ exists t, s = t ++ $"@" /\ t <> [] /\ Forall (fun c => is_word c = true \/ Is $"-.!~*'()%;:&=+$," c) t.
(** labels separated by single '.' or '-', at most 101 of them *)
Definition Label (s : pystr) : Prop := s <> [] /\ Forall UrlAlnum s.
Definition Host (s : pystr) : Prop :=
  exists l ls, Label l /\ List.length ls <= 100
               /\ Forall (fun x => exists c w, x = c :: w /\ Is $"-." c /\ Label w) ls /\ s = l ++ List.concat ls.
Definition TopLevel (s : pystr) : Prop := Forall UrlLetter s /\ 2 <= List.length s <= 5.
Definition Port (s : pystr) : Prop := s = [] \/ exists t, s = $":" ++ t /\ Forall Digit t /\ 1 <= List.length t <= 5.
Definition Path (s : pystr) : Prop := s = [] \/ exists t, s = $"/" ++ t /\ ~ In LF t.
Definition FullUrl (s : pystr) : Prop :=
  exists scheme user host top port path,
    Scheme scheme /\ UserInfo user /\ Host host /\ TopLevel top /\ Port port /\ Path path
    /\ s = scheme ++ user ++ host ++ $"." ++ top ++ port ++ path.
(** What the code checks of a URL: only a prefix, i.e. scheme, user info and host up to two letters of the top level
    domain; anything may follow. *)
Definition UrlPrefix (s : pystr) : Prop :=
  exists scheme user host top rest,
    Scheme scheme /\ UserInfo user /\ Host host /\ TopLevel top
    /\ s = scheme ++ user ++ host ++ $"." ++ top ++ rest.
Definition RepoLocation (s : pystr) : Prop :=
  (exists repo url, s = repo ++ $"+" ++ url /\ (exists w, In w [$"git"; $"hg"; $"svn"; $"bzr"] /\ SameWord w repo) /\ FullUrl url)
  \/ (exists p a b, s = p ++ a ++ $":" ++ b /\ SameWord $"git+git@" p
        /\ a <> [] /\ Forall (fun c => UrlAlnum c \/ Is $".-" c) a
        /\ b <> [] /\ Forall (fun c => UrlAlnum c \/ Is $"/\.@-" c) b)
  \/ (exists p a, s = p ++ a /\ SameWord $"bzr+lp:" p /\ a <> [] /\ Forall (fun c => UrlAlnum c \/ Is $".-" c) a).
Definition DownloadLocation (s : pystr) : Prop := UrlPrefix s \/ modulo_final_LF RepoLocation s.

Section WithOracles.
Variable O : oracles.
Definition ValidUri (s : pystr) : Prop := o_isabsuri O s = true /\ o_has_scheme O s = true.

(** ** External package references *)
Definition NoColonPart (c : char) (s : pystr) : Prop := s <> [] /\ ~ In c s.
Definition Cpe22 (s : pystr) : Prop :=
  exists p e part fields, s = $"c" ++ [p; e] ++ $":/" ++ part ++ List.concat fields
    /\ Is $"pP" p /\ Is $"eE" e /\ (part = [] \/ exists c, part = [c] /\ Is $"AHOaho" c)
    /\ List.length fields <= 6
    /\ Forall (fun f => exists w, f = $":" ++ w /\ Forall (fun c => Letter c \/ Digit c \/ Is $"._-~%" c) w) fields.
Definition CpeEscapable (c : char) : Prop := c = 34%N \/ Is $"\*?!#$%&'()+,/:;<=>@[]^`{|}~" c.
(** one or more plain or escaped characters *)
Inductive CpeBody : pystr -> Prop :=
| CpePlain : forall c, Letter c \/ Digit c \/ Is $"-._" c -> CpeBody [c]
| CpeEsc : forall c, CpeEscapable c -> CpeBody [#"\"; c]
| CpeMore : forall a b, CpeBody a -> CpeBody b -> CpeBody (a ++ b).
Definition CpeWild (s : pystr) : Prop := Forall (eq #"?") s \/ s = $"*".
Definition CpeComponent (s : pystr) : Prop :=
  s = $"*" \/ s = $"-" \/ exists a b c, s = a ++ b ++ c /\ CpeWild a /\ CpeBody b /\ CpeWild c.
Definition CpeLanguage (s : pystr) : Prop :=
  s = $"*" \/ s = $"-"
  \/ exists a b, s = a ++ b /\ Forall Letter a /\ 2 <= List.length a <= 3
       /\ (b = [] \/ exists t, b = $"-" ++ t
             /\ ((Forall Letter t /\ List.length t = 2) \/ (Forall Digit t /\ List.length t = 3))).
Definition Cpe23 (s : pystr) : Prop :=
  exists part l1 lang l2, s = $"cpe:2.3:" ++ [part] ++ List.concat l1 ++ $":" ++ lang ++ List.concat l2
    /\ Is $"aho*-" part /\ List.length l1 = 5 /\ List.length l2 = 4 /\ CpeLanguage lang
    /\ Forall (fun f => exists w, f = $":" ++ w /\ CpeComponent w) (l1 ++ l2).
Definition Maven (s : pystr) : Prop :=
  exists a b rest, s = a ++ $":" ++ b ++ rest /\ NoColonPart #":" a /\ NoColonPart #":" b
    /\ (rest = [] \/ exists c, rest = $":" ++ c /\ NoColonPart #":" c).
Definition TwoParts (c : char) (s : pystr) : Prop :=
  exists a b, s = a ++ [c] ++ b /\ NoColonPart c a /\ NoColonPart c b.
(** "pkg:", at least one character, "/", at least one character; no line feed *)
Definition Purl (s : pystr) : Prop :=
  exists a b, s = $"pkg:" ++ a ++ $"/" ++ b /\ a <> [] /\ b <> [] /\ ~ In LF (a ++ b).
Definition Swh (s : pystr) : Prop :=
  exists k h, s = $"swh:1:" ++ k ++ $":" ++ h /\ In k [$"snp"; $"rel"; $"rev"; $"dir"; $"cnt"]
    /\ Forall AnyHex h /\ List.length h = 40.
Definition Gitoid (s : pystr) : Prop :=
  exists k a h, s = $"gitoid:" ++ k ++ $":" ++ a ++ h /\ In k [$"blob"; $"tree"; $"commit"; $"tag"]
    /\ Forall AnyHex h
    /\ ((a = $"sha1:" /\ List.length h = 40) \/ (a = $"sha256:" /\ List.length h = 64)).

(** The reference types of each category and the locator syntax of each type *)
Inductive LocatorSyntax : ref_category -> pystr -> pystr -> Prop :=
| L_cpe22 : forall s, modulo_final_LF Cpe22 s -> LocatorSyntax RC_SECURITY $"cpe22Type" s
| L_cpe23 : forall s, modulo_final_LF Cpe23 s -> LocatorSyntax RC_SECURITY $"cpe23Type" s
| L_advisory : forall s, UrlPrefix s -> LocatorSyntax RC_SECURITY $"advisory" s
| L_fix : forall s, UrlPrefix s -> LocatorSyntax RC_SECURITY $"fix" s
| L_url : forall s, UrlPrefix s -> LocatorSyntax RC_SECURITY $"url" s
| L_swid : forall s, o_isuri O s = true -> (exists t, s = $"swid" ++ t) -> LocatorSyntax RC_SECURITY $"swid" s
| L_maven : forall s, modulo_final_LF Maven s -> LocatorSyntax RC_PACKAGE_MANAGER $"maven-central" s
| L_npm : forall s, modulo_final_LF (TwoParts #"@") s -> LocatorSyntax RC_PACKAGE_MANAGER $"npm" s
| L_nuget : forall s, modulo_final_LF (TwoParts #"/") s -> LocatorSyntax RC_PACKAGE_MANAGER $"nuget" s
| L_bower : forall s, modulo_final_LF (TwoParts #"#") s -> LocatorSyntax RC_PACKAGE_MANAGER $"bower" s
| L_purl : forall s, modulo_final_LF Purl s -> LocatorSyntax RC_PACKAGE_MANAGER $"purl" s
| L_swh : forall s, modulo_final_LF Swh s -> LocatorSyntax RC_PERSISTENT_ID $"swh" s
| L_gitoid : forall s, modulo_final_LF Gitoid s -> LocatorSyntax RC_PERSISTENT_ID $"gitoid" s
| L_other : forall ty s, ~ In #" " s -> LocatorSyntax RC_OTHER ty s.
(** reference types introduced by SPDX 2.3 *)
Definition NewRefType (r : ext_pkg_ref) : Prop :=
  er_category r <> RC_OTHER /\ In (er_type r) [$"advisory"; $"fix"; $"url"; $"swid"].
Definition ValidPkgRef (v : pystr) (r : ext_pkg_ref) : Prop :=
  (v = $"SPDX-2.2" -> ~ NewRefType r) /\ LocatorSyntax (er_category r) (er_type r) (er_locator r).

(** ** License expressions: every symbol the license list does not know is defined by the document or belongs to a
    listed external document, and licenses and exceptions are not mixed up. *)
Definition KnownSymbol (d : document) (t : pystr) : Prop :=
  (~ In #":" t /\ In (Some t) (map el_id (do_extracted d)))
  \/ exists a b, t = a ++ $":" ++ $"LicenseRef-" ++ b /\ ~ In #":" a /\ ~ In #":" b /\ In a (external_ids d).
Definition ValidExpression (d : document) (e : lexpr) : Prop :=
  Forall (KnownSymbol d) (o_invalid_symbols O e) /\ o_strict_parse_error O e = None.
Definition ValidLicense (d : document) (l : license) : Prop := forall e, l = NVal e -> ValidExpression d e.
Definition ValidLicenseOpt (d : document) (o : option license) : Prop := forall l, o = Some l -> ValidLicense d l.

(** ** The parts of a document *)
Definition ValidActor (a : actor) : Prop := ac_type a = AT_TOOL -> ac_email a = None.
Definition ValidExtDocRef (v : pystr) (r : ext_doc_ref) : Prop :=
  DocRefId (edr_id r) /\ ValidUri (edr_uri r) /\ ValidChecksum v (edr_checksum r).
Definition ValidCreationInfo (v : pystr) (c : creation_info) : Prop :=
  ci_id c = $"SPDXRef-DOCUMENT" /\ ci_data_license c = $"CC0-1.0" /\ ValidUri (ci_namespace c)
  /\ Forall ValidActor (ci_creators c) /\ Forall (ValidExtDocRef v) (ci_refs c).

Definition RelativePath (s : pystr) : Prop := ~ exists t, s = $"/" ++ t.
Definition ValidVerificationCode (c : verif_code) : Prop :=
  Forall RelativePath (vc_excluded c) /\ modulo_final_LF (Digest (Exactly 40)) (vc_value c).

(** i is the id of a file and of no package *)
Definition IsFileId (d : document) (i : pystr) : Prop :=
  In i (map fi_id (do_files d)) /\ ~ In i (map pk_id (do_packages d)).
(** the document relates package id [p] to a file it contains *)
Definition ContainsAFile (d : document) (p : pystr) : Prop :=
  exists r i, In r (do_relationships d) /\ IsFileId d i
    /\ ((re_type r = RT_CONTAINS /\ re_id r = p /\ re_related r = NVal i)
        \/ (re_type r = RT_CONTAINED_BY /\ re_id r = i /\ re_related r = NVal p)).

Definition Mandatory22 (v : pystr) {A} (o : option A) : Prop := v = $"SPDX-2.2" -> o <> None.
Definition NotIn22 (v : pystr) {A} (o : option A) : Prop := v = $"SPDX-2.2" -> o = None.

Record ValidPackage (v : pystr) (d : document) (p : package) : Prop := {
  vp_id : ElementId d (pk_id p);
  vp_download : forall u, pk_download p = NVal u -> DownloadLocation u;
  vp_homepage : forall u, pk_homepage p = Some (NVal u) -> UrlPrefix u;
  vp_not_analyzed : pk_files_analyzed p = false ->
                    pk_verif p = None /\ pk_info p = [] /\ ~ ContainsAFile d (pk_id p);
  vp_verif : forall c, pk_verif p = Some c -> ValidVerificationCode c;
  vp_checksums : Forall (ValidChecksum v) (pk_checksums p);
  vp_refs : Forall (ValidPkgRef v) (pk_refs p);
  vp_concluded : ValidLicenseOpt d (pk_concluded p);
  vp_info : Forall (ValidLicense d) (pk_info p);
  vp_declared : ValidLicenseOpt d (pk_declared p);
  vp_22_absent : NotIn22 v (pk_purpose p) /\ NotIn22 v (pk_built p) /\ NotIn22 v (pk_release p)
                 /\ NotIn22 v (pk_valid_until p);
  vp_22_present : Mandatory22 v (pk_concluded p) /\ Mandatory22 v (pk_declared p) /\ Mandatory22 v (pk_copyright p)
}.

Record ValidFile (v : pystr) (d : document) (f : file) : Prop := {
  vf_id : ElementId d (fi_id f);
  vf_name : RelativePath (fi_name f);
  vf_sha1 : exists c, In c (fi_checksums f) /\ ck_alg c = CA_SHA1;
  vf_checksums : Forall (ValidChecksum v) (fi_checksums f);
  vf_concluded : ValidLicenseOpt d (fi_concluded f);
  vf_info : Forall (ValidLicense d) (fi_info f);
  vf_22_present : Mandatory22 v (fi_concluded f) /\ (v = $"SPDX-2.2" -> fi_info f <> []) /\ Mandatory22 v (fi_copyright f)
}.

Definition ValidRange (r : Z * Z) : Prop := (1 <= fst r <= snd r)%Z.
Record ValidSnippet (v : pystr) (d : document) (s : snippet) : Prop := {
  vs_id : ElementId d (sn_id s);
  vs_file : ResolvesToFile d (sn_file s);
  vs_bytes : ValidRange (sn_bytes s);
  vs_lines : forall r, sn_lines s = Some r -> ValidRange r;
  vs_concluded : ValidLicenseOpt d (sn_concluded s);
  vs_info : Forall (ValidLicense d) (sn_info s);
  vs_22_present : Mandatory22 v (sn_concluded s) /\ Mandatory22 v (sn_copyright s)
}.

Definition ValidAnnotation (d : document) (a : annotation) : Prop :=
  ValidActor (an_annotator a) /\ Resolves d (an_id a).
Definition ValidRelationship (v : pystr) (d : document) (r : relationship) : Prop :=
  Resolves d (re_id r) /\ (forall i, re_related r = NVal i -> Resolves d i)
  /\ (v = $"SPDX-2.2" -> re_type r <> RT_SPECIFICATION_FOR /\ re_type r <> RT_REQUIREMENT_DESCRIPTION_FOR).
Definition ValidExtracted (e : extracted) : Prop :=
  (forall i, el_id e = Some i -> i <> [] -> LicenseRefId i /\ exists t, el_text e = Some t /\ t <> [])
  /\ Forall UrlPrefix (el_xrefs e).

(** Something is described by the document, or there is just one package and nothing else. *)
Definition DescribesSomething (d : document) : Prop :=
  (exists r, In r (do_relationships d)
     /\ ((re_type r = RT_DESCRIBES /\ re_id r = ci_id (do_ci d))
         \/ (re_type r = RT_DESCRIBED_BY /\ re_related r = NVal (ci_id (do_ci d)))))
  \/ ((exists p, do_packages d = [p]) /\ do_files d = [] /\ do_snippets d = []).

Record WellFormed (v : pystr) (d : document) : Prop := {
  wf_ci : ValidCreationInfo v (do_ci d);
  wf_packages : Forall (ValidPackage v d) (do_packages d);
  wf_files : Forall (ValidFile v d) (do_files d);
  wf_snippets : Forall (ValidSnippet v d) (do_snippets d);
  wf_annotations : Forall (ValidAnnotation d) (do_annotations d);
  wf_relationships : Forall (ValidRelationship v d) (do_relationships d);
  wf_extracted : Forall ValidExtracted (do_extracted d);
  wf_describes : DescribesSomething d;
  wf_distinct : NoDup (all_ids d)
}.

(** The two supported versions, and whether the version asked for fits the document *)
Definition SupportedVersion (v : pystr) : Prop := v = $"SPDX-2.2" \/ v = $"SPDX-2.3".
Definition VersionFits (d : document) (asked : option pystr) : Prop :=
  forall v, asked = Some v -> v <> [] -> v = ci_version (do_ci d).
End WithOracles.

(** ** What distinguishes the two versions *)
(** The document with another version string and nothing else changed *)
Definition with_version (v : pystr) (d : document) : document :=
  {| do_ci := {| ci_version := v; ci_id := ci_id (do_ci d); ci_name := ci_name (do_ci d);
                 ci_namespace := ci_namespace (do_ci d); ci_creators := ci_creators (do_ci d);
                 ci_created := ci_created (do_ci d); ci_creator_comment := ci_creator_comment (do_ci d);
                 ci_data_license := ci_data_license (do_ci d); ci_refs := ci_refs (do_ci d);
                 ci_list_version := ci_list_version (do_ci d); ci_doc_comment := ci_doc_comment (do_ci d) |};
     do_packages := do_packages d; do_files := do_files d; do_snippets := do_snippets d;
     do_annotations := do_annotations d; do_relationships := do_relationships d; do_extracted := do_extracted d |}.

(** No feature introduced by SPDX 2.3 is used. *)
Record UsesNo23Feature (d : document) : Prop := {
  n23_doc_algs : forall r, In r (ci_refs (do_ci d)) -> ~ NewAlgorithm (ck_alg (edr_checksum r));
  n23_pkg_algs : forall p c, In p (do_packages d) -> In c (pk_checksums p) -> ~ NewAlgorithm (ck_alg c);
  n23_file_algs : forall f c, In f (do_files d) -> In c (fi_checksums f) -> ~ NewAlgorithm (ck_alg c);
  n23_refs : forall p r, In p (do_packages d) -> In r (pk_refs p) -> ~ NewRefType r;
  n23_fields : forall p, In p (do_packages d) ->
               pk_purpose p = None /\ pk_built p = None /\ pk_release p = None /\ pk_valid_until p = None;
  n23_rels : forall r, In r (do_relationships d) ->
             re_type r <> RT_SPECIFICATION_FOR /\ re_type r <> RT_REQUIREMENT_DESCRIPTION_FOR
}.
(** Everything SPDX 2.2 requires and SPDX 2.3 leaves optional is given. *)
Record ProvidesAll22Fields (d : document) : Prop := {
  p22_packages : forall p, In p (do_packages d) ->
                 pk_concluded p <> None /\ pk_declared p <> None /\ pk_copyright p <> None;
  p22_files : forall f, In f (do_files d) -> fi_concluded f <> None /\ fi_info f <> [] /\ fi_copyright f <> None;
  p22_snippets : forall s, In s (do_snippets d) -> sn_concluded s <> None /\ sn_copyright s <> None
}.

(** The same document up to the order of its packages, files, snippets, annotations, relationships and extracted
    licensing infos. *)
Record SameUpToOrder (d d' : document) : Prop := {
  so_ci : do_ci d = do_ci d';
  so_packages : Permutation (do_packages d) (do_packages d');
  so_files : Permutation (do_files d) (do_files d');
  so_snippets : Permutation (do_snippets d) (do_snippets d');
  so_annotations : Permutation (do_annotations d) (do_annotations d');
  so_relationships : Permutation (do_relationships d) (do_relationships d');
  so_extracted : Permutation (do_extracted d) (do_extracted d')
}.
