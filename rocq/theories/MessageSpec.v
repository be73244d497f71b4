(** Specification of C71 (and of the messages in C08): which messages a document deserves, with their texts and contexts.  Only the types of messages
    are taken from Validation.v; when something is wrong is said by the predicates of ValidationSpec.v. *)
From Verif Require Import Py Data Oracles Validation ValidationSpec DocUtilsSpec.
From Coq Require Import Sorting.Permutation Sorting.Sorted.

Definition message (text : pystr) (id parent : option pystr) (t : vtype) (e : velement) : vmsg :=
  {| vm_text := text; vm_ctx := {| cx_id := id; cx_parent := parent; cx_type := t; cx_element := e |} |}.
(** the decimal numeral of a number *)
Definition number (n : nat) : pystr := str_of_N (N.of_nat n).
Definition pair_text (r : Z * Z) : pystr := $"(" ++ str_of_Z (fst r) ++ $", " ++ str_of_Z (snd r) ++ $")".
Definition comma_list (l : list pystr) : pystr := $"[" ++ join $", " l ++ $"]".

(** ** Identifiers.  An id may be that of the element itself, refer to any element, or refer to a file. *)
Inductive use := Own | Anything | AFile.
Inductive IdProblem (d : document) (u : use) (id : pystr) : pystr -> Prop :=
| ip_colons a b c : id = a ++ $":" ++ b ++ $":" ++ c ->
    IdProblem d u id ($"spdx_id must not contain more than one colon in order to separate the external document reference id from the internal SPDX id, but is: " ++ id)
| ip_docref a b : id = a ++ $":" ++ b -> ~ In (ch ":") a -> ~ In (ch ":") b -> ~ DocRefId a ->
    IdProblem d u id ($"the external document reference part of spdx_id must only contain letters, numbers, ""."", ""-"" and ""+"" and must begin with ""DocumentRef-"", but is: " ++ a)
| ip_internal a b : id = a ++ $":" ++ b -> ~ In (ch ":") a -> ~ In (ch ":") b -> ~ InternalId b ->
    IdProblem d u id ($"the internal SPDX id part of spdx_id must only contain letters, numbers, ""."" and ""-"" and must begin with ""SPDXRef-"", but is: " ++ b)
| ip_unlisted a b : id = a ++ $":" ++ b -> ~ In (ch ":") a -> ~ In (ch ":") b -> ~ In a (external_ids d) ->
    IdProblem d u id ($"did not find the external document reference """ ++ a ++ $""" in the SPDX document")
| ip_syntax : ~ In (ch ":") id -> ~ InternalId id ->
    IdProblem d u id ($"spdx_id must only contain letters, numbers, ""."" and ""-"" and must begin with ""SPDXRef-"", but is: " ++ id)
| ip_nothing : ~ In (ch ":") id -> u = Anything -> ~ In id (all_ids d) ->
    IdProblem d u id ($"did not find the referenced spdx_id """ ++ id ++ $""" in the SPDX document")
| ip_no_file : ~ In (ch ":") id -> u = AFile -> ~ In id (map fi_id (do_files d)) ->
    IdProblem d u id ($"did not find the referenced spdx_id """ ++ id ++ $""" in the SPDX document's files").

(** ** Addresses *)
Inductive UrlProblem (u : pystr) : pystr -> Prop :=
| up_url : ~ UrlPrefix u -> UrlProblem u ($"must be a valid URL, but is: " ++ u).
Inductive LocationProblem (u : pystr) : pystr -> Prop :=
| lp_location : ~ DownloadLocation u -> LocationProblem u ($"must be a valid URL or download location according to the specification, but is: " ++ u).
Inductive UriProblem (O : oracles) (u : pystr) : pystr -> Prop :=
| up_relative : o_isabsuri O u = false ->
    UriProblem O u ($"must be a valid URI specified in RFC-3986 and must contain no fragment (#), but is: " ++ u)
| up_scheme : o_isabsuri O u = true -> o_has_scheme O u = false -> UriProblem O u ($"must have a URI scheme, but is: " ++ u).

(** ** Checksums, verification codes, actors *)
Definition length_text (a : checksum_alg) : pystr :=
  match digest_digits a with Exactly n => number n | AtLeast n => $"at least " ++ number n | AtMost n => $"between 0 and " ++ number n end.
Inductive ChecksumProblem (v : pystr) (c : checksum) : pystr -> Prop :=
| cp_new : v = $"SPDX-2.2" -> NewAlgorithm (ck_alg c) -> ChecksumProblem v c (checksum_alg_name (ck_alg c) ++ $" is not supported in SPDX-2.2")
| cp_digits : ~ (v = $"SPDX-2.2" /\ NewAlgorithm (ck_alg c)) -> ~ ValidDigest (ck_alg c) (ck_value c) ->
    ChecksumProblem v c ($"value of ChecksumAlgorithm." ++ checksum_alg_name (ck_alg c) ++ $" must consist of " ++ length_text (ck_alg c)
                         ++ $" lowercase hexadecimal digits, but is: " ++ ck_value c ++ $" (length: " ++ number (List.length (ck_value c)) ++ $" digits)").
Inductive CodeProblem (c : verif_code) : pystr -> Prop :=
| vp_path f : In f (vc_excluded c) -> ~ RelativePath f -> CodeProblem c ($"file name must not be an absolute path starting with ""/"", but is: " ++ f)
| vp_digits : ~ modulo_final_LF (Digest (Exactly 40)) (vc_value c) ->
    CodeProblem c ($"value of verification_code must consist of 40 lowercase hexadecimal digits, but is: " ++ vc_value c ++ $" (length: "
                   ++ number (List.length (vc_value c)) ++ $" digits)").
Inductive ActorProblem (a : actor) : pystr -> Prop :=
| ap_email e : ac_type a = AT_TOOL -> ac_email a = Some e -> ActorProblem a ($"email must be None if actor_type is TOOL, but is: " ++ e).

(** ** External references of packages *)
Definition types_of (c : ref_category) : list pystr :=
  match c with
  | RC_SECURITY => [$"cpe22Type"; $"cpe23Type"; $"advisory"; $"fix"; $"url"; $"swid"]
  | RC_PACKAGE_MANAGER => [$"maven-central"; $"npm"; $"nuget"; $"bower"; $"purl"]
  | RC_PERSISTENT_ID => [$"swh"; $"gitoid"]
  | RC_OTHER => []
  end.
(** what the locators of a type must do *)
Inductive Expected : pystr -> pystr -> Prop :=
| ex_url t : In t [$"advisory"; $"fix"; $"url"] -> Expected t $"be a valid URL"
| ex_swid : Expected $"swid" $"be a valid URI with scheme swid"
| ex_regex t : In t [$"cpe22Type"; $"cpe23Type"; $"maven-central"; $"npm"; $"nuget"; $"bower"; $"purl"; $"swh"; $"gitoid"] ->
    Expected t ($"conform with the regex " ++ regex_text t).
Inductive RefProblem (O : oracles) (v : pystr) (r : ext_pkg_ref) : pystr -> Prop :=
| rp_spaces : er_category r = RC_OTHER -> In (ch " ") (er_locator r) ->
    RefProblem O v r ($"externalPackageRef locator in category OTHER must contain no spaces, but is: " ++ er_locator r)
| rp_new : v = $"SPDX-2.2" -> NewRefType r -> RefProblem O v r ($"externalPackageRef type """ ++ er_type r ++ $""" is not supported in SPDX-2.2")
| rp_type : er_category r <> RC_OTHER -> ~ (v = $"SPDX-2.2" /\ NewRefType r) -> ~ In (er_type r) (types_of (er_category r)) ->
    RefProblem O v r ($"externalPackageRef type in category " ++ ref_category_name (er_category r) ++ $" must be one of "
                      ++ comma_list (map (fun t => $"'" ++ t ++ $"'") (types_of (er_category r))) ++ $", but is: " ++ er_type r)
| rp_locator expected : er_category r <> RC_OTHER -> ~ (v = $"SPDX-2.2" /\ NewRefType r) -> In (er_type r) (types_of (er_category r)) ->
    ~ LocatorSyntax O (er_category r) (er_type r) (er_locator r) -> Expected (er_type r) expected ->
    RefProblem O v r ($"externalPackageRef locator of type """ ++ er_type r ++ $""" must " ++ expected ++ $", but is: " ++ er_locator r).

(** ** Licenses *)
Inductive LicenseProblem (O : oracles) (d : document) (e : lexpr) : pystr -> Prop :=
| lp_colons t a b c : In t (o_invalid_symbols O e) -> t = a ++ $":" ++ b ++ $":" ++ c ->
    LicenseProblem O d e ($"Too many colons in license reference: " ++ t
      ++ $". A license reference must only contain a single colon to separate an external document reference from the license reference.")
| lp_prefix t a b : In t (o_invalid_symbols O e) -> t = a ++ $":" ++ b -> ~ In (ch ":") a -> ~ In (ch ":") b -> ~ (exists x, b = $"LicenseRef-" ++ x) ->
    LicenseProblem O d e ($"A license reference must start with ""LicenseRef-"", but is: " ++ b ++ $" in external license reference " ++ t ++ $".")
| lp_unlisted t a b : In t (o_invalid_symbols O e) -> t = a ++ $":" ++ b -> ~ In (ch ":") a -> ~ In (ch ":") b -> ~ In a (external_ids d) ->
    LicenseProblem O d e ($"Did not find the external document reference """ ++ a
      ++ $""" in the SPDX document."
                      ++ $" From the external license reference " ++ t ++ $".")
| lp_unknown t : In t (o_invalid_symbols O e) -> ~ In (ch ":") t -> ~ In (Some t) (map el_id (do_extracted d)) ->
    LicenseProblem O d e ($"Unrecognized license reference: " ++ t
      ++ $". license_expression must only use IDs from the license list or extracted licensing info, but is: " ++ o_lic_str O e)
| lp_strict err : o_strict_parse_error O e = Some err -> LicenseProblem O d e (err ++ $". for license_expression: " ++ o_lic_str O e).
(** messages about a single license, and about the licenses of a list *)
Inductive LicenseMessage (O : oracles) (d : document) (parent : pystr) : option license -> vmsg -> Prop :=
| lm_license e t : LicenseProblem O d e t ->
    LicenseMessage O d parent (Some (NVal e)) (message t None (Some parent) VT_LICENSE_EXPRESSION (VE_License (NVal e))).
Inductive LicensesMessage (O : oracles) (d : document) (parent : pystr) (ls : list license) : vmsg -> Prop :=
| ls_license e t : In (NVal e) ls -> LicenseProblem O d e t ->
    LicensesMessage O d parent ls (message t None (Some parent) VT_LICENSE_EXPRESSION (VE_Licenses ls)).

(** ** The parts of a document *)
Inductive ExtDocRefMessage (O : oracles) (v : pystr) (doc : pystr) (r : ext_doc_ref) : vmsg -> Prop :=
| em_id : ~ DocRefId (edr_id r) ->
    ExtDocRefMessage O v doc r (message ($"document_ref_id must only contain letters, numbers, ""."", ""-"" and ""+"" and must begin with ""DocumentRef-"", but is: "
                                         ++ edr_id r) None (Some doc) VT_EXTERNAL_DOCUMENT_REF (VE_DocRef r))
| em_uri t : UriProblem O (edr_uri r) t ->
    ExtDocRefMessage O v doc r (message ($"document_uri " ++ t) None (Some doc) VT_EXTERNAL_DOCUMENT_REF (VE_DocRef r))
| em_checksum t : ChecksumProblem v (edr_checksum r) t ->
    ExtDocRefMessage O v doc r (message t None (Some doc) VT_CHECKSUM (VE_Checksum (edr_checksum r))).

(** the relationships between a package and files it contains: first CONTAINS, then CONTAINED_BY *)
Definition Contains (d : document) (p : pystr) (r : relationship) : Prop :=
  re_type r = RT_CONTAINS /\ re_id r = p /\ exists i, re_related r = NVal i /\ IsFileId d i.
Definition ContainedBy (d : document) (p : pystr) (r : relationship) : Prop :=
  re_type r = RT_CONTAINED_BY /\ IsFileId d (re_id r) /\ re_related r = NVal p.
(** the members of a list with a property, in their order *)
Inductive Select {A} (P : A -> Prop) : list A -> list A -> Prop :=
| sl_nil : Select P [] []
| sl_take x l k : P x -> Select P l k -> Select P (x :: l) (x :: k)
| sl_skip x l k : ~ P x -> Select P l k -> Select P (x :: l) k.
Definition ContainedFiles (d : document) (p : pystr) (l : list relationship) : Prop :=
  exists a b, l = a ++ b /\ Select (Contains d p) (do_relationships d) a /\ Select (ContainedBy d p) (do_relationships d) b.
Inductive PackageProblem (O : oracles) (v : pystr) (d : document) (p : package) : pystr -> Prop :=
| pp_id t : IdProblem d Own (pk_id p) t -> PackageProblem O v d p t
| pp_contains l : pk_files_analyzed p = false -> ContainedFiles d (pk_id p) l -> l <> [] ->
    PackageProblem O v d p ($"package must contain no elements if files_analyzed is False, but found " ++ o_repr O (Sh_Relationships l))
| pp_info : pk_files_analyzed p = false -> pk_info p <> [] ->
    PackageProblem O v d p ($"license_info_from_files must be None if files_analyzed is False, but is: " ++ o_repr O (Sh_Licenses (pk_info p)))
| pp_download u t : pk_download p = NVal u -> LocationProblem u t -> PackageProblem O v d p ($"package download_location " ++ t)
| pp_homepage u t : pk_homepage p = Some (NVal u) -> UrlProblem u t -> PackageProblem O v d p ($"homepage " ++ t)
| pp_code c : pk_files_analyzed p = false -> pk_verif p = Some c ->
    PackageProblem O v d p ($"verification_code must be None if files_analyzed is False, but is: " ++ o_repr O (Sh_Code c))
| pp_unsupported name (given : Prop) : v = $"SPDX-2.2" -> In (name, given)
      [($"primary_package_purpose", pk_purpose p <> None); ($"built_date", pk_built p <> None); ($"release_date", pk_release p <> None);
       ($"valid_until_date", pk_valid_until p <> None)] -> given ->
    PackageProblem O v d p (name ++ $" is not supported in SPDX-2.2")
| pp_missing name (missing : Prop) : v = $"SPDX-2.2" -> In (name, missing)
      [($"license_concluded", pk_concluded p = None); ($"license_declared", pk_declared p = None); ($"copyright_text", pk_copyright p = None)] ->
    missing -> PackageProblem O v d p (name ++ $" is mandatory in SPDX-2.2").
Inductive PackageMessage (O : oracles) (v : pystr) (d : document) (p : package) : vmsg -> Prop :=
| pm_package t : PackageProblem O v d p t -> PackageMessage O v d p (message t (Some (pk_id p)) (Some (ci_id (do_ci d))) VT_PACKAGE (VE_Package p))
| pm_concluded m : LicenseMessage O d (pk_id p) (pk_concluded p) m -> PackageMessage O v d p m
| pm_info m : pk_files_analyzed p = true -> LicensesMessage O d (pk_id p) (pk_info p) m -> PackageMessage O v d p m
| pm_declared m : LicenseMessage O d (pk_id p) (pk_declared p) m -> PackageMessage O v d p m
| pm_code c t : pk_files_analyzed p = true -> pk_verif p = Some c -> CodeProblem c t ->
    PackageMessage O v d p (message t None (Some (pk_id p)) VT_PACKAGE_VERIFICATION_CODE (VE_Code c))
| pm_checksum c t : In c (pk_checksums p) -> ChecksumProblem v c t ->
    PackageMessage O v d p (message t None (Some (pk_id p)) VT_CHECKSUM (VE_Checksum c))
| pm_ref r t : In r (pk_refs p) -> RefProblem O v r t ->
    PackageMessage O v d p (message t None (Some (pk_id p)) VT_EXTERNAL_PACKAGE_REF (VE_PkgRef r)).

(** the members of the enumeration of algorithms are numbered from 1 *)
Definition algorithms_in_order : list checksum_alg :=
  [CA_SHA1; CA_SHA224; CA_SHA256; CA_SHA384; CA_SHA512; CA_SHA3_256; CA_SHA3_384; CA_SHA3_512; CA_BLAKE2B_256; CA_BLAKE2B_384; CA_BLAKE2B_512;
   CA_BLAKE3; CA_MD2; CA_MD4; CA_MD5; CA_MD6; CA_ADLER32].
Inductive AlgorithmTexts : list checksum_alg -> list pystr -> Prop :=
| at_nil : AlgorithmTexts [] []
| at_cons n a l ts : nth_error algorithms_in_order n = Some a -> AlgorithmTexts l ts ->
    AlgorithmTexts (a :: l) (($"<ChecksumAlgorithm." ++ checksum_alg_name a ++ $": " ++ number (S n) ++ $">") :: ts).
Inductive FileProblem (O : oracles) (v : pystr) (d : document) (f : file) : pystr -> Prop :=
| fp_id t : IdProblem d Own (fi_id f) t -> FileProblem O v d f t
| fp_name : ~ RelativePath (fi_name f) -> FileProblem O v d f ($"file name must not be an absolute path starting with ""/"", but is: " ++ fi_name f)
| fp_sha1 ts : ~ In CA_SHA1 (map ck_alg (fi_checksums f)) -> AlgorithmTexts (map ck_alg (fi_checksums f)) ts ->
    FileProblem O v d f ($"checksums must contain a SHA1 algorithm checksum, but only contains: " ++ comma_list ts)
| fp_missing name (missing : Prop) : v = $"SPDX-2.2" -> In (name, missing)
      [($"license_concluded", fi_concluded f = None); ($"license_info_in_file", fi_info f = []); ($"copyright_text", fi_copyright f = None)] ->
    missing -> FileProblem O v d f (name ++ $" is mandatory in SPDX-2.2").
Inductive FileMessage (O : oracles) (v : pystr) (d : document) (f : file) : vmsg -> Prop :=
| fm_file t : FileProblem O v d f t -> FileMessage O v d f (message t (Some (fi_id f)) (Some (ci_id (do_ci d))) VT_FILE (VE_File f))
| fm_concluded m : LicenseMessage O d (fi_id f) (fi_concluded f) m -> FileMessage O v d f m
| fm_info m : LicensesMessage O d (fi_id f) (fi_info f) m -> FileMessage O v d f m
| fm_checksum c t : In c (fi_checksums f) -> ChecksumProblem v c t -> FileMessage O v d f (message t None (Some (fi_id f)) VT_CHECKSUM (VE_Checksum c)).

Inductive RangeProblem (name : pystr) (r : Z * Z) : pystr -> Prop :=
| rg_low : (fst r < 1)%Z -> RangeProblem name r (name ++ $" values must be greater than or equal to 1, but is: " ++ pair_text r)
| rg_order : (fst r > snd r)%Z -> RangeProblem name r ($"the first value of " ++ name ++ $" must be less than or equal to the second, but is: " ++ pair_text r).
Inductive SnippetProblem (O : oracles) (v : pystr) (d : document) (s : snippet) : pystr -> Prop :=
| sp_id t : IdProblem d Own (sn_id s) t -> SnippetProblem O v d s t
| sp_file t : IdProblem d AFile (sn_file s) t -> SnippetProblem O v d s t
| sp_bytes t : RangeProblem $"byte_range" (sn_bytes s) t -> SnippetProblem O v d s t
| sp_lines r t : sn_lines s = Some r -> RangeProblem $"line_range" r t -> SnippetProblem O v d s t
| sp_missing name (missing : Prop) : v = $"SPDX-2.2" -> In (name, missing)
      [($"license_concluded", sn_concluded s = None); ($"copyright_text", sn_copyright s = None)] -> missing ->
    SnippetProblem O v d s (name ++ $" is mandatory in SPDX-2.2").
Inductive SnippetMessage (O : oracles) (v : pystr) (d : document) (s : snippet) : vmsg -> Prop :=
| sm_snippet t : SnippetProblem O v d s t -> SnippetMessage O v d s (message t (Some (sn_id s)) (Some (ci_id (do_ci d))) VT_SNIPPET (VE_Snippet s))
| sm_concluded m : LicenseMessage O d (sn_id s) (sn_concluded s) m -> SnippetMessage O v d s m
| sm_info m : LicensesMessage O d (sn_id s) (sn_info s) m -> SnippetMessage O v d s m.

Inductive AnnotationMessage (d : document) (a : annotation) : vmsg -> Prop :=
| an_actor t : ActorProblem (an_annotator a) t -> AnnotationMessage d a (message t None (Some $"annotation") VT_ACTOR (VE_Actor (an_annotator a)))
| an_ref t : IdProblem d Anything (an_id a) t -> AnnotationMessage d a (message t None None VT_ANNOTATION (VE_Annotation a)).
Inductive RelationshipProblem (v : pystr) (d : document) (r : relationship) : pystr -> Prop :=
| re_from t : IdProblem d Anything (re_id r) t -> RelationshipProblem v d r t
| re_to i t : re_related r = NVal i -> IdProblem d Anything i t -> RelationshipProblem v d r t
| re_new : v = $"SPDX-2.2" -> In (re_type r) [RT_SPECIFICATION_FOR; RT_REQUIREMENT_DESCRIPTION_FOR] ->
    RelationshipProblem v d r ($"RelationshipType." ++ rel_type_name (re_type r) ++ $" is not supported in SPDX-2.2").
Inductive ExtractedProblem (e : extracted) : pystr -> Prop :=
| xp_id i : el_id e = Some i -> i <> [] -> ~ LicenseRefId i ->
    ExtractedProblem e ($"license_id must only contain letters, numbers, ""."" and ""-"" and must begin with ""LicenseRef-"", but is: " ++ i)
| xp_text i : el_id e = Some i -> i <> [] -> el_text e = None \/ el_text e = Some [] ->
    ExtractedProblem e $"extracted_text must be provided if there is a license_id assigned"
| xp_xref u t : In u (el_xrefs e) -> UrlProblem u t -> ExtractedProblem e ($"cross_reference " ++ t).


(** the ids that occur more than once, each once, in the order of texts *)
Definition Duplicates (d : document) (l : list pystr) : Prop :=
  (forall x, In x l <-> exists a b c, all_ids d = a ++ x :: b ++ x :: c) /\ NoDup l /\ StronglySorted StrLe l.
Inductive DocumentProblem (O : oracles) (d : document) : pystr -> Prop :=
| dp_id : ci_id (do_ci d) <> $"SPDXRef-DOCUMENT" -> DocumentProblem O d ($"spdx_id must be SPDXRef-DOCUMENT, but is: " ++ ci_id (do_ci d))
| dp_license : ci_data_license (do_ci d) <> $"CC0-1.0" -> DocumentProblem O d ($"data_license must be ""CC0-1.0"", but is: " ++ ci_data_license (do_ci d))
| dp_namespace t : UriProblem O (ci_namespace (do_ci d)) t -> DocumentProblem O d ($"document_namespace " ++ t)
| dp_describes : ~ DescribesSomething d ->
    DocumentProblem O d ($"there must be at least one relationship """ ++ ci_id (do_ci d) ++ $" DESCRIBES ..."" or ""... DESCRIBED_BY " ++ ci_id (do_ci d)
                         ++ $""" when there is not only a single package present")
| dp_duplicates l : Duplicates d l -> l <> [] ->
    DocumentProblem O d ($"every spdx_id must be unique within the document, but found the following duplicates: " ++ o_repr O (Sh_Texts l)).

(** ** The messages that a document deserves *)
Inductive Deserved (O : oracles) (v : pystr) (d : document) : vmsg -> Prop :=
| ds_document t : DocumentProblem O d t -> Deserved O v d (message t (Some (ci_id (do_ci d))) None VT_DOCUMENT VE_None)
| ds_creator a t : In a (ci_creators (do_ci d)) -> ActorProblem a t -> Deserved O v d (message t None (Some (ci_id (do_ci d))) VT_ACTOR (VE_Actor a))
| ds_docref r m : In r (ci_refs (do_ci d)) -> ExtDocRefMessage O v (ci_id (do_ci d)) r m -> Deserved O v d m
| ds_package p m : In p (do_packages d) -> PackageMessage O v d p m -> Deserved O v d m
| ds_file f m : In f (do_files d) -> FileMessage O v d f m -> Deserved O v d m
| ds_snippet s m : In s (do_snippets d) -> SnippetMessage O v d s m -> Deserved O v d m
| ds_annotation a m : In a (do_annotations d) -> AnnotationMessage d a m -> Deserved O v d m
| ds_relationship r t : In r (do_relationships d) -> RelationshipProblem v d r t ->
    Deserved O v d (message t None None VT_RELATIONSHIP (VE_Relationship r))
| ds_extracted e t : In e (do_extracted d) -> ExtractedProblem e t -> Deserved O v d (message t None None VT_EXTRACTED_LICENSING_INFO (VE_Extracted e)).

(** the id and the licenses of an element of the document *)
Inductive Element (d : document) : pystr -> list (option license) -> list license -> Prop :=
| el_package p : In p (do_packages d) -> Element d (pk_id p) [pk_concluded p; pk_declared p] (pk_info p)
| el_file f : In f (do_files d) -> Element d (fi_id f) [fi_concluded f] (fi_info f)
| el_snippet s : In s (do_snippets d) -> Element d (sn_id s) [sn_concluded s] (sn_info s).
(** Where a message points to: the element in its context is part of the document, and the ids are those of the element and its parent. *)
Inductive PointsInto (d : document) : vctx -> Prop :=
| pi_document : PointsInto d (Build_vctx (Some (ci_id (do_ci d))) None VT_DOCUMENT VE_None)
| pi_creator a : In a (ci_creators (do_ci d)) -> PointsInto d (Build_vctx None (Some (ci_id (do_ci d))) VT_ACTOR (VE_Actor a))
| pi_docref r : In r (ci_refs (do_ci d)) -> PointsInto d (Build_vctx None (Some (ci_id (do_ci d))) VT_EXTERNAL_DOCUMENT_REF (VE_DocRef r))
| pi_docref_checksum r : In r (ci_refs (do_ci d)) -> PointsInto d (Build_vctx None (Some (ci_id (do_ci d))) VT_CHECKSUM (VE_Checksum (edr_checksum r)))
| pi_package p : In p (do_packages d) -> PointsInto d (Build_vctx (Some (pk_id p)) (Some (ci_id (do_ci d))) VT_PACKAGE (VE_Package p))
| pi_file f : In f (do_files d) -> PointsInto d (Build_vctx (Some (fi_id f)) (Some (ci_id (do_ci d))) VT_FILE (VE_File f))
| pi_snippet s : In s (do_snippets d) -> PointsInto d (Build_vctx (Some (sn_id s)) (Some (ci_id (do_ci d))) VT_SNIPPET (VE_Snippet s))
| pi_license i ls l k : Element d i ls k -> In (Some l) ls -> PointsInto d (Build_vctx None (Some i) VT_LICENSE_EXPRESSION (VE_License l))
| pi_licenses i ls k : Element d i ls k -> PointsInto d (Build_vctx None (Some i) VT_LICENSE_EXPRESSION (VE_Licenses k))
| pi_code p c : In p (do_packages d) -> pk_verif p = Some c -> PointsInto d (Build_vctx None (Some (pk_id p)) VT_PACKAGE_VERIFICATION_CODE (VE_Code c))
| pi_package_checksum p c : In p (do_packages d) -> In c (pk_checksums p) -> PointsInto d (Build_vctx None (Some (pk_id p)) VT_CHECKSUM (VE_Checksum c))
| pi_ref p r : In p (do_packages d) -> In r (pk_refs p) -> PointsInto d (Build_vctx None (Some (pk_id p)) VT_EXTERNAL_PACKAGE_REF (VE_PkgRef r))
| pi_file_checksum f c : In f (do_files d) -> In c (fi_checksums f) -> PointsInto d (Build_vctx None (Some (fi_id f)) VT_CHECKSUM (VE_Checksum c))
| pi_annotator a : In a (do_annotations d) -> PointsInto d (Build_vctx None (Some $"annotation") VT_ACTOR (VE_Actor (an_annotator a)))
| pi_annotation a : In a (do_annotations d) -> PointsInto d (Build_vctx None None VT_ANNOTATION (VE_Annotation a))
| pi_relationship r : In r (do_relationships d) -> PointsInto d (Build_vctx None None VT_RELATIONSHIP (VE_Relationship r))
| pi_extracted e : In e (do_extracted d) -> PointsInto d (Build_vctx None None VT_EXTRACTED_LICENSING_INFO (VE_Extracted e)).

(** The same message, except that a list of relationships in its text may be in another order *)
Inductive SameMessage (O : oracles) : vmsg -> vmsg -> Prop :=
| sg_same m : SameMessage O m m
| sg_listed l l' c : Permutation l l' ->
    SameMessage O {| vm_text := $"package must contain no elements if files_analyzed is False, but found " ++ o_repr O (Sh_Relationships l); vm_ctx := c |}
                  {| vm_text := $"package must contain no elements if files_analyzed is False, but found " ++ o_repr O (Sh_Relationships l'); vm_ctx := c |}.
