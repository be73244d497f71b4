(** The validators of spdx/validation/*.py.

    The license-expression and uritools libraries, and the representations of objects in message texts, are the
    [oracles]. *)
From Verif Require Import Py Rx Data Oracles DocUtils.

(** validation_message.py:11-25  SpdxElementType *)
Inductive vtype := VT_LICENSE_EXPRESSION | VT_PACKAGE_VERIFICATION_CODE | VT_EXTERNAL_DOCUMENT_REF | VT_CHECKSUM
| VT_EXTERNAL_PACKAGE_REF | VT_ACTOR | VT_DOCUMENT | VT_CREATION_INFO | VT_PACKAGE | VT_FILE | VT_SNIPPET
| VT_ANNOTATION | VT_RELATIONSHIP | VT_EXTRACTED_LICENSING_INFO.

(** validation_message.py:28-33  ValidationContext *)
Inductive velement := VE_None | VE_License (l : license) | VE_Licenses (l : list license) | VE_Code (c : verif_code) | VE_DocRef (r : ext_doc_ref)
| VE_Checksum (c : checksum) | VE_PkgRef (r : ext_pkg_ref) | VE_Actor (a : actor) | VE_Package (p : package) | VE_File (f : file)
| VE_Snippet (s : snippet) | VE_Annotation (a : annotation) | VE_Relationship (r : relationship) | VE_Extracted (e : extracted).
Record vctx := { cx_id : option pystr; cx_parent : option pystr; cx_type : vtype; cx_element : velement }.
(** validation_message.py:36-39  ValidationMessage *)
Record vmsg := { vm_text : pystr; vm_ctx : vctx }.

Definition msg (t : pystr) (c : vctx) : vmsg := {| vm_text := t; vm_ctx := c |}.
Definition ctx (id parent : option pystr) (t : vtype) (e : velement) : vctx := {| cx_id := id; cx_parent := parent; cx_type := t; cx_element := e |}.

(** [if b: messages.append(m)] *)
Definition when {A} (b : bool) (m : A) : list A := if b then [m] else [].

Definition V22 : pystr := $"SPDX-2.2".
Definition V23 : pystr := $"SPDX-2.3".
Definition is22 (v : pystr) : bool := str_eqb v V22.

(** ** spdx_id_validators.py *)

(** the class [\da-zA-Z.-] *)
Definition id_char (c : char) : bool := is_digit c || is_alpha c || N.eqb c #"." || N.eqb c #"-".
(** spdx_id_validators.py:13-14  ^SPDXRef-[\da-zA-Z.-]+$ *)
Definition internal_id_rx : rx := RCat (rlit $"SPDXRef-") (rplus (RSet id_char)).
Definition is_valid_internal_spdx_id (s : pystr) : bool := match_dollar internal_id_rx s.

(** spdx_id_validators.py:17-18  ^DocumentRef-[\da-zA-Z.+-]+$ *)
Definition docref_char (c : char) : bool := id_char c || N.eqb c #"+".
Definition docref_rx : rx := RCat (rlit $"DocumentRef-") (rplus (RSet docref_char)).
Definition is_valid_external_doc_ref_id (s : pystr) : bool := match_dollar docref_rx s.

(** spdx_id_validators.py:21-22 *)
Definition is_spdx_id_present_in_files (id : pystr) (fs : list file) : bool := str_in id (map fi_id fs).
(** spdx_id_validators.py:31-35 *)
Definition get_list_of_all_spdx_ids (d : document) : list pystr :=
  ci_id (do_ci d) :: get_contained_spdx_element_ids d.
(** spdx_id_validators.py:25-28 *)
Definition is_spdx_id_present_in_document (id : pystr) (d : document) : bool := str_in id (get_list_of_all_spdx_ids d).
(** spdx_id_validators.py:38-43 *)
Definition is_external_doc_ref_present_in_document (id : pystr) (d : document) : bool :=
  str_in id (map edr_id (ci_refs (do_ci d))).

(** spdx_id_validators.py:46-99  validate_spdx_id *)
Definition validate_spdx_id (id : pystr) (d : document) (check_document check_files : bool) : list pystr :=
  match split_on #":" id with
  | [a; b] =>
      when (negb (is_valid_external_doc_ref_id a)) ($"the external document reference part of spdx_id must only contain letters, numbers, ""."", ""-"" and ""+"" and must begin with ""DocumentRef-"", but is: " ++ a)
      ++ when (negb (is_valid_internal_spdx_id b)) ($"the internal SPDX id part of spdx_id must only contain letters, numbers, ""."" and ""-"" and must begin with ""SPDXRef-"", but is: " ++ b)
      ++ when (negb (is_external_doc_ref_present_in_document a d)) ($"did not find the external document reference """ ++ a ++ $""" in the SPDX document")
  | _ :: _ :: _ :: _ => [$"spdx_id must not contain more than one colon in order to separate the external document reference id from the internal SPDX id, but is: " ++ id]
  | _ =>
      when (negb (is_valid_internal_spdx_id id)) ($"spdx_id must only contain letters, numbers, ""."" and ""-"" and must begin with ""SPDXRef-"", but is: " ++ id)
      ++ (if check_document
          then when (negb (is_spdx_id_present_in_document id d)) ($"did not find the referenced spdx_id """ ++ id ++ $""" in the SPDX document")
          else [])
      ++ (if check_files
          then when (negb (is_spdx_id_present_in_files id (do_files d))) ($"did not find the referenced spdx_id """ ++ id ++ $""" in the SPDX document's files")
          else [])
  end.

(** ** uri_validators.py *)

(** Case-insensitive literal letter ([re.IGNORECASE] on str patterns) *)
Definition ci_eq (c x : char) : bool :=
  N.eqb (loc x) (loc c)
  || (N.eqb (loc c) #"i" && ((x =? 304) || (x =? 305))%N)
  || (N.eqb (loc c) #"s" && (x =? 383)%N)
  || (N.eqb (loc c) #"k" && (x =? 8490)%N).
Fixpoint rlit_ci (s : pystr) : rx := match s with [] => REps | c :: s' => RCat (RSet (ci_eq c)) (rlit_ci s') end.
(** [a-z] with IGNORECASE *)
Definition ci_az (c : char) : bool := is_alpha c || ((c =? 304) || (c =? 305) || (c =? 383) || (c =? 8490))%N.
Definition ci_az09 (c : char) : bool := ci_az c || is_digit09 c.

(** uri_validators.py:10-14  url_pattern *)
Definition url_rx : rx :=
  rcats
    [ropt (ralts (map rlit_ci [$"http://www."; $"https://www."; $"http://"; $"https://"; $"ssh://"; $"git://";
                               $"svn://"; $"sftp://"; $"ftp://"]));
     ropt (RCat (rplus (RSet (fun c => is_word c || oneof $"-.!~*'()%;:&=+$," c))) (rchar #"@"));
     rplus (RSet ci_az09);
     rupto 100 (RCat (RSet (oneof $"-.")) (rplus (RSet ci_az09)));
     rchar #"."; RCat (rexact 2 (RSet ci_az)) (rupto 3 (RSet ci_az));
     ropt (RCat (rchar #":") (RCat (RSet is_digit09) (rupto 4 (RSet is_digit09))));
     ropt (RCat (rchar #"/") (RStar (RSet dot)))].

(** uri_validators.py:17-23  download_location_pattern (without ^ and $) *)
Definition repo_rx : rx := ralts (map rlit_ci [$"git"; $"hg"; $"svn"; $"bzr"]).
Definition az09_ci (extra : pystr) : rx := rplus (RSet (fun c => ci_az c || is_digit09 c || oneof extra c)).
Definition download_rx : rx :=
  ralts [RCat (ropt (RCat repo_rx (rchar #"+"))) url_rx;
         rcats [rlit_ci $"git+git@"; az09_ci $".-"; rchar #":"; az09_ci $"/\.@-"];
         rcats [rlit_ci $"bzr+lp:"; az09_ci $".-"]].

(** uri_validators.py:26-30  validate_url *)
Definition validate_url (u : pystr) : list pystr :=
  when (negb (match_prefix url_rx u)) ($"must be a valid URL, but is: " ++ u).

(** uri_validators.py:33-37  validate_download_location *)
Definition validate_download_location (u : pystr) : list pystr :=
  when (negb (match_prefix url_rx u || match_dollar download_rx u))
       ($"must be a valid URL or download location according to the specification, but is: " ++ u).

Section WithOracles.
Variable O : oracles.

(** uri_validators.py:40-48  validate_uri *)
Definition validate_uri (u : pystr) : list pystr :=
  if negb (o_isabsuri O u) then [$"must be a valid URI specified in RFC-3986 and must contain no fragment (#), but is: " ++ u]
  else if negb (o_has_scheme O u) then [$"must have a URI scheme, but is: " ++ u]
  else [].

(** ** checksum_validator.py *)

(** the class [0-9a-f] *)
Definition hexl (c : char) : bool := is_digit09 c || ((97 <=? c) && (c <=? 102))%N.
(** checksum_validator.py:13-31  algorithm_length, as the repetition it is spliced into *)
Definition checksum_rx (a : checksum_alg) : rx :=
  match a with
  | CA_SHA1 => rexact 40 (RSet hexl)
  | CA_SHA224 => rexact 56 (RSet hexl)
  | CA_SHA256 => rexact 64 (RSet hexl)
  | CA_SHA384 => rexact 96 (RSet hexl)
  | CA_SHA512 => rexact 128 (RSet hexl)
  | CA_SHA3_256 => rexact 64 (RSet hexl)
  | CA_SHA3_384 => rexact 96 (RSet hexl)
  | CA_SHA3_512 => rexact 128 (RSet hexl)
  | CA_BLAKE2B_256 => rexact 64 (RSet hexl)
  | CA_BLAKE2B_384 => rexact 96 (RSet hexl)
  | CA_BLAKE2B_512 => rexact 128 (RSet hexl)
  | CA_BLAKE3 => ratleast 256 (RSet hexl)
  | CA_MD2 => rexact 32 (RSet hexl)
  | CA_MD4 => rexact 32 (RSet hexl)
  | CA_MD5 => rexact 32 (RSet hexl)
  | CA_MD6 => rupto 512 (RSet hexl)
  | CA_ADLER32 => rexact 8 (RSet hexl)
  end.

(** checksum_validator.py:47-56  algorithms that 2.2 does not know *)
Definition alg_not_in_22 (a : checksum_alg) : bool :=
  match a with
  | CA_SHA3_512 | CA_SHA3_384 | CA_SHA3_256 | CA_BLAKE3 | CA_BLAKE2B_512 | CA_BLAKE2B_384 | CA_BLAKE2B_256
  | CA_ADLER32 => true
  | _ => false
  end.

(** checksum_validator.py:13-31, 59-64  the length in the message *)
Definition stated_length (a : checksum_alg) : pystr :=
  match a with
  | CA_SHA1 => $"40" | CA_SHA224 => $"56" | CA_SHA256 => $"64" | CA_SHA384 => $"96" | CA_SHA512 => $"128"
  | CA_SHA3_256 => $"64" | CA_SHA3_384 => $"96" | CA_SHA3_512 => $"128"
  | CA_BLAKE2B_256 => $"64" | CA_BLAKE2B_384 => $"96" | CA_BLAKE2B_512 => $"128" | CA_BLAKE3 => $"at least 256"
  | CA_MD2 => $"32" | CA_MD4 => $"32" | CA_MD5 => $"32" | CA_MD6 => $"between 0 and 512" | CA_ADLER32 => $"8"
  end.
(** checksum_validator.py:42-75  validate_checksum *)
Definition validate_checksum (c : checksum) (parent : pystr) (v : pystr) : list vmsg :=
  let cx := ctx None (Some parent) VT_CHECKSUM (VE_Checksum c) in
  if is22 v && alg_not_in_22 (ck_alg c) then
    [msg (checksum_alg_name (ck_alg c) ++ $" is not supported in SPDX-2.2") cx]
  else when (negb (match_dollar (checksum_rx (ck_alg c)) (ck_value c)))
            (msg ($"value of ChecksumAlgorithm." ++ checksum_alg_name (ck_alg c) ++ $" must consist of " ++ stated_length (ck_alg c)
                  ++ $" lowercase hexadecimal digits, but is: " ++ ck_value c ++ $" (length: " ++ str_of_N (N.of_nat (List.length (ck_value c)))
                  ++ $" digits)") cx).

(** checksum_validator.py:34-39  validate_checksums *)
Definition validate_checksums (cs : list checksum) (parent v : pystr) : list vmsg :=
  flat_map (fun c => validate_checksum c parent v) cs.

(** ** package_verification_code_validator.py:13-35 *)
Definition validate_verification_code (vc : verif_code) (parent : pystr) : list vmsg :=
  let cx := ctx None (Some parent) VT_PACKAGE_VERIFICATION_CODE (VE_Code vc) in
  flat_map (fun f => when (startswith $"/" f) (msg ($"file name must not be an absolute path starting with ""/"", but is: " ++ f) cx)) (vc_excluded vc)
  ++ when (negb (match_dollar (rexact 40 (RSet hexl)) (vc_value vc)))
          (msg ($"value of verification_code must consist of 40 lowercase hexadecimal digits, but is: " ++ vc_value vc ++ $" (length: "
                ++ str_of_N (N.of_nat (List.length (vc_value vc))) ++ $" digits)") cx).

(** ** actor_validator.py:11-30 *)
Definition validate_actor (a : actor) (parent : pystr) : list vmsg :=
  match ac_type a, ac_email a with
  | AT_TOOL, Some e => [msg ($"email must be None if actor_type is TOOL, but is: " ++ e) (ctx None (Some parent) VT_ACTOR (VE_Actor a))]
  | _, _ => []
  end.
Definition validate_actors (l : list actor) (parent : pystr) : list vmsg := flat_map (fun a => validate_actor a parent) l.

(** ** external_document_ref_validator.py:14-46 *)
Definition validate_external_document_ref (r : ext_doc_ref) (parent v : pystr) : list vmsg :=
  let cx := ctx None (Some parent) VT_EXTERNAL_DOCUMENT_REF (VE_DocRef r) in
  when (negb (is_valid_external_doc_ref_id (edr_id r))) 
       (msg ($"document_ref_id must only contain letters, numbers, ""."", ""-"" and ""+"" and must begin with ""DocumentRef-"", but is: " ++ edr_id r) cx)
  ++ map (fun m => msg ($"document_uri " ++ m) cx) (validate_uri (edr_uri r))
  ++ validate_checksum (edr_checksum r) parent v.
Definition validate_external_document_refs (l : list ext_doc_ref) (parent v : pystr) : list vmsg :=
  flat_map (fun r => validate_external_document_ref r parent v) l.

(** ** creation_info_validator.py:15-38 *)
Definition validate_creation_info (c : creation_info) (v : pystr) : list vmsg :=
  let cx := ctx (Some (ci_id c)) None VT_DOCUMENT VE_None in
  when (negb (str_eqb (ci_id c) DOCUMENT_SPDX_ID)) (msg ($"spdx_id must be SPDXRef-DOCUMENT, but is: " ++ ci_id c) cx)
  ++ when (negb (str_eqb (ci_data_license c) $"CC0-1.0")) (msg ($"data_license must be ""CC0-1.0"", but is: " ++ ci_data_license c) cx)
  ++ map (fun m => msg ($"document_namespace " ++ m) cx) (validate_uri (ci_namespace c))
  ++ validate_actors (ci_creators c) (ci_id c)
  ++ validate_external_document_refs (ci_refs c) (ci_id c) v.

(** ** license_expression_validator.py *)

(** [non_spdx_token in license_ref_ids] (ids may be None) *)
Definition opt_in (x : pystr) (l : list (option pystr)) : bool :=
  existsb (fun o => match o with Some y => str_eqb x y | None => false end) l.

(** license_expression_validator.py:45-82  one invalid symbol *)
Definition validate_license_token (t : pystr) (e : lexpr) (d : document) (cx : vctx) : list vmsg :=
  if has_char #":" t then
    match split_on #":" t with
    | [a; b] =>
        when (negb (startswith $"LicenseRef-" b))
             (msg ($"A license reference must start with ""LicenseRef-"", but is: " ++ b ++ $" in external license reference " ++ t ++ $".") cx)
        ++ when (negb (is_external_doc_ref_present_in_document a d))
                (msg ($"Did not find the external document reference """ ++ a ++ $""" in the SPDX document."
                      ++ $" From the external license reference "
                      ++ t ++ $".") cx)
    | _ => [msg ($"Too many colons in license reference: " ++ t
                 ++ $". A license reference must only contain a single colon to separate an external document reference from the license reference.") cx]
    end
  else when (negb (opt_in t (map el_id (do_extracted d))))
            (msg ($"Unrecognized license reference: " ++ t
                  ++ $". license_expression must only use IDs from the license list or extracted licensing info, but is: " ++ o_lic_str O e) cx).

(** license_expression_validator.py:28-96  validate_license_expression; the last argument is the optional context *)
Definition validate_license_expression (l : option license) (d : document) (parent : pystr) (given : option vctx) : list vmsg :=
  match l with
  | Some (NVal e) =>
      let cx := match given with Some c => c | None => ctx None (Some parent) VT_LICENSE_EXPRESSION (VE_License (NVal e)) end in
      flat_map (fun t => validate_license_token t e d cx) (o_invalid_symbols O e)
      ++ match o_strict_parse_error O e with
         | Some err => [msg (err ++ $". for license_expression: " ++ o_lic_str O e) cx]
         | None => []
         end
  | _ => []
  end.
(** license_expression_validator.py:14-25 *)
Definition validate_license_expressions (ls : list license) (d : document) (parent : pystr) : list vmsg :=
  flat_map (fun l => validate_license_expression (Some l) d parent (Some (ctx None (Some parent) VT_LICENSE_EXPRESSION (VE_Licenses ls)))) ls.

(** ** external_package_ref_validator.py *)

Definition cl (s : string) : rx := RSet (oneof (lit s)).
Definition alnum (c : char) : bool := is_alpha c || is_digit09 c.
Definition hexa (c : char) : bool := is_digit09 c || ((97 <=? c) && (c <=? 102))%N || ((65 <=? c) && (c <=? 70))%N.
(** external_package_ref_validator.py:14  ^c[pP][eE]:/[AHOaho]?(:[A-Za-z0-9._\-~%]* ){0,6}$ *)
Definition cpe22_rx : rx :=
  rcats [rlit $"c"; cl "pP"; cl "eE"; rlit $":/"; ropt (cl "AHOaho");
         rupto 6 (RCat (rchar #":") (RStar (RSet (fun c => alnum c || oneof $"._-~%" c))))].
(** The backslash-escaped characters of the CPE 2.3 pattern, with the double quote (34) *)
Definition cpe_escaped (c : char) : bool := (c =? 34)%N || oneof $"\*?!#$%&'()+,/:;<=>@[]^`{|}~" c.
(** external_package_ref_validator.py:15-19  the component ((\?*|\*?)(..)+(\?*|\*?))|[\*\-] *)
Definition cpe_wild : rx := RAlt (RStar (rchar #"?")) (ropt (rchar #"*")).
Definition cpe_comp : rx :=
  RAlt (rcats [cpe_wild;
               rplus (RAlt (RSet (fun c => alnum c || oneof $"-._" c)) (RCat (rchar #"\") (RSet cpe_escaped)));
               cpe_wild])
       (cl "*-").
Definition cpe_lang : rx :=
  RAlt (RCat (RCat (rexact 2 (RSet is_alpha)) (rupto 1 (RSet is_alpha)))
             (ropt (RCat (rchar #"-") (RAlt (rexact 2 (RSet is_alpha)) (rexact 3 (RSet is_digit09))))))
       (cl "*-").
Definition cpe23_rx : rx :=
  rcats [rlit $"cpe:2.3:"; cl "aho*-"; rexact 5 (RCat (rchar #":") cpe_comp); RCat (rchar #":") cpe_lang;
         rexact 4 (RCat (rchar #":") cpe_comp)].
Definition noneof (c : char) : rx := RSet (fun x => negb (N.eqb x c)).
(** external_package_ref_validator.py:20-23 *)
Definition maven_rx : rx :=
  rcats [rplus (noneof #":"); rchar #":"; rplus (noneof #":"); ropt (RCat (rchar #":") (rplus (noneof #":")))].
Definition two_parts_rx (c : char) : rx := rcats [rplus (noneof c); rchar c; rplus (noneof c)].
Definition npm_rx : rx := two_parts_rx #"@".
Definition nuget_rx : rx := two_parts_rx #"/".
Definition bower_rx : rx := two_parts_rx #"#".
(** external_package_ref_validator.py:24 *)
Definition purl_rx : rx :=
  let any := rplus (RSet dot) in
  rcats [rlit $"pkg:"; any; ropt (RCat (rchar #"/") any); rchar #"/"; any; ropt (RCat (rchar #"@") any);
         ropt (RCat (rchar #"?") any); ropt (RCat (rchar #"#") any)].
(** external_package_ref_validator.py:25-26 *)
Definition swh_rx : rx :=
  rcats [rlit $"swh:1:"; ralts (map rlit [$"snp"; $"rel"; $"rev"; $"dir"; $"cnt"]); rchar #":"; rexact 40 (RSet hexa)].
Definition gitoid_rx : rx :=
  rcats [rlit $"gitoid:"; ralts (map rlit [$"blob"; $"tree"; $"commit"; $"tag"]); rchar #":";
         RAlt (RCat (rlit $"sha1:") (rexact 40 (RSet hexa))) (RCat (rlit $"sha256:") (rexact 64 (RSet hexa)))].

(** external_package_ref_validator.py:28-38  TYPE_TO_REGEX *)
Definition TYPE_TO_REGEX : list (pystr * rx) :=
  [($"cpe22Type", cpe22_rx); ($"cpe23Type", cpe23_rx); ($"maven-central", maven_rx); ($"npm", npm_rx);
   ($"nuget", nuget_rx); ($"bower", bower_rx); ($"purl", purl_rx); ($"swh", swh_rx); ($"gitoid", gitoid_rx)].
(** external_package_ref_validator.py:14-26  the patterns as texts *)
Definition regex_text (ty : pystr) : pystr :=
  match assoc ty
    [($"cpe22Type", $"^c[pP][eE]:/[AHOaho]?(:[A-Za-z0-9._\-~%]*){0,6}$");
     ($"cpe23Type", $"^cpe:2\.3:[aho\*\-](:(((\?*|\*?)([a-zA-Z0-9\-\._]|(\\[\\\*\?!""#$$%&\'\(\)\+,\/:;<=>@\[\]\^`\{\|}~]))+(\?*|\*?))|[\*\-])){5}(:(([a-zA-Z]{2,3}(-([a-zA-Z]{2}|[0-9]{3}))?)|[\*\-]))(:(((\?*|\*?)([a-zA-Z0-9\-\._]|(\\[\\\*\?!""#$$%&\'\(\)\+,\/:;<=>@\[\]\^`\{\|}~]))+(\?*|\*?))|[\*\-])){4}$");
     ($"maven-central", $"^[^:]+:[^:]+(:[^:]+)?$"); ($"npm", $"^[^@]+@[^@]+$"); ($"nuget", $"^[^/]+/[^/]+$"); ($"bower", $"^[^#]+#[^#]+$");
     ($"purl", $"^pkg:.+(\/.+)?\/.+(@.+)?(\?.+)?(#.+)?$"); ($"swh", $"^swh:1:(snp|rel|rev|dir|cnt):[0-9a-fA-F]{40}$");
     ($"gitoid", $"^gitoid:(blob|tree|commit|tag):(sha1:[0-9a-fA-F]{40}|sha256:[0-9a-fA-F]{64})$")]
  with Some s => s | None => [] end.

(** package.py:48-53  CATEGORY_TO_EXTERNAL_PACKAGE_REF_TYPES *)
Definition category_types (c : ref_category) : list pystr :=
  match c with
  | RC_SECURITY => [$"cpe22Type"; $"cpe23Type"; $"advisory"; $"fix"; $"url"; $"swid"]
  | RC_PACKAGE_MANAGER => [$"maven-central"; $"npm"; $"nuget"; $"bower"; $"purl"]
  | RC_PERSISTENT_ID => [$"swh"; $"gitoid"]
  | RC_OTHER => []
  end.

(** external_package_ref_validator.py:108-120  validate_against_regex; a type without pattern would raise KeyError,
    which the caller excludes (see [category_types]); the model reports a message in that unreachable case. *)
Definition validate_against_regex (s ty : pystr) (cx : vctx) : list vmsg :=
  match assoc ty TYPE_TO_REGEX with
  | Some r => when (negb (match_dollar r s)) 
                       (msg ($"externalPackageRef locator of type """ ++ ty ++ $""" must conform with the regex " ++ regex_text ty ++ $", but is: " ++ s) cx)
  | None => [msg ($"KeyError: " ++ ty) cx]
  end.

(** str of a list of texts without quotes, backslashes or unprintable characters *)
Definition texts_str (l : list pystr) : pystr := $"[" ++ join $", " (map (fun t => $"'" ++ t ++ $"'") l) ++ $"]".
(** external_package_ref_validator.py:51-105  validate_external_package_ref *)
Definition validate_external_package_ref (r : ext_pkg_ref) (parent v : pystr) : list vmsg :=
  let cx := ctx None (Some parent) VT_EXTERNAL_PACKAGE_REF (VE_PkgRef r) in
  match er_category r with
  | RC_OTHER => when (has_char #" " (er_locator r)) (msg ($"externalPackageRef locator in category OTHER must contain no spaces, but is: " ++ er_locator r) cx)
  | cat =>
      if is22 v && str_in (er_type r) [$"advisory"; $"fix"; $"url"; $"swid"] then
        [msg ($"externalPackageRef type """ ++ er_type r ++ $""" is not supported in SPDX-2.2") cx]
      else if negb (str_in (er_type r) (category_types cat)) then
        [msg ($"externalPackageRef type in category " ++ ref_category_name cat ++ $" must be one of " ++ texts_str (category_types cat) ++ $", but is: "
              ++ er_type r) cx]
      else if str_in (er_type r) [$"advisory"; $"fix"; $"url"] then
        when (truthy_list (validate_url (er_locator r))) 
             (msg ($"externalPackageRef locator of type """ ++ er_type r ++ $""" must be a valid URL, but is: " ++ er_locator r) cx)
      else if str_eqb (er_type r) $"swid" then
        when (negb (o_isuri O (er_locator r)) || negb (startswith $"swid" (er_locator r)))
             (msg ($"externalPackageRef locator of type ""swid"" must be a valid URI with scheme swid, but is: " ++ er_locator r) cx)
      else validate_against_regex (er_locator r) (er_type r) cx
  end.
(** external_package_ref_validator.py:41-48 *)
Definition validate_external_package_refs (l : list ext_pkg_ref) (parent v : pystr) : list vmsg :=
  flat_map (fun r => validate_external_package_ref r parent v) l.

(** ** package_validator.py *)

Definition is_none {A} (o : option A) : bool := match o with None => true | Some _ => false end.
Definition is_some {A} (o : option A) : bool := negb (is_none o).

(** package_validator.py:105-160  validate_package *)
Definition validate_package (p : package) (v : pystr) (cx : vctx) : list vmsg :=
  match pk_download p with
  | NVal u => map (fun m => msg ($"package download_location " ++ m) cx) (validate_download_location u)
  | _ => []
  end
  ++ match pk_homepage p with
     | Some (NVal u) => map (fun m => msg ($"homepage " ++ m) cx) (validate_url u)
     | _ => []
     end
  ++ match pk_verif p with
     | Some vc => if negb (pk_files_analyzed p)
                  then [msg ($"verification_code must be None if files_analyzed is False, but is: " ++ o_repr O (Sh_Code vc)) cx]
                  else validate_verification_code vc (pk_id p)
     | None => []
     end
  ++ validate_checksums (pk_checksums p) (pk_id p) v
  ++ validate_external_package_refs (pk_refs p) (pk_id p) v
  ++ (if is22 v then
        when (is_some (pk_purpose p)) (msg $"primary_package_purpose is not supported in SPDX-2.2" cx)
        ++ when (is_some (pk_built p)) (msg $"built_date is not supported in SPDX-2.2" cx)
        ++ when (is_some (pk_release p)) (msg $"release_date is not supported in SPDX-2.2" cx)
        ++ when (is_some (pk_valid_until p)) (msg $"valid_until_date is not supported in SPDX-2.2" cx)
        ++ when (is_none (pk_concluded p)) (msg $"license_concluded is mandatory in SPDX-2.2" cx)
        ++ when (is_none (pk_declared p)) (msg $"license_declared is mandatory in SPDX-2.2" cx)
        ++ when (is_none (pk_copyright p)) (msg $"copyright_text is mandatory in SPDX-2.2" cx)
      else []).

Definition is_file (t : option element_type) : bool := match t with Some TFile => true | _ => false end.

(** package_validator.py:36-102  validate_package_within_document *)
Definition validate_package_within_document (p : package) (v : pystr) (d : document) : list vmsg :=
  let cx := ctx (Some (pk_id p)) (Some (ci_id (do_ci d))) VT_PACKAGE (VE_Package p) in
  map (fun m => msg m cx) (validate_spdx_id (pk_id p) d false false)
  ++ (if negb (pk_files_analyzed p) then
        let contains := filter (fun r => is_file (get_element_type_from_spdx_id (re_related r) d))
                               (filter_by_type_and_origin (do_relationships d) RT_CONTAINS (pk_id p)) in
        let contained := filter (fun r => is_file (get_element_type_from_spdx_id (NVal (re_id r)) d))
                                (filter_by_type_and_target (do_relationships d) RT_CONTAINED_BY (pk_id p)) in
        when (truthy_list (contains ++ contained)) 
             (msg ($"package must contain no elements if files_analyzed is False, but found " ++ o_repr O (Sh_Relationships (contains ++ contained))) cx)
      else [])
  ++ validate_license_expression (pk_concluded p) d (pk_id p) None
  ++ (if truthy_list (pk_info p) then
        if negb (pk_files_analyzed p)
        then [msg ($"license_info_from_files must be None if files_analyzed is False, but is: " ++ o_repr O (Sh_Licenses (pk_info p))) cx]
        else validate_license_expressions (pk_info p) d (pk_id p)
      else [])
  ++ validate_license_expression (pk_declared p) d (pk_id p) None
  ++ validate_package p v cx.

(** package_validator.py:22-33, with a document *)
Definition validate_packages (l : list package) (v : pystr) (d : document) : list vmsg :=
  flat_map (fun p => validate_package_within_document p v d) l.

(** ** file_validator.py *)

(** checksum.py:10-27  the values of the members, by auto() *)
Definition algorithm_number (a : checksum_alg) : N :=
  match a with
  | CA_SHA1 => 1 | CA_SHA224 => 2 | CA_SHA256 => 3 | CA_SHA384 => 4 | CA_SHA512 => 5 | CA_SHA3_256 => 6 | CA_SHA3_384 => 7 | CA_SHA3_512 => 8
  | CA_BLAKE2B_256 => 9 | CA_BLAKE2B_384 => 10 | CA_BLAKE2B_512 => 11 | CA_BLAKE3 => 12 | CA_MD2 => 13 | CA_MD4 => 14 | CA_MD5 => 15
  | CA_MD6 => 16 | CA_ADLER32 => 17
  end%N.
(** str of a list of algorithms *)
Definition algorithms_str (l : list checksum_alg) : pystr :=
  $"[" ++ join $", " (map (fun a => $"<ChecksumAlgorithm." ++ checksum_alg_name a ++ $": " ++ str_of_N (algorithm_number a) ++ $">") l) ++ $"]".
(** file_validator.py:52-85  validate_file *)
Definition validate_file (f : file) (v : pystr) (cx : vctx) : list vmsg :=
  when (startswith $"/" (fi_name f)) (msg ($"file name must not be an absolute path starting with ""/"", but is: " ++ fi_name f) cx)
  ++ when (negb (existsb (fun c => checksum_alg_eqb (ck_alg c) CA_SHA1) (fi_checksums f)))
          (msg ($"checksums must contain a SHA1 algorithm checksum, but only contains: " ++ algorithms_str (map ck_alg (fi_checksums f))) cx)
  ++ validate_checksums (fi_checksums f) (fi_id f) v
  ++ (if is22 v then
        when (is_none (fi_concluded f)) (msg $"license_concluded is mandatory in SPDX-2.2" cx)
        ++ when (negb (truthy_list (fi_info f))) (msg $"license_info_in_file is mandatory in SPDX-2.2" cx)
        ++ when (is_none (fi_copyright f)) (msg $"copyright_text is mandatory in SPDX-2.2" cx)
      else []).

(** file_validator.py:31-49  validate_file_within_document *)
Definition validate_file_within_document (f : file) (v : pystr) (d : document) : list vmsg :=
  let cx := ctx (Some (fi_id f)) (Some (ci_id (do_ci d))) VT_FILE (VE_File f) in
  map (fun m => msg m cx) (validate_spdx_id (fi_id f) d false false)
  ++ validate_license_expression (fi_concluded f) d (fi_id f) None
  ++ validate_license_expressions (fi_info f) d (fi_id f)
  ++ validate_file f v cx.
Definition validate_files (l : list file) (v : pystr) (d : document) : list vmsg :=
  flat_map (fun f => validate_file_within_document f v d) l.

(** ** snippet_validator.py *)

(** snippet_validator.py:70-102  one range *)
Definition validate_range (r : Z * Z) (name : pystr) (cx : vctx) : list vmsg :=
  let shown := $"(" ++ str_of_Z (fst r) ++ $", " ++ str_of_Z (snd r) ++ $")" in
  when (fst r <? 1)%Z (msg (name ++ $" values must be greater than or equal to 1, but is: " ++ shown) cx)
  ++ when (snd r <? fst r)%Z (msg ($"the first value of " ++ name ++ $" must be less than or equal to the second, but is: " ++ shown) cx).

(** snippet_validator.py:60-108  validate_snippet *)
Definition validate_snippet (s : snippet) (v : pystr) (cx : vctx) : list vmsg :=
  validate_range (sn_bytes s) $"byte_range" cx
  ++ match sn_lines s with Some r => validate_range r $"line_range" cx | None => [] end
  ++ (if is22 v then
        when (is_none (sn_concluded s)) (msg $"license_concluded is mandatory in SPDX-2.2" cx)
        ++ when (is_none (sn_copyright s)) (msg $"copyright_text is mandatory in SPDX-2.2" cx)
      else []).

(** snippet_validator.py:30-57  validate_snippet_within_document *)
Definition validate_snippet_within_document (s : snippet) (v : pystr) (d : document) : list vmsg :=
  let cx := ctx (Some (sn_id s)) (Some (ci_id (do_ci d))) VT_SNIPPET (VE_Snippet s) in
  map (fun m => msg m cx) (validate_spdx_id (sn_id s) d false false)
  ++ map (fun m => msg m cx) (validate_spdx_id (sn_file s) d false true)
  ++ validate_license_expression (sn_concluded s) d (sn_id s) None
  ++ validate_license_expressions (sn_info s) d (sn_id s)
  ++ validate_snippet s v cx.
Definition validate_snippets (l : list snippet) (v : pystr) (d : document) : list vmsg :=
  flat_map (fun s => validate_snippet_within_document s v d) l.

(** ** annotation_validator.py:13-31 *)
Definition validate_annotation (a : annotation) (d : document) : list vmsg :=
  validate_actor (an_annotator a) $"annotation"
  ++ map (fun m => msg m (ctx None None VT_ANNOTATION (VE_Annotation a))) (validate_spdx_id (an_id a) d true false).
Definition validate_annotations (l : list annotation) (d : document) : list vmsg :=
  flat_map (fun a => validate_annotation a d) l.

(** ** relationship_validator.py:12-46 *)
Definition validate_relationship (r : relationship) (v : pystr) (d : document) : list vmsg :=
  let cx := ctx None None VT_RELATIONSHIP (VE_Relationship r) in
  map (fun m => msg m cx) (validate_spdx_id (re_id r) d true false)
  ++ match re_related r with
     | NVal i => map (fun m => msg m cx) (validate_spdx_id i d true false)
     | _ => []
     end
  ++ (if is22 v then
        when (rel_type_eqb (re_type r) RT_SPECIFICATION_FOR || rel_type_eqb (re_type r) RT_REQUIREMENT_DESCRIPTION_FOR)
             (msg ($"RelationshipType." ++ rel_type_name (re_type r) ++ $" is not supported in SPDX-2.2") cx)
      else []).
Definition validate_relationships (l : list relationship) (v : pystr) (d : document) : list vmsg :=
  flat_map (fun r => validate_relationship r v d) l.

(** ** extracted_licensing_info_validator.py:14-49 *)
(** ^LicenseRef-[\da-zA-Z.-]+$ *)
Definition licenseref_rx : rx := RCat (rlit $"LicenseRef-") (rplus (RSet id_char)).
Definition validate_extracted_licensing_info (e : extracted) : list vmsg :=
  let cx := ctx None None VT_EXTRACTED_LICENSING_INFO (VE_Extracted e) in
  match el_id e with
  | Some (c :: i') =>
      let i := c :: i' in
      when (negb (match_dollar licenseref_rx i)) 
           (msg ($"license_id must only contain letters, numbers, ""."" and ""-"" and must begin with ""LicenseRef-"", but is: " ++ i) cx)
      ++ when (negb (truthy_opt (el_text e)))
              (msg $"extracted_text must be provided if there is a license_id assigned" cx)
  | _ => []
  end
  ++ flat_map (fun x => map (fun m => msg ($"cross_reference " ++ m) cx) (validate_url x)) (el_xrefs e).
Definition validate_extracted_licensing_infos (l : list extracted) : list vmsg :=
  flat_map validate_extracted_licensing_info l.

(** ** document_validator.py *)

(** document_validator.py:83-86  ids seen before in the list *)
Fixpoint duplicated_ids (seen : list pystr) (l : list pystr) : list pystr :=
  match l with
  | [] => []
  | x :: l' => if str_in x seen then x :: duplicated_ids seen l' else duplicated_ids (x :: seen) l'
  end.

(** the elements of a set, each once *)
Fixpoint distinct (l : list pystr) : list pystr :=
  match l with
  | [] => []
  | x :: l' => if str_in x l' then distinct l' else x :: distinct l'
  end.

(** document_validator.py:25-43  the version message, if any.  [v] is the optional argument spdx_version. *)
Definition effective_version (d : document) (v : option pystr) : pystr :=
  match v with
  | None | Some [] => ci_version (do_ci d)
  | Some x => x
  end.
Definition version_messages (d : document) (v : option pystr) : list vmsg :=
  let cx := ctx (Some (ci_id (do_ci d))) None VT_DOCUMENT VE_None in
  let dv := ci_version (do_ci d) in
  if negb (str_in dv [V22; V23]) then [msg ($"only SPDX versions ""SPDX-2.2"" and ""SPDX-2.3"" are supported, but the document's spdx_version is: " ++ dv) cx]
  else if negb (str_eqb (effective_version d v) dv)
  then [msg ($"provided SPDX version " ++ effective_version d v ++ $" does not match the document's SPDX version " ++ dv) cx]
  else [].

(** document_validator.py:45-50 *)
Definition CANCELLED : pystr :=
  $"There are issues concerning the SPDX version of the document. As subsequent validation relies on the correct version, the validation process has been cancelled.".
(** document_validator.py:19-97  validate_full_spdx_document *)
Definition validate_full_spdx_document (d : document) (ver : option pystr) : list vmsg :=
  let cx := ctx (Some (ci_id (do_ci d))) None VT_DOCUMENT VE_None in
  let v := effective_version d ver in
  match version_messages d ver with
  | _ :: _ => version_messages d ver ++ [msg CANCELLED cx]
  | [] =>
      validate_creation_info (do_ci d) v
      ++ validate_packages (do_packages d) v d
      ++ validate_files (do_files d) v d
      ++ validate_snippets (do_snippets d) v d
      ++ validate_annotations (do_annotations d) d
      ++ validate_relationships (do_relationships d) v d
      ++ validate_extracted_licensing_infos (do_extracted d)
      ++ (let doc_id := ci_id (do_ci d) in
          let describes := filter_by_type_and_origin (do_relationships d) RT_DESCRIBES doc_id in
          let described_by := filter_by_type_and_target (do_relationships d) RT_DESCRIBED_BY doc_id in
          let only_a_single_package :=
            Nat.eqb (List.length (do_packages d)) 1 && negb (truthy_list (do_files d)) && negb (truthy_list (do_snippets d)) in
          when (negb only_a_single_package && negb (truthy_list (describes ++ described_by)))
               (msg ($"there must be at least one relationship """ ++ doc_id ++ $" DESCRIBES ..."" or ""... DESCRIBED_BY " ++ doc_id
                     ++ $""" when there is not only a single package present") cx))
      ++ when (truthy_list (duplicated_ids [] (get_list_of_all_spdx_ids d)))
              (msg ($"every spdx_id must be unique within the document, but found the following duplicates: "
                    ++ o_repr O (Sh_Texts (sort (distinct (duplicated_ids [] (get_list_of_all_spdx_ids d)))))) cx)
  end.

(** writer/write_utils.py:13-20  validate_and_deduplicate *)
Definition validate_and_deduplicate (d : document) (validate drop : bool) : result document :=
  if validate && truthy_list (validate_full_spdx_document d None)
  then Raise (EValue $"Document is not valid.")
  else Ok (if drop then create_document_without_duplicates (o_lic_eqb O) d else d).

End WithOracles.
