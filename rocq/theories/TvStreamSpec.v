(** Which attributes the tag-value parser takes from a file, and what it passes over without a message. *)
From Verif Require Import Py Data Oracles Basics TvLexer TvParser TvTokSpec TvReadSpec.

(** a token that begins an attribute: all tags, known or not, except the two comments that belong to another tag *)
Definition Opens (k : token) : Prop := opens (tk_type k) = true.
Definition Inner (k : token) : Prop := opens (tk_type k) = false.
(** a value for the tag *)
Definition ValueOf (t : tag) (k : token) : Prop := exists vk, value_kind t = Some vk /\ accepts vk (tk_type k) = true.
(** what stands between a tag and the next attribute is its value, perhaps with a comment *)
Definition Whole (t : tag) (q : list token) : Prop :=
  exists g, Good g /\ g_tag g = t /\ tokens_of (fields g) = tag_tok t :: q.
(** the end of the file cuts the attribute off: its value, or its comment, is missing *)
Inductive CutOff (t : tag) : list token -> Prop :=
| Cut_value : value_kind t <> None -> CutOff t []
| Cut_comment v c : ValueOf t v -> comment_tag t = Some c -> CutOff t [v; tag_tok c].
(** tags of elements other than those with which an element begins *)
Definition Inside (t : tag) : Prop :=
  value_kind t <> None /\ ~ In t creation_tags /\ ~ In t start_tags /\ t <> T_SPDXID.

(** the kinds of value that an unknown tag may have to be reported *)
Definition unknown_values : list ttype := [TT_TEXT; TT_LINE; TT_NO_ASSERTION; TT_NONE; TT_ISO8601_DATE; TT_PERSON_VALUE].

(** [Taken between l gs broken]: of the tokens l, the attributes gs are taken; [between]: no attribute precedes l
    immediately; [broken]: there are attributes inside elements whose values do not fit their tags. *)
Inductive Taken : bool -> list token -> list grp -> bool -> Prop :=
| Taken_end b : Taken b [] [] false
(** an attribute *)
| Taken_attribute b g l gs br : Good g -> Taken false l gs br -> Taken b (tokens_of (fields g) ++ l) (g :: gs) br
(** at the beginning, and after what is passed over below, everything up to the next attribute is passed over *)
| Taken_stray k l gs br : Inner k -> Taken true l gs br -> Taken true (k :: l) gs br
(** an attribute without value, or with a comment tag without value, at the end of the file *)
| Taken_cut b t q : CutOff t q -> Taken b (tag_tok t :: q) [] false
(** SPDXID with another token than a line after it, even if it begins an attribute; SPDXID with more after its line *)
| Taken_no_id b k l gs br : tk_type k <> TT_LINE -> Taken true l gs br -> Taken b (tag_tok T_SPDXID :: k :: l) gs br
| Taken_long_id b v k l gs br : tk_type v = TT_LINE -> Inner k -> Taken true l gs br ->
    Taken b (tag_tok T_SPDXID :: v :: k :: l) gs br
(** an unknown tag with something after it that is not a value, or after its value *)
| Taken_unknown b u k l gs br : tk_type u = TT_UNKNOWN_TAG -> Inner k -> ~ In (tk_type k) unknown_values ->
    Taken true l gs br -> Taken b (u :: k :: l) gs br
| Taken_long_unknown b u v k l gs br : tk_type u = TT_UNKNOWN_TAG -> In (tk_type v) unknown_values -> Inner k ->
    Taken true l gs br -> Taken b (u :: v :: k :: l) gs br
(** an attribute inside an element whose value does not fit *)
| Taken_broken b t q l gs br : Inside t -> Forall Inner q -> ~ Whole t q -> (l = [] -> ~ CutOff t q) ->
    Taken false l gs br -> Taken b (tag_tok t :: q ++ l) gs true.

(** A message about a broken attribute waits for the next element; without elements nobody sees it. *)
Definition Unnoticed (gs : list grp) : Prop := Forall (fun g => ~ In (g_tag g) start_tags) gs.

(** ** Which values a tag takes: the kinds of token *)
Definition texts : list ttype := [TT_TEXT; TT_LINE; TT_NO_ASSERTION; TT_NONE].
Definition takes (t : tag) : list ttype :=
  match t with
  | T_SPDXID | T_SPDXVersion | T_DataLicense | T_DocumentName | T_DocumentNamespace | T_LicenseListVersion
  | T_ExternalDocumentRef
  | T_PackageName | T_PackageVersion | T_PackageFileName | T_FilesAnalyzed | T_PackageVerificationCode | T_ExternalRef
  | T_PrimaryPackagePurpose
  | T_FileName | T_FileType | T_FileContributor
  | T_SnippetSPDXID | T_SnippetFromFileSPDXID | T_SnippetByteRange | T_SnippetLineRange | T_SnippetName
  | T_AnnotationType | T_SPDXREF | T_Relationship | T_LicenseID | T_LicenseCrossReference => [TT_LINE]
  | T_DocumentComment | T_CreatorComment
  | T_PackageSourceInfo | T_PackageLicenseComments | T_PackageSummary | T_PackageDescription | T_PackageComment
  | T_PackageAttributionText
  | T_LicenseComments | T_FileComment | T_FileNotice | T_FileAttributionText
  | T_SnippetLicenseComments | T_SnippetComment | T_SnippetAttributionText
  | T_AnnotationComment | T_ExtractedText | T_LicenseComment => texts
  | T_PackageDownloadLocation | T_PackageHomePage | T_PackageCopyrightText | T_FileCopyrightText | T_SnippetCopyrightText => texts
  | T_LicenseName => [TT_LINE; TT_NO_ASSERTION]
  | T_PackageLicenseConcluded | T_PackageLicenseInfoFromFiles | T_PackageLicenseDeclared | T_LicenseConcluded
  | T_LicenseInfoInFile | T_SnippetLicenseConcluded | T_LicenseInfoInSnippet => [TT_LINE; TT_NO_ASSERTION; TT_NONE]
  | T_PackageSupplier | T_PackageOriginator => [TT_PERSON_VALUE; TT_ORGANIZATION_VALUE; TT_NO_ASSERTION]
  | T_Creator | T_Annotator => [TT_PERSON_VALUE; TT_ORGANIZATION_VALUE; TT_TOOL_VALUE]
  | T_Created | T_ReleaseDate | T_BuiltDate | T_ValidUntilDate | T_AnnotationDate => [TT_ISO8601_DATE]
  | T_PackageChecksum | T_FileChecksum => [TT_CHECKSUM]
  | T_ExternalRefComment | T_RelationshipComment => []
  end.
(** a comment may follow these *)
Definition commented : list tag := [T_ExternalRef; T_Relationship].

(** the tokens of a file *)
Definition tokens (text : pystr) : list token := map fst (tokenize text).

(** a text whose lines end with [e] instead of LF *)
Definition with_line_ends (e text : pystr) : pystr := flat_map (fun c => if N.eqb c LF then e else [c]) text.
