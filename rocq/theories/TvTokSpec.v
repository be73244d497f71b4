(** Specifications: which tokens a tag-value file consists of. *)
From Verif Require Import Py Data Oracles Basics BasicsSpec JsonSpec TvWriter TvLexer TvParser TvSpec.

(** the token of a tag *)
Definition tag_tok (t : tag) : token := {| tk_type := TT_TAG t; tk_value := tag_name t |}.
Definition actor_token (t : actor_type) : ttype :=
  match t with AT_TOOL => TT_TOOL_VALUE | AT_PERSON => TT_PERSON_VALUE | AT_ORGANIZATION => TT_ORGANIZATION_VALUE end.

(** How values are spelled in a file, and the token that stands for each. *)
Inductive Spelled : pystr -> token -> Prop :=
| Sp_line v : Line v -> Spelled v {| tk_type := TT_LINE; tk_value := v |}
| Sp_text v : contains $"</text>" v = false ->
    Spelled ($"<text>" ++ v ++ $"</text>") {| tk_type := TT_TEXT; tk_value := $"<text>" ++ v ++ $"</text>" |}
| Sp_noassertion : Spelled $"NOASSERTION" {| tk_type := TT_NO_ASSERTION; tk_value := $"NOASSERTION" |}
| Sp_none : Spelled $"NONE" {| tk_type := TT_NONE; tk_value := $"NONE" |}
| Sp_actor a : ReadableActor a -> Spelled (actor_str a) {| tk_type := actor_token (ac_type a); tk_value := actor_str a |}
| Sp_date d v : PlainDate d -> datetime_to_iso_string d = Ok v -> Spelled v {| tk_type := TT_ISO8601_DATE; tk_value := v |}
| Sp_checksum c v : TvChecksum c -> write_checksum_to_tag_value c = Ok v -> Spelled v {| tk_type := TT_CHECKSUM; tk_value := v |}.

(** A text of lines "Tag: value", empty lines and comments, with the tags and the tokens of the values. *)
Inductive Lines : pystr -> list (tag * token) -> Prop :=
| Lines_nil : Lines [] []
| Lines_filler s text l : Filler s -> Lines text l -> Lines (s ++ text) l
| Lines_field t v k text l : Spelled v k -> Lines text l -> Lines (tag_name t ++ $": " ++ v ++ [LF] ++ text) ((t, k) :: l).
(** the tokens of such a text *)
Definition tokens_of (l : list (tag * token)) : list token := flat_map (fun x => [tag_tok (fst x); snd x]) l.

(** A tag, the token of its value and of the comment that follows. *)
Record grp := { g_tag : tag; g_val : token; g_com : option token }.
Definition fields (g : grp) : list (tag * token) :=
  (g_tag g, g_val g) :: match g_com g, comment_tag (g_tag g) with Some c, Some t => [(t, c)] | _, _ => [] end.
(** the values are of the kinds that the grammar asks for *)
Definition Good (g : grp) : Prop :=
  (exists vk, value_kind (g_tag g) = Some vk /\ accepts vk (tk_type (g_val g)) = true)
  /\ match g_com g with
     | Some c => comment_tag (g_tag g) <> None /\ accepts K_text_or_line (tk_type c) = true
     | None => True
     end.
(** a text that consists of such attributes *)
Definition Attributes (text : pystr) (gs : list grp) : Prop := Lines text (flat_map fields gs) /\ Forall Good gs.

(** the tags that a document, and an element, has at most once *)
Definition document_tags : list tag :=
  [T_SPDXVersion; T_DataLicense; T_DocumentName; T_DocumentNamespace; T_DocumentComment; T_LicenseListVersion; T_Created;
   T_CreatorComment].
Definition element_tags : list tag :=
  [T_PackageVersion; T_PackageFileName; T_PackageSupplier; T_PackageOriginator; T_PackageDownloadLocation; T_FilesAnalyzed;
   T_PackageVerificationCode; T_PackageHomePage; T_PackageSourceInfo; T_PackageLicenseConcluded; T_PackageLicenseDeclared;
   T_PackageLicenseComments; T_PackageCopyrightText; T_PackageSummary; T_PackageDescription; T_PackageComment;
   T_PrimaryPackagePurpose; T_ReleaseDate; T_BuiltDate; T_ValidUntilDate;
   T_LicenseConcluded; T_LicenseComments; T_FileCopyrightText; T_FileComment; T_FileNotice;
   T_SnippetFromFileSPDXID; T_SnippetByteRange; T_SnippetLineRange; T_SnippetLicenseConcluded; T_SnippetLicenseComments;
   T_SnippetCopyrightText; T_SnippetComment; T_SnippetName;
   T_ExtractedText; T_LicenseName; T_LicenseComment; T_AnnotationDate; T_AnnotationType; T_SPDXREF; T_AnnotationComment].
(** the tags with which an element begins *)
Definition start_tags : list tag := [T_PackageName; T_FileName; T_SnippetSPDXID; T_LicenseID; T_Relationship; T_Annotator].

(** ** Malformed relationships *)
(** the kinds of token that begin an attribute: all tags, known or not, except the two comments that belong to another tag *)
Definition opens (t : ttype) : bool :=
  match t with
  | TT_TAG (T_ExternalRefComment | T_RelationshipComment) => false
  | TT_TAG _ | TT_UNKNOWN_TAG => true
  | _ => false
  end.
(** what stands between a tag and the next attribute *)
Fixpoint own (l : list ttype) : list ttype :=
  match l with
  | [] => []
  | t :: l' => if opens t then [] else t :: own l'
  end.
(** the grammar of a relationship: a line, perhaps followed by its comment *)
Definition complete (q : list ttype) : bool :=
  match q with
  | [TT_LINE] => true
  | [TT_LINE; TT_TAG T_RelationshipComment; (TT_TEXT | TT_LINE | TT_NO_ASSERTION | TT_NONE)] => true
  | _ => false
  end.
(** a relationship that the end of the file cuts off *)
Definition cut_off (q : list ttype) : bool :=
  match q with [] | [TT_LINE; TT_TAG T_RelationshipComment] => true | _ => false end.
(** a relationship followed by these tokens is not complete, and not just cut off by the end of the file *)
Definition Malformed (after : list ttype) : Prop :=
  complete (own after) = false /\ (existsb opens after = false -> cut_off (own after) = false).
Definition token_types (text : pystr) : list ttype := map (fun x => tk_type (fst x)) (tokenize (universal_newlines text)).
