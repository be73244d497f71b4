(** The tag-value lexer: spdx/parser/tagvalue/lexer.py, as run by ply.lex (ply is not part of the repository).

    ply tries the rules of the current state in the order of their definition and takes the first one whose pattern
    matches at the current position. *)
From Verif Require Import Py PyRe Data.

(** lexer.py:19-102: the reserved words except NOASSERTION and NONE *)
Inductive tag :=
| T_SPDXVersion | T_DataLicense | T_DocumentName | T_SPDXID | T_DocumentComment | T_DocumentNamespace
| T_ExternalDocumentRef | T_Creator | T_Created | T_CreatorComment | T_LicenseListVersion | T_Annotator
| T_AnnotationDate | T_AnnotationComment | T_AnnotationType | T_SPDXREF | T_Relationship
| T_RelationshipComment | T_PackageName | T_PackageVersion | T_PackageDownloadLocation | T_FilesAnalyzed
| T_PackageSummary | T_PackageSourceInfo | T_PackageFileName | T_PackageSupplier | T_PackageOriginator
| T_PackageChecksum | T_PackageVerificationCode | T_PackageDescription | T_PackageComment
| T_PackageLicenseDeclared | T_PackageLicenseConcluded | T_PackageLicenseInfoFromFiles
| T_PackageLicenseComments | T_PackageCopyrightText | T_PackageHomePage | T_ExternalRef
| T_ExternalRefComment | T_PackageAttributionText | T_PrimaryPackagePurpose | T_BuiltDate | T_ReleaseDate
| T_ValidUntilDate | T_FileName | T_FileType | T_FileChecksum | T_LicenseConcluded | T_LicenseInfoInFile
| T_FileCopyrightText | T_LicenseComments | T_FileComment | T_FileNotice | T_FileContributor
| T_FileAttributionText | T_LicenseID | T_ExtractedText | T_LicenseName | T_LicenseCrossReference
| T_LicenseComment | T_SnippetSPDXID | T_SnippetName | T_SnippetComment | T_SnippetCopyrightText
| T_SnippetLicenseComments | T_SnippetFromFileSPDXID | T_SnippetLicenseConcluded | T_LicenseInfoInSnippet
| T_SnippetAttributionText | T_SnippetByteRange | T_SnippetLineRange.

(** The reserved words in the order of the dictionary. *)
Definition tag_all : list tag :=
  [T_SPDXVersion; T_DataLicense; T_DocumentName; T_SPDXID; T_DocumentComment; T_DocumentNamespace;
   T_ExternalDocumentRef; T_Creator; T_Created; T_CreatorComment; T_LicenseListVersion; T_Annotator;
   T_AnnotationDate; T_AnnotationComment; T_AnnotationType; T_SPDXREF; T_Relationship; T_RelationshipComment;
   T_PackageName; T_PackageVersion; T_PackageDownloadLocation; T_FilesAnalyzed; T_PackageSummary;
   T_PackageSourceInfo; T_PackageFileName; T_PackageSupplier; T_PackageOriginator; T_PackageChecksum;
   T_PackageVerificationCode; T_PackageDescription; T_PackageComment; T_PackageLicenseDeclared;
   T_PackageLicenseConcluded; T_PackageLicenseInfoFromFiles; T_PackageLicenseComments; T_PackageCopyrightText;
   T_PackageHomePage; T_ExternalRef; T_ExternalRefComment; T_PackageAttributionText; T_PrimaryPackagePurpose;
   T_BuiltDate; T_ReleaseDate; T_ValidUntilDate; T_FileName; T_FileType; T_FileChecksum; T_LicenseConcluded;
   T_LicenseInfoInFile; T_FileCopyrightText; T_LicenseComments; T_FileComment; T_FileNotice;
   T_FileContributor; T_FileAttributionText; T_LicenseID; T_ExtractedText; T_LicenseName;
   T_LicenseCrossReference; T_LicenseComment; T_SnippetSPDXID; T_SnippetName; T_SnippetComment;
   T_SnippetCopyrightText; T_SnippetLicenseComments; T_SnippetFromFileSPDXID; T_SnippetLicenseConcluded;
   T_LicenseInfoInSnippet; T_SnippetAttributionText; T_SnippetByteRange; T_SnippetLineRange].

(** The word itself. *)
Definition tag_name (t : tag) : pystr :=
  match t with
  | T_SPDXVersion => $"SPDXVersion" | T_DataLicense => $"DataLicense" | T_DocumentName => $"DocumentName"
  | T_SPDXID => $"SPDXID" | T_DocumentComment => $"DocumentComment"
  | T_DocumentNamespace => $"DocumentNamespace" | T_ExternalDocumentRef => $"ExternalDocumentRef"
  | T_Creator => $"Creator" | T_Created => $"Created" | T_CreatorComment => $"CreatorComment"
  | T_LicenseListVersion => $"LicenseListVersion" | T_Annotator => $"Annotator"
  | T_AnnotationDate => $"AnnotationDate" | T_AnnotationComment => $"AnnotationComment"
  | T_AnnotationType => $"AnnotationType" | T_SPDXREF => $"SPDXREF" | T_Relationship => $"Relationship"
  | T_RelationshipComment => $"RelationshipComment" | T_PackageName => $"PackageName"
  | T_PackageVersion => $"PackageVersion" | T_PackageDownloadLocation => $"PackageDownloadLocation"
  | T_FilesAnalyzed => $"FilesAnalyzed" | T_PackageSummary => $"PackageSummary"
  | T_PackageSourceInfo => $"PackageSourceInfo" | T_PackageFileName => $"PackageFileName"
  | T_PackageSupplier => $"PackageSupplier" | T_PackageOriginator => $"PackageOriginator"
  | T_PackageChecksum => $"PackageChecksum" | T_PackageVerificationCode => $"PackageVerificationCode"
  | T_PackageDescription => $"PackageDescription" | T_PackageComment => $"PackageComment"
  | T_PackageLicenseDeclared => $"PackageLicenseDeclared"
  | T_PackageLicenseConcluded => $"PackageLicenseConcluded"
  | T_PackageLicenseInfoFromFiles => $"PackageLicenseInfoFromFiles"
  | T_PackageLicenseComments => $"PackageLicenseComments" | T_PackageCopyrightText => $"PackageCopyrightText"
  | T_PackageHomePage => $"PackageHomePage" | T_ExternalRef => $"ExternalRef"
  | T_ExternalRefComment => $"ExternalRefComment" | T_PackageAttributionText => $"PackageAttributionText"
  | T_PrimaryPackagePurpose => $"PrimaryPackagePurpose" | T_BuiltDate => $"BuiltDate"
  | T_ReleaseDate => $"ReleaseDate" | T_ValidUntilDate => $"ValidUntilDate" | T_FileName => $"FileName"
  | T_FileType => $"FileType" | T_FileChecksum => $"FileChecksum" | T_LicenseConcluded => $"LicenseConcluded"
  | T_LicenseInfoInFile => $"LicenseInfoInFile" | T_FileCopyrightText => $"FileCopyrightText"
  | T_LicenseComments => $"LicenseComments" | T_FileComment => $"FileComment" | T_FileNotice => $"FileNotice"
  | T_FileContributor => $"FileContributor" | T_FileAttributionText => $"FileAttributionText"
  | T_LicenseID => $"LicenseID" | T_ExtractedText => $"ExtractedText" | T_LicenseName => $"LicenseName"
  | T_LicenseCrossReference => $"LicenseCrossReference" | T_LicenseComment => $"LicenseComment"
  | T_SnippetSPDXID => $"SnippetSPDXID" | T_SnippetName => $"SnippetName"
  | T_SnippetComment => $"SnippetComment" | T_SnippetCopyrightText => $"SnippetCopyrightText"
  | T_SnippetLicenseComments => $"SnippetLicenseComments" | T_SnippetFromFileSPDXID => $"SnippetFromFileSPDXID"
  | T_SnippetLicenseConcluded => $"SnippetLicenseConcluded" | T_LicenseInfoInSnippet => $"LicenseInfoInSnippet"
  | T_SnippetAttributionText => $"SnippetAttributionText" | T_SnippetByteRange => $"SnippetByteRange"
  | T_SnippetLineRange => $"SnippetLineRange"
  end.

Definition tag_eq_dec (x y : tag) : {x = y} + {x <> y}.
Proof. decide equality. Defined.
Definition tag_eqb (x y : tag) : bool := if tag_eq_dec x y then true else false.

(** Token types: lexer.py:105-114 and the type 'error' of ply *)
Inductive ttype :=
| TT_TAG (t : tag) | TT_UNKNOWN_TAG | TT_NO_ASSERTION | TT_NONE
| TT_TEXT | TT_LINE | TT_CHECKSUM | TT_TOOL_VALUE | TT_ORGANIZATION_VALUE | TT_PERSON_VALUE | TT_ISO8601_DATE
| TT_ERROR.

Record token := { tk_type : ttype; tk_value : pystr }.

(** self.reserved.get(word): the token type of a reserved word *)
Definition reserved (word : pystr) : option ttype :=
  if str_eqb word $"NOASSERTION" then Some TT_NO_ASSERTION
  else if str_eqb word $"NONE" then Some TT_NONE
  else match enum_lookup tag_all tag_name word with Some t => Some (TT_TAG t) | None => None end.

(** ** Patterns *)

(** [.] *)
Definition not_lf (c : char) : bool := negb (N.eqb c LF).
(** lexer.py:119 *)
Definition text_re : prx := pcats [plit $":"; PStar is_space; plit $"<text>"].
(** lexer.py:124 *)
Definition text_end_re : prx := pcats [plit $"</text>"; PStar is_space].
(** lexer.py:140-143 *)
Definition lex_algorithms : list pystr :=
  [ $"ADLER32"; $"BLAKE2b-256"; $"BLAKE2b-384"; $"BLAKE2b-512"; $"BLAKE3"; $"MD2"; $"MD4"; $"MD5"; $"MD6"; $"SHA1";
    $"SHA224"; $"SHA256"; $"SHA384"; $"SHA512"; $"SHA3-256"; $"SHA3-384"; $"SHA3-512" ].
(** [a-f0-9] *)
Definition lex_hex (c : char) : bool := is_digit09 c || ((97 <=? c) && (c <=? 102))%N.
Definition checksum_re : prx :=
  pcats [plit $":"; PStar is_space; palts (map plit lex_algorithms); plit $":"; PStar is_space; PStar lex_hex].
(** lexer.py:148, 153, 158 *)
Definition actor_re (prefix : pystr) : prx := pcats [plit $":"; PStar is_space; plit prefix; pplus not_lf].
(** lexer.py:163 *)
Definition date_re : prx :=
  pcats [plit $":"; PStar is_space; pexact 4 is_digit; plit $"-"; pexact 2 is_digit; plit $"-"; pexact 2 is_digit;
         plit $"T"; pexact 2 is_digit; plit $":"; pexact 2 is_digit; plit $":"; pexact 2 is_digit; plit $"Z"].
(** lexer.py:168 *)
Definition keyword_re : prx := pplus is_alpha.
(** lexer.py:174 *)
Definition line_re : prx := pcats [plit $":"; pplus not_lf].
(** lexer.py:183 *)
Definition comment_re : prx := pcats [plit $"#"; PStar not_lf].
(** lexer.py:187 *)
Definition newline_re : prx := pplus (N.eqb LF).
(** lexer.py:191 *)
Definition blank (c : char) : bool := N.eqb c #" " || N.eqb c 9%N.
Definition whitespace_re : prx := pplus blank.

(** the text matched at the start of [s] *)
Definition matched (r : prx) (s : pystr) : option pystr :=
  match re_match_rest r s with
  | Some (rest, _) => Some (firstn (List.length s - List.length rest) s)
  | None => None
  end.

(** ** Rules *)

(** The lexer state: INITIAL, or "text" with the text read since t.lexer.text_start *)
Inductive lmode := LInitial | LText (read : pystr).

(** What one rule does: the token it returns (None: the text is dropped), the number of characters consumed, the new
    state and the increase of lexer.lineno *)
Definition rule_result := (option token * nat * lmode * N)%type.
Definition emit (t : ttype) (v m : pystr) : rule_result :=
  (Some {| tk_type := t; tk_value := v |}, List.length m, LInitial, 0%N).
Definition drop (m : pystr) : rule_result := (None, List.length m, LInitial, 0%N).
(** t.value[1:].strip() *)
Definition value_of (m : pystr) : pystr := strip (skipn 1 m).
Definition count_lf (s : pystr) : N := N.of_nat (List.length (filter (N.eqb LF) s)).

(** the rules of the state INITIAL, lexer.py:119-122 and 140-193 *)
Definition initial_rules : list (prx * (pystr -> rule_result)) :=
  [ (text_re, fun m => (None, List.length m, LText $"<text>", 0%N));
    (checksum_re, fun m => emit TT_CHECKSUM (value_of m) m);
    (actor_re $"Tool:", fun m => emit TT_TOOL_VALUE (value_of m) m);
    (actor_re $"Organization:", fun m => emit TT_ORGANIZATION_VALUE (value_of m) m);
    (actor_re $"Person:", fun m => emit TT_PERSON_VALUE (value_of m) m);
    (date_re, fun m => emit TT_ISO8601_DATE (value_of m) m);
    (keyword_re, fun m => emit (match reserved m with Some t => t | None => TT_UNKNOWN_TAG end) (strip m) m);
    (line_re, fun m => let v := value_of m in emit (match reserved v with Some t => t | None => TT_LINE end) v m);
    (comment_re, drop);
    (newline_re, fun m => (None, List.length m, LInitial, N.of_nat (List.length m)));
    (whitespace_re, drop) ].

(** the first rule that matches; t_error (lexer.py:204-207) otherwise *)
Fixpoint first_rule (rules : list (prx * (pystr -> rule_result))) (s : pystr) : rule_result :=
  match rules with
  | [] => (Some {| tk_type := TT_ERROR; tk_value := $"Lexer error" |}, 1, LInitial, 0%N)
  | (r, act) :: rules' => match matched r s with Some m => act m | None => first_rule rules' s end
  end.

(** the rules of the state "text", lexer.py:124-135 *)
Definition text_step (read s : pystr) : rule_result :=
  match matched text_end_re s with
  | Some m => let v := read ++ m in
              (Some {| tk_type := TT_TEXT; tk_value := strip v |}, List.length m, LInitial, count_lf v)
  | None => (None, 1, LText (read ++ firstn 1 s), 0%N)
  end.

Definition lex_step (m : lmode) (s : pystr) : rule_result :=
  match m with LInitial => first_rule initial_rules s | LText read => text_step read s end.

(** The tokens of a text with the line number of each; [skip] characters at the start are already consumed.  (Every
    rule consumes at least one character.) *)
Fixpoint lex (skip : nat) (m : lmode) (line : N) (s : pystr) : list (token * N) :=
  match s with
  | [] => []
  | _ :: s' =>
      match skip with
      | S k => lex k m line s'
      | O => let '(t, n, m', dl) := lex_step m s in
             let rest := lex (n - 1) m' (line + dl)%N s' in
             match t with Some t => (t, line) :: rest | None => rest end
      end
  end.
(** lexer.input(text), then lexer.token() until the end *)
Definition tokenize (text : pystr) : list (token * N) := lex 0 LInitial 1 text.
