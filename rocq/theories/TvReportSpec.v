(** Vocabulary for the messages about one mistake in a tag-value text. *)
From Verif Require Import Py Data Oracles Basics BasicsSpec Json Construct JsonConv JsonParse TvWriter TvLexer TvSpec TvTokSpec TvParser TvReadSpec.

(** the number of the line that follows a text *)
Definition line_after (before : pystr) : pystr := str_of_N (1 + count_lf before)%N.
(** the element that an attribute with one of these tags belongs to, by the tag with which such an element begins *)
Definition belongs (t : tag) : option tag :=
  if is_in t [T_PackageVersion; T_PackageFileName; T_PackageSupplier; T_PackageOriginator; T_PackageDownloadLocation; T_FilesAnalyzed;
              T_PackageVerificationCode; T_PackageHomePage; T_PackageSourceInfo; T_PackageLicenseConcluded; T_PackageLicenseDeclared;
              T_PackageLicenseComments; T_PackageCopyrightText; T_PackageSummary; T_PackageDescription; T_PackageComment;
              T_PrimaryPackagePurpose; T_ReleaseDate; T_BuiltDate; T_ValidUntilDate; T_PackageChecksum; T_PackageLicenseInfoFromFiles;
              T_ExternalRef]
  then Some T_PackageName
  else if is_in t [T_LicenseConcluded; T_LicenseComments; T_FileCopyrightText; T_FileComment; T_FileNotice; T_FileContributor;
                   T_FileAttributionText; T_LicenseInfoInFile; T_FileType; T_FileChecksum]
  then Some T_FileName
  else if is_in t [T_SnippetFromFileSPDXID; T_SnippetByteRange; T_SnippetLineRange; T_SnippetLicenseConcluded; T_SnippetLicenseComments;
                   T_SnippetCopyrightText; T_SnippetComment; T_SnippetName; T_SnippetAttributionText; T_LicenseInfoInSnippet]
  then Some T_SnippetSPDXID
  else if is_in t [T_ExtractedText; T_LicenseName; T_LicenseComment; T_LicenseCrossReference] then Some T_LicenseID
  else if is_in t [T_AnnotationDate; T_AnnotationType; T_SPDXREF; T_AnnotationComment] then Some T_Annotator
  else None.
(** the name of the kind of element that begins with a tag *)
Definition element_name (start : tag) : pystr :=
  match start with
  | T_PackageName => $"Package" | T_FileName => $"File" | T_SnippetSPDXID => $"Snippet" | T_LicenseID => $"ExtractedLicensingInfo"
  | T_Annotator => $"Annotation" | T_Relationship => $"Relationship"
  | _ => []
  end.
(** the element that is open after some attributes: the last one that has begun *)
Definition opened (gs : list grp) : option tag := find (fun t => is_in t start_tags) (rev (map g_tag gs)).
(** the attributes of that element so far *)
Fixpoint of_current (rev_tags : list tag) : list tag :=
  match rev_tags with [] => [] | t :: l => if is_in t start_tags then [] else t :: of_current l end.
Definition given (gs : list grp) : list tag := of_current (rev (map g_tag gs)).

(** A mistake in the value of an attribute, with its message; the first argument is what the message ends with, the last line number. *)
Definition a_line (t : tag) (v : pystr) (comment : option token) : grp :=
  {| g_tag := t; g_val := {| tk_type := TT_LINE; tk_value := v |}; g_com := comment |}.
Inductive Mistake (n : pystr) : grp -> pystr -> Prop :=
| M_file_type v : (forall x, file_type_name x <> strip v) -> Mistake n (a_line T_FileType v None) ($"Invalid FileType: " ++ v ++ $". Line " ++ n)
| M_category v c category ty locator : split_on #" " v = [category; ty; locator] -> (forall x, ref_category_name x <> replace $"-" $"_" category) ->
    Mistake n (a_line T_ExternalRef v c) ($"Invalid ExternalPackageRefCategory: " ++ category ++ $". Line: " ++ n)
| M_reference v c : List.length (split_on #" " v) <> 3 ->
    Mistake n (a_line T_ExternalRef v c) ($"Couldn't split PackageExternalRef in category, reference_type and locator. Line: " ++ n)
| M_purpose v : (forall x, purpose_name x <> replace $"-" $"_" v) -> Mistake n (a_line T_PrimaryPackagePurpose v None) ($"Invalid PrimaryPackagePurpose: " ++ v ++ $". Line: " ++ n)
| M_annotation v : (forall x, annotation_type_name x <> v) -> Mistake n (a_line T_AnnotationType v None) ($"Invalid AnnotationType: " ++ v ++ $". Line: " ++ n)
| M_analyzed v : v <> $"true" -> v <> $"false" ->
    Mistake n (a_line T_FilesAnalyzed v None) ($"The value of FilesAnalyzed must be either ""true"" or ""false"", but is: " ++ v)
| M_code v : (forall h r, v = h ++ r -> List.length h = 40 -> forallb hex h = false) ->
    Mistake n (a_line T_PackageVerificationCode v None) ($"Error while parsing PackageVerificationCode: Value did not match expected format. Line: " ++ n)
| M_range t v : In t [T_SnippetByteRange; T_SnippetLineRange] -> (forall a b, v = a ++ $":" ++ b -> a = [] \/ b = [] \/ forallb is_digit (a ++ b) = false) ->
    Mistake n (a_line t v None) ($"Value for " ++ tag_name t ++ $" doesn't match valid range pattern. Line: " ++ n).
(** Mistakes in the part about the document, with the messages; the message about a version has no line *)
Inductive HeaderMistake (n : pystr) : grp -> pystr -> Prop :=
| M_version v : (forall x, ~ VersionText x v) -> HeaderMistake n (a_line T_LicenseListVersion v None) (v ++ $" is not a valid version string")
| M_checksum v : (forall a b h r, v = a ++ $"SHA1:" ++ b ++ h ++ r -> forallb is_space b = true -> List.length h = 40 -> forallb hex h = false) ->
    HeaderMistake n (a_line T_ExternalDocumentRef v None) ($"Error while parsing ExternalDocumentRef: Couldn't match Checksum. Line: " ++ n)
| M_parts a h : List.length h = 40 -> forallb hex h = true -> List.length (split_on #" " (strip a)) <> 2 ->
    HeaderMistake n (a_line T_ExternalDocumentRef (a ++ $"SHA1: " ++ h) None)
      ($"Error while parsing ExternalDocumentRef: Couldn't split the first part of the value into document_ref_id and document_uri. Line: " ++ n).
(** can the library for license expressions read the value? *)
Definition Readable (O : oracles) (g : grp) : Prop :=
  value_kind (g_tag g) = Some K_license -> tk_type (g_val g) = TT_LINE -> exists l, licensing_parse O (JStr (tk_value (g_val g))) = Ok l.

(** The kinds of value that the attributes with a tag may have *)
Definition kinds_of_value (t : tag) : list ttype :=
  if is_in t [T_Created; T_BuiltDate; T_ReleaseDate; T_ValidUntilDate; T_AnnotationDate] then [TT_ISO8601_DATE]
  else if is_in t [T_PackageChecksum; T_FileChecksum] then [TT_CHECKSUM]
  else if is_in t [T_Creator; T_Annotator] then [TT_PERSON_VALUE; TT_ORGANIZATION_VALUE; TT_TOOL_VALUE]
  else if is_in t [T_PackageSupplier; T_PackageOriginator] then [TT_PERSON_VALUE; TT_ORGANIZATION_VALUE; TT_NO_ASSERTION]
  else if is_in t [T_PackageLicenseConcluded; T_PackageLicenseDeclared; T_PackageLicenseInfoFromFiles; T_LicenseConcluded; T_LicenseInfoInFile;
                   T_SnippetLicenseConcluded; T_LicenseInfoInSnippet] then [TT_LINE; TT_NO_ASSERTION; TT_NONE]
  else if is_in t [T_LicenseName] then [TT_LINE; TT_NO_ASSERTION]
  else if is_in t [T_DocumentComment; T_CreatorComment; T_PackageSourceInfo; T_PackageLicenseComments; T_PackageSummary; T_PackageDescription;
                   T_PackageComment; T_PackageAttributionText; T_FileComment; T_FileNotice; T_FileAttributionText; T_LicenseComments;
                   T_SnippetComment; T_SnippetLicenseComments; T_SnippetAttributionText; T_ExtractedText; T_LicenseComment; T_AnnotationComment;
                   T_PackageDownloadLocation; T_PackageHomePage; T_PackageCopyrightText; T_FileCopyrightText; T_SnippetCopyrightText]
  then [TT_LINE; TT_TEXT; TT_NO_ASSERTION; TT_NONE]
  else [TT_LINE].
(** the tags about the document as a whole *)
Definition header_tags : list tag :=
  [T_SPDXVersion; T_DataLicense; T_DocumentName; T_DocumentNamespace; T_DocumentComment; T_LicenseListVersion; T_ExternalDocumentRef; T_Created;
   T_Creator; T_CreatorComment].
(** the tags of comments that follow another attribute *)
Definition following_tags : list tag := [T_ExternalRefComment; T_RelationshipComment].
(** the message about a value of another kind *)
Definition mismatch (t : tag) (n : pystr) : pystr := $"Error while parsing " ++ tag_name t ++ $": Token did not match specified grammar rule. Line: " ++ n.
