(** Vocabulary for C74: one mistake in a JSON document, and the message about it. *)
From Verif Require Import Py Data Oracles Basics ValidationSpec BasicsSpec Json Construct.

(** An object with one changed or added field *)
Definition Changed (k : pystr) (v : json) (kvs kvs' : list (pystr * json)) : Prop :=
  assoc k kvs' = Some v /\ forall k', k' <> k -> assoc k' kvs' = assoc k' kvs.
(** The name of an enum value in a JSON text: in capital letters, with underscores *)
Definition enum_text (s : pystr) : pystr := upper (replace $"-" $"_" s).
(** "Error while parsing X: [...]" *)
Definition parsing (what m : pystr) : pystr := $"Error while parsing " ++ what ++ $": " ++ show_list [m].
(** An array in which one entry was replaced, or to which one was added *)
Definition OneOf (k : pystr) (kvs : list (pystr * json)) (w : json) (v : json) : Prop :=
  exists a old b, assoc k kvs = Some (JArr (a ++ old ++ b)) /\ v = JArr (a ++ w :: b).

Section WithOracles.
Variable O : oracles.

(** ** Wrong values with the messages about them *)
(** neither "Tool:", "Person:" nor "Organization:" in front *)
Definition WrongActor (v : json) (m : pystr) : Prop :=
  exists s, v = JStr s /\ s <> [] /\ (forall t, s <> $"Tool:" ++ t /\ s <> $"Person:" ++ t /\ s <> $"Organization:" ++ t)
    /\ m = $"Actor " ++ s ++ $" doesn't match any of person, organization or tool.".
(** an expression that the license library refuses *)
Definition WrongLicense (v : json) (m : pystr) : Prop :=
  exists s x, v = JStr s /\ strip s <> [] /\ upper s <> $"NONE" /\ upper s <> $"NOASSERTION" /\ o_lic_parse O s = Raise (EExpr x)
    /\ m = $"Error parsing LicenseExpression: " ++ x.
(** a name that no member of the enum has *)
Definition WrongName {A} (name : A -> pystr) (what : pystr) (v : json) (m : pystr) : Prop :=
  exists s, v = JStr s /\ s <> [] /\ (forall x, name x <> enum_text s) /\ m = $"Invalid " ++ what ++ $": " ++ enum_text s.
(** a checksum with an unknown algorithm *)
Definition WrongChecksum (v : json) (m : pystr) : Prop :=
  exists kvs a x, v = JObj kvs /\ assoc $"algorithm" kvs = Some a /\ WrongName checksum_alg_name $"ChecksumAlgorithm" a x /\ m = parsing $"Checksum" x.
(** a list of file types in which one is unknown; their names are taken as they are *)
Definition WrongTypes (kvs : list (pystr * json)) (v : json) (m : pystr) : Prop :=
  exists s, OneOf $"fileTypes" kvs (JStr s) v /\ (forall x, file_type_name x <> s) /\ m = parsing $"FileType" ($"Invalid FileType: " ++ s).
(** a range without one of its pointers *)
Definition WrongRange (kvs : list (pystr * json)) (v : json) (m : pystr) : Prop :=
  exists r x, OneOf $"ranges" kvs (JObj r) v /\ m = parsing $"snippet ranges" x /\
    ((assoc $"startPointer" r = None /\ x = $"Startpointer missing in snippet ranges.")
     \/ (assoc $"startPointer" r <> None /\ assoc $"endPointer" r = None /\ x = $"Endpointer missing in snippet ranges.")).

(** ** Wrong fields of the elements: key, new value, message *)
Inductive PackageMistake (p : list (pystr * json)) : pystr -> json -> pystr -> Prop :=
| PM_actor k v m : In k [$"supplier"; $"originator"] -> v <> JStr $"NOASSERTION" -> WrongActor v m -> PackageMistake p k v m
| PM_license k v m : In k [$"licenseConcluded"; $"licenseDeclared"] -> WrongLicense v m -> PackageMistake p k v m
| PM_licenses w v m : OneOf $"licenseInfoFromFiles" p w v -> WrongLicense w m -> PackageMistake p $"licenseInfoFromFiles" v m
| PM_purpose v m : WrongName purpose_name $"PrimaryPackagePurpose" v m -> PackageMistake p $"primaryPackagePurpose" v m
| PM_checksum w v m : OneOf $"checksums" p w v -> WrongChecksum w m -> PackageMistake p $"checksums" v m.
Inductive FileMistake (f : list (pystr * json)) : pystr -> json -> pystr -> Prop :=
| FM_license v m : WrongLicense v m -> FileMistake f $"licenseConcluded" v m
| FM_licenses w v m : OneOf $"licenseInfoInFiles" f w v -> WrongLicense w m -> FileMistake f $"licenseInfoInFiles" v m
| FM_types v m : WrongTypes f v m -> FileMistake f $"fileTypes" v m
| FM_checksum w v m : OneOf $"checksums" f w v -> WrongChecksum w m -> FileMistake f $"checksums" v m.
Inductive SnippetMistake (s : list (pystr * json)) : pystr -> json -> pystr -> Prop :=
| SM_license v m : WrongLicense v m -> SnippetMistake s $"licenseConcluded" v m
| SM_licenses w v m : OneOf $"licenseInfoInSnippets" s w v -> WrongLicense w m -> SnippetMistake s $"licenseInfoInSnippets" v m
| SM_ranges v m : WrongRange s v m -> SnippetMistake s $"ranges" v m.
End WithOracles.

(** creation info: in the object "creationInfo" *)
Inductive CreationMistake (c : list (pystr * json)) : pystr -> json -> pystr -> Prop :=
| CM_creator w v m : OneOf $"creators" c w v -> WrongActor w m -> CreationMistake c $"creators" v m
| CM_version s : s <> [] -> (~ exists x, modulo_final_LF (VersionText x) s) ->
    CreationMistake c $"licenseListVersion" (JStr s) ($"Error while parsing version: " ++ s ++ $" is not a valid version string").
(** a reference to another document with a wrong checksum *)
Definition WrongDocumentRef (v : json) (m : pystr) : Prop :=
  exists kvs c x, v = JObj kvs /\ assoc $"checksum" kvs = Some c /\ WrongChecksum c x /\ m = parsing $"ExternalDocumentRef" x.
(** a reference of a package with an unknown category *)
Definition WrongPackageRef (v : json) (m : pystr) : Prop :=
  exists kvs c x, v = JObj kvs /\ assoc $"referenceCategory" kvs = Some c /\ WrongName ref_category_name $"ExternalPackageRefCategory" c x /\ m = parsing $"ExternalPackageRef" x.
Inductive AnnotationMistake : pystr -> json -> pystr -> Prop :=
| AM_type s : s <> [] -> (forall x, annotation_type_name x <> s) -> AnnotationMistake $"annotationType" (JStr s) ($"Invalid AnnotationType: " ++ s)
| AM_annotator v m : WrongActor v m -> AnnotationMistake $"annotator" v m.

(** An array of elements, and the same array with one field of one of them changed *)
Definition ChangedIn (key k : pystr) (v : json) (old : list (pystr * json)) (kvs kvs' : list (pystr * json)) : Prop :=
  exists a new b, assoc key kvs = Some (JArr (a ++ JObj old :: b)) /\ Changed k v old new /\ Changed key (JArr (a ++ JObj new :: b)) kvs kvs'.
