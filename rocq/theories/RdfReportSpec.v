(** One mistake in an RDF graph, with the message about it. *)
From Verif Require Import Py Data Oracles Basics Construct Rdf RdfReadSpec ValidationSpec BasicsSpec JsonReportSpec.

(** Two graphs that differ only in the values of property p of node s *)
Inductive SameBut (s : node) (p : pystr) : list triple -> list triple -> Prop :=
| SB_nil : SameBut s p [] []
| SB_same t G G' : SameBut s p G G' -> SameBut s p (t :: G) (t :: G')
| SB_old o G G' : SameBut s p G G' -> SameBut s p ((s, p, o) :: G) G'
| SB_new o G G' : SameBut s p G G' -> SameBut s p G ((s, p, o) :: G').

(** ** Wrong values with the messages about them *)
Definition NoActor (n : node) (m : pystr) : Prop :=
  (forall t, node_str n <> $"Tool:" ++ t /\ node_str n <> $"Person:" ++ t /\ node_str n <> $"Organization:" ++ t)
  /\ m = $"Actor " ++ node_str n ++ $" doesn't match any of person, organization or tool.".
(** a text that datetime.strptime refuses, with its message *)
Definition NoDate (n : node) (m : pystr) : Prop := datetime_from_str (node_str n) = Raise (EValue m).
Definition NoVersion (n : node) (m : pystr) : Prop :=
  (~ exists x, modulo_final_LF (VersionText x) (node_str n)) /\ m = node_str n ++ $" is not a valid version string".
Definition NoMember {A} (name : A -> pystr) (prefix cls : string) (n : node) (m : pystr) : Prop :=
  (forall a, ~ Member name prefix n a) /\ m = $"Invalid value for <enum '" ++ lit cls ++ $"'>: " ++ node_str n.
Definition NoAlgorithm (n : node) (m : pystr) : Prop :=
  (forall a, ~ Algorithm n a)
  /\ exists s, Unprefixed (term "checksumAlgorithm_") n s
       /\ m = $"Invalid value for ChecksumAlgorithm: " ++ replace $"BLAKE2B" $"BLAKE2B_" (upper s).

Section Mistakes.
Variable L : rdf_library.

(** A property that must not have more than one value has two or more, or one that is wrong *)
Inductive Bad (G : list triple) (s : node) (p : pystr) (W : node -> pystr -> Prop) : pystr -> Prop :=
| Bad_value n m : Objects s p G [n] -> Truthy L n -> W n m -> Bad G s p W m
| Bad_twice a b l : Objects s p G (a :: b :: l) -> Bad G s p W ($"Multiple values for unique value " ++ p ++ $" found.").
(** every value is right *)
Definition Anything (n : node) (m : pystr) : Prop := False.
Definition NoSupplier (n : node) (m : pystr) : Prop := ~ NoAssertion L n /\ ~ Nothing L n /\ NoActor n m.

(** ** Wrong values of the properties of the elements *)
Inductive PackageMistake (G : list triple) (s : node) : pystr -> pystr -> Prop :=
| RP_actor p m : In p [term "supplier"; term "originator"] -> Bad G s p NoSupplier m -> PackageMistake G s p m
| RP_date p m : In p [term "releaseDate"; term "builtDate"; term "validUntilDate"] -> Bad G s p NoDate m -> PackageMistake G s p m
| RP_purpose m : Bad G s (term "primaryPackagePurpose") (NoMember purpose_name "purpose_" "PackagePurpose") m ->
    PackageMistake G s (term "primaryPackagePurpose") m
| RP_text p m : In p [term "downloadLocation"; term "versionInfo"; term "packageFileName"; term "packageVerificationCode"; term "licenseDeclared";
      term "summary"; term "description"; term "sourceInfo"; has_homepage] ->
    Bad G s p Anything m -> PackageMistake G s p m.
(** one of the types of a file is unknown; [old] are the values in the graph without the mistake *)
Inductive FileMistake (G G' : list triple) (s : node) : pystr -> pystr -> Prop :=
| RF_type a old b n m : Objects s (term "fileType") G (a ++ old ++ b) -> Objects s (term "fileType") G' (a ++ n :: b) ->
    NoMember file_type_name "fileType_" "FileType" n m -> FileMistake G G' s (term "fileType") m
| RF_text p m : In p [term "fileName"; term "noticeText"] -> Bad G' s p Anything m -> FileMistake G G' s p m.
Inductive AnnotationMistake (G : list triple) (s : node) : pystr -> pystr -> Prop :=
| RA_annotator m : Bad G s (term "annotator") NoActor m -> AnnotationMistake G s (term "annotator") m
| RA_date m : Bad G s (term "annotationDate") NoDate m -> AnnotationMistake G s (term "annotationDate") m
| RA_type m : Bad G s (term "annotationType") (NoMember annotation_type_name "annotationType_" "AnnotationType") m ->
    AnnotationMistake G s (term "annotationType") m.
Inductive RelationshipMistake (G : list triple) (s : node) : pystr -> pystr -> Prop :=
| RR_type m : Bad G s (term "relationshipType") (NoMember rel_type_name "relationshipType_" "RelationshipType") m ->
    RelationshipMistake G s (term "relationshipType") m
| RR_related m : Bad G s (term "relatedSpdxElement") Anything m -> RelationshipMistake G s (term "relatedSpdxElement") m.
(** of a checksum *)
Inductive ChecksumMistake (G : list triple) (s : node) : pystr -> pystr -> Prop :=
| RK_algorithm m : Bad G s (term "algorithm") NoAlgorithm m -> ChecksumMistake G s (term "algorithm") m
| RK_value m : Bad G s (term "checksumValue") Anything m -> ChecksumMistake G s (term "checksumValue") m.
(** of a reference of a package *)
Inductive RefMistake (G : list triple) (s : node) : pystr -> pystr -> Prop :=
| RE_category m : Bad G s (term "referenceCategory") (NoMember ref_category_name "referenceCategory_" "ExternalPackageRefCategory") m ->
    RefMistake G s (term "referenceCategory") m
| RE_text p m : In p [term "referenceLocator"; term "referenceType"] -> Bad G s p Anything m -> RefMistake G s p m.
(** of the node of type CreationInfo *)
Inductive CreationMistake (G : list triple) (s : node) : pystr -> pystr -> Prop :=
| RC_created m : Bad G s (term "created") NoDate m -> CreationMistake G s (term "created") m
| RC_version m : Bad G s (term "licenseListVersion") NoVersion m -> CreationMistake G s (term "licenseListVersion") m.
End Mistakes.

(** ** Any number of mistakes *)
(** what reading an element by itself reports *)
Definition complaint {A} (r : result A) : list pystr := match r with Raise (EParsing ms) => ms | _ => [] end.
(** an element that is read, or reported *)
Definition Handled {A} (r : result A) : Prop := (exists a, r = Ok a) \/ exists ms, r = Raise (EParsing ms).
