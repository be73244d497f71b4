(** Property theorems: one mistake in a JSON document (C74). *)
From Verif Require Import Py PyFacts Data Oracles Basics ValidationSpec BasicsSpec Json Construct JsonParse JsonReportSpec Samples.
From Verif Require JsonReport2 JsonReport3 JsonReport4 JsonReport5.

(** ** C74 *)
(** In all theorems [kvs] is a document that is read, and [kvs'] is the same document with one field changed. *)
Theorem C74_package :
  forall (O : oracles) kvs kvs' d k v p m, parse_dict O (JObj kvs) = Ok d -> ChangedIn $"packages" k v p kvs kvs' -> PackageMistake O p k v m ->
    parse_dict O (JObj kvs') = Raise (EParsing [parsing $"Package" m]).
Proof. exact JsonReport2.in_package. Qed.
Print Assumptions C74_package.
Theorem C74_file :
  forall (O : oracles) kvs kvs' d k v f m, parse_dict O (JObj kvs) = Ok d -> ChangedIn $"files" k v f kvs kvs' -> FileMistake O f k v m ->
    parse_dict O (JObj kvs') = Raise (EParsing [parsing $"File" m]).
Proof. exact JsonReport2.in_file. Qed.
Print Assumptions C74_file.
Theorem C74_snippet :
  forall (O : oracles) kvs kvs' d k v s m, parse_dict O (JObj kvs) = Ok d -> ChangedIn $"snippets" k v s kvs kvs' -> SnippetMistake O s k v m ->
    parse_dict O (JObj kvs') = Raise (EParsing [parsing $"snippet" m]).
Proof. exact JsonReport2.in_snippet. Qed.
Print Assumptions C74_snippet.
Theorem C74_creation_info :
  forall (O : oracles) kvs kvs' d c c' k v m, parse_dict O (JObj kvs) = Ok d -> assoc $"creationInfo" kvs = Some (JObj c) -> Changed k v c c' ->
    Changed $"creationInfo" (JObj c') kvs kvs' -> CreationMistake c k v m -> parse_dict O (JObj kvs') = Raise (EParsing [parsing $"Document" m]).
Proof. exact JsonReport3.in_creation_info. Qed.
Print Assumptions C74_creation_info.
(** If several creators are wrong there is still one message, and it has a part for each of them. *)
Theorem C74_creators :
  forall (O : oracles) kvs kvs' d c c' ws ms, parse_dict O (JObj kvs) = Ok d -> assoc $"creationInfo" kvs = Some (JObj c) -> Changed $"creators" (JArr ws) c c' ->
    Changed $"creationInfo" (JObj c') kvs kvs' -> Forall2 WrongActor ws ms -> ws <> [] ->
    parse_dict O (JObj kvs') = Raise (EParsing [$"Error while parsing Document: [" ++ join $", " (map repr_str ms) ++ $"]"]).
Proof. exact JsonReport3.in_creators. Qed.
Print Assumptions C74_creators.
Theorem C74_document_reference :
  forall (O : oracles) kvs kvs' d w v m, parse_dict O (JObj kvs) = Ok d -> OneOf $"externalDocumentRefs" kvs w v -> Changed $"externalDocumentRefs" v kvs kvs' ->
    WrongDocumentRef w m -> parse_dict O (JObj kvs') = Raise (EParsing [parsing $"Document" m]).
Proof. exact JsonReport3.in_document_reference. Qed.
Print Assumptions C74_document_reference.
Theorem C74_relationship :
  forall (O : oracles) kvs kvs' d v r m, parse_dict O (JObj kvs) = Ok d -> ChangedIn $"relationships" $"relationshipType" v r kvs kvs' ->
    WrongName rel_type_name $"RelationshipType" v m -> parse_dict O (JObj kvs') = Raise (EParsing [parsing $"Relationship" m]).
Proof. exact JsonReport4.in_relationship. Qed.
Print Assumptions C74_relationship.
(** An annotation of the document, ... *)
Theorem C74_annotation :
  forall (O : oracles) kvs kvs' d k v a m, parse_dict O (JObj kvs) = Ok d -> ChangedIn $"annotations" k v a kvs kvs' -> AnnotationMistake k v m ->
    parse_dict O (JObj kvs') = Raise (EParsing [parsing $"annotations" (parsing $"Annotation" m)]).
Proof. exact JsonReport5.in_annotation. Qed.
Print Assumptions C74_annotation.
(** ... and of a package, file or snippet. *)
Theorem C74_element_annotation :
  forall (O : oracles) kvs kvs' d key a e e' b k v an m, parse_dict O (JObj kvs) = Ok d -> In key [$"packages"; $"files"; $"snippets"] ->
    assoc key kvs = Some (JArr (a ++ JObj e :: b)) -> Changed key (JArr (a ++ JObj e' :: b)) kvs kvs' -> ChangedIn $"annotations" k v an e e' -> AnnotationMistake k v m ->
    parse_dict O (JObj kvs') = Raise (EParsing [parsing $"annotations" (parsing $"Annotation" m)]).
Proof. exact JsonReport5.in_element_annotation. Qed.
Print Assumptions C74_element_annotation.
(** A reference of a package: its message is not put into a message about the package. *)
Theorem C74_package_reference :
  forall (O : oracles) kvs kvs' d p w v m, parse_dict O (JObj kvs) = Ok d -> ChangedIn $"packages" $"externalRefs" v p kvs kvs' -> OneOf $"externalRefs" p w v ->
    WrongPackageRef w m -> parse_dict O (JObj kvs') = Raise (EParsing [m]).
Proof. exact JsonReport5.in_package_reference. Qed.
Print Assumptions C74_package_reference.

(** A document with one element of each kind; the holes are the fields that are changed below. *)
Definition C74_checksum (algorithm : pystr) : json := JObj [($"algorithm", JStr algorithm); ($"checksumValue", JStr sha1)].
Definition C74_note (annotator : pystr) : json :=
  JObj [($"annotator", JStr annotator); ($"annotationType", JStr $"OTHER"); ($"annotationDate", JStr $"2020-01-02T03:04:05Z"); ($"comment", JStr $"c")].
Definition C74_ref (category : pystr) : json := JObj [($"referenceCategory", JStr category); ($"referenceType", JStr $"t"); ($"referenceLocator", JStr $"l")].
Definition C74_pkg (supplier category : pystr) : list (pystr * json) :=
  [($"SPDXID", JStr $"SPDXRef-A"); ($"name", JStr $"a"); ($"downloadLocation", JStr $"NONE"); ($"supplier", JStr supplier);
   ($"externalRefs", JArr [C74_ref category]); ($"hasFiles", JArr [JStr $"SPDXRef-F"])].
Definition C74_fil (ty annotator : pystr) : list (pystr * json) :=
  [($"SPDXID", JStr $"SPDXRef-F"); ($"fileName", JStr $"./f"); ($"checksums", JArr [C74_checksum $"SHA1"]); ($"fileTypes", JArr [JStr $"TEXT"; JStr ty]);
   ($"annotations", JArr [C74_note annotator])].
Definition C74_point (n : Z) : json := JObj [($"offset", JInt n)].
Definition C74_sni (r : list (pystr * json)) : list (pystr * json) :=
  [($"SPDXID", JStr $"SPDXRef-S"); ($"snippetFromFile", JStr $"SPDXRef-F"); ($"ranges", JArr [JObj r])].
Definition C74_good : list (pystr * json) := [($"startPointer", C74_point 1); ($"endPointer", C74_point 2)].
Definition C74_half : list (pystr * json) := [($"startPointer", C74_point 1)].
Definition C74_rel (ty : pystr) : list (pystr * json) :=
  [($"spdxElementId", JStr $"SPDXRef-DOCUMENT"); ($"relationshipType", JStr ty); ($"relatedSpdxElement", JStr $"SPDXRef-A")].
Definition C74_info (creators : list json) : list (pystr * json) := [($"created", JStr $"2020-01-02T03:04:05Z"); ($"creators", JArr creators)].
Definition C74_other (algorithm : pystr) : json :=
  JObj [($"externalDocumentId", JStr $"DocumentRef-o"); ($"spdxDocument", JStr $"https://e.org/o"); ($"checksum", C74_checksum algorithm)].
Definition C74_tool : list json := [JStr $"Tool: t"].
Definition C74_doc (creators : list json) (other : pystr) (p f s : list (pystr * json)) (rel annotator : pystr) : list (pystr * json) :=
  [($"SPDXID", JStr $"SPDXRef-DOCUMENT"); ($"spdxVersion", JStr $"SPDX-2.3"); ($"name", JStr $"d"); ($"documentNamespace", JStr $"https://e.org/d"); ($"dataLicense", JStr $"CC0-1.0");
   ($"creationInfo", JObj (C74_info creators)); ($"externalDocumentRefs", JArr [C74_other other]); ($"packages", JArr [JObj p]); ($"files", JArr [JObj f]); ($"snippets", JArr [JObj s]);
   ($"relationships", JArr [JObj (C74_rel rel)]); ($"annotations", JArr [C74_note annotator])].
Definition C74_p := C74_pkg $"NOASSERTION" $"SECURITY".
Definition C74_f := C74_fil $"SOURCE" $"Person: p".
Definition C74_s := C74_sni C74_good.
Definition C74_base := C74_doc C74_tool $"SHA1" C74_p C74_f C74_s $"DESCRIBES" $"Person: p".
Lemma C74_base_ok : exists d, parse_dict sample_oracles (JObj C74_base) = Ok d.
Proof.
  assert (H : match parse_dict sample_oracles (JObj C74_base) with Ok _ => true | Raise _ => false end = true) by (vm_compute; reflexivity).
  destruct (parse_dict sample_oracles (JObj C74_base)); [eauto|discriminate H].
Qed.
Lemma C74_changed_in k v l l' w : l = l' -> Changed k v ((k, w) :: l) ((k, v) :: l').
Proof. intros <-. split; [cbn [assoc]; rewrite str_eqb_refl; reflexivity|]. intros k' N. cbn [assoc]. apply str_eqb_neq in N. rewrite N. reflexivity. Qed.
Lemma C74_changed_past k v x l l' : str_eqb k (fst x) = false -> Changed k v l l' -> Changed k v (x :: l) (x :: l').
Proof.
  destruct x as [y u]. cbn [fst]. intros N [V C]. split; [cbn [assoc]; rewrite N; exact V|]. intros k' Hk. cbn [assoc]. destruct (str_eqb k' y); [reflexivity|]. apply C. exact Hk.
Qed.
Ltac C74_changed := repeat first [apply C74_changed_in; reflexivity|apply C74_changed_past; [reflexivity|]].
Lemma C74_acme t : $"ACME" <> $"Tool:" ++ t /\ $"ACME" <> $"Person:" ++ t /\ $"ACME" <> $"Organization:" ++ t. Proof. repeat split; discriminate. Qed.
Lemma C74_wrong_actor : WrongActor (JStr $"ACME") $"Actor ACME doesn't match any of person, organization or tool.".
Proof. exists $"ACME". repeat split; try discriminate; apply C74_acme. Qed.

Example C74_package_sample :
  parse_dict sample_oracles (JObj (C74_doc C74_tool $"SHA1" (C74_pkg $"ACME" $"SECURITY") C74_f C74_s $"DESCRIBES" $"Person: p")) =
  Raise (EParsing [$"Error while parsing Package: [""Actor ACME doesn't match any of person, organization or tool.""]"]).
Proof.
  destruct C74_base_ok as (d & P).
  refine (C74_package sample_oracles C74_base _ d $"supplier" (JStr $"ACME") C74_p _ P _ (PM_actor _ _ _ (JStr $"ACME") _ (or_introl eq_refl) _ C74_wrong_actor)).
  - exists [], (C74_pkg $"ACME" $"SECURITY"), []. split; [reflexivity|]. split; C74_changed.
  - discriminate.
Qed.
Example C74_file_sample :
  parse_dict sample_oracles (JObj (C74_doc C74_tool $"SHA1" C74_p (C74_fil $"Source" $"Person: p") C74_s $"DESCRIBES" $"Person: p")) =
  Raise (EParsing [parsing $"File" $"Error while parsing FileType: ['Invalid FileType: Source']"]).
Proof.
  destruct C74_base_ok as (d & P).
  refine (C74_file sample_oracles C74_base _ d $"fileTypes" (JArr [JStr $"TEXT"; JStr $"Source"]) C74_f _ P _ (FM_types _ _ _ _ _)).
  - exists [], (C74_fil $"Source" $"Person: p"), []. split; [reflexivity|]. split; C74_changed.
  - exists $"Source". split; [exists [JStr $"TEXT"], [JStr $"SOURCE"], []; split; reflexivity|]. split; [intros []; discriminate|reflexivity].
Qed.
Example C74_snippet_sample :
  parse_dict sample_oracles (JObj (C74_doc C74_tool $"SHA1" C74_p C74_f (C74_sni C74_half) $"DESCRIBES" $"Person: p")) =
  Raise (EParsing [parsing $"snippet" $"Error while parsing snippet ranges: ['Endpointer missing in snippet ranges.']"]).
Proof.
  destruct C74_base_ok as (d & P).
  refine (C74_snippet sample_oracles C74_base _ d $"ranges" (JArr [JObj C74_half]) C74_s _ P _ (SM_ranges _ _ _ _ _)).
  - exists [], (C74_sni C74_half), []. split; [reflexivity|]. split; C74_changed.
  - exists C74_half, $"Endpointer missing in snippet ranges.". split; [exists [], [JObj C74_good], []; split; reflexivity|]. split; [reflexivity|]. right. repeat split. discriminate.
Qed.
Example C74_creation_info_sample :
  parse_dict sample_oracles (JObj (C74_doc [JStr $"Tool: t"; JStr $"ACME"] $"SHA1" C74_p C74_f C74_s $"DESCRIBES" $"Person: p")) =
  Raise (EParsing [$"Error while parsing Document: [""Actor ACME doesn't match any of person, organization or tool.""]"]).
Proof.
  destruct C74_base_ok as (d & P).
  refine (C74_creation_info sample_oracles C74_base _ d (C74_info C74_tool) (C74_info [JStr $"Tool: t"; JStr $"ACME"]) $"creators" _ _ P eq_refl _ _ (CM_creator _ (JStr $"ACME") _ _ _ C74_wrong_actor)).
  - C74_changed.
  - C74_changed.
  - exists C74_tool, [], []. split; reflexivity.
Qed.
Example C74_creators_sample :
  parse_dict sample_oracles (JObj (C74_doc [JStr $"ACME"; JStr $"ACME"] $"SHA1" C74_p C74_f C74_s $"DESCRIBES" $"Person: p")) =
  Raise (EParsing [$"Error while parsing Document: [""Actor ACME doesn't match any of person, organization or tool."", ""Actor ACME doesn't match any of person, organization or tool.""]"]).
Proof.
  destruct C74_base_ok as (d & P).
  refine (C74_creators sample_oracles C74_base _ d (C74_info C74_tool) (C74_info [JStr $"ACME"; JStr $"ACME"]) _ _ P eq_refl _ _ (Forall2_cons _ _ C74_wrong_actor (Forall2_cons _ _ C74_wrong_actor (Forall2_nil _))) _).
  - C74_changed.
  - C74_changed.
  - discriminate.
Qed.
Lemma C74_sha7 : WrongChecksum (C74_checksum $"sha-7") $"Error while parsing Checksum: ['Invalid ChecksumAlgorithm: SHA_7']".
Proof.
  exists [($"algorithm", JStr $"sha-7"); ($"checksumValue", JStr sha1)], (JStr $"sha-7"), $"Invalid ChecksumAlgorithm: SHA_7". split; [reflexivity|]. split; [reflexivity|]. split; [|reflexivity].
  exists $"sha-7". split; [reflexivity|]. split; [discriminate|]. split; [intros []; discriminate|reflexivity].
Qed.
Example C74_document_reference_sample :
  parse_dict sample_oracles (JObj (C74_doc C74_tool $"sha-7" C74_p C74_f C74_s $"DESCRIBES" $"Person: p")) =
  Raise (EParsing [parsing $"Document" (parsing $"ExternalDocumentRef" $"Error while parsing Checksum: ['Invalid ChecksumAlgorithm: SHA_7']")]).
Proof.
  destruct C74_base_ok as (d & P). refine (C74_document_reference sample_oracles C74_base _ d (C74_other $"sha-7") _ _ P _ _ _).
  - exists [], [C74_other $"SHA1"], []. split; reflexivity.
  - C74_changed.
  - eexists _, (C74_checksum $"sha-7"), _. split; [reflexivity|]. split; [reflexivity|]. split; [exact C74_sha7|reflexivity].
Qed.
Example C74_relationship_sample :
  parse_dict sample_oracles (JObj (C74_doc C74_tool $"SHA1" C74_p C74_f C74_s $"describe" $"Person: p")) =
  Raise (EParsing [$"Error while parsing Relationship: ['Invalid RelationshipType: DESCRIBE']"]).
Proof.
  destruct C74_base_ok as (d & P).
  refine (C74_relationship sample_oracles C74_base _ d (JStr $"describe") (C74_rel $"DESCRIBES") ($"Invalid " ++ $"RelationshipType" ++ $": " ++ enum_text $"describe") P _ _).
  - exists [], (C74_rel $"describe"), []. split; [reflexivity|]. split; C74_changed.
  - exists $"describe". split; [reflexivity|]. split; [discriminate|]. split; [intros []; discriminate|reflexivity].
Qed.
Example C74_annotation_sample :
  parse_dict sample_oracles (JObj (C74_doc C74_tool $"SHA1" C74_p C74_f C74_s $"DESCRIBES" $"ACME")) =
  Raise (EParsing [parsing $"annotations" (parsing $"Annotation" $"Actor ACME doesn't match any of person, organization or tool.")]).
Proof.
  destruct C74_base_ok as (d & P).
  refine (C74_annotation sample_oracles C74_base _ d $"annotator" (JStr $"ACME") _ _ P _ (AM_annotator _ _ C74_wrong_actor)).
  eexists [], _, []. split; [reflexivity|]. split; C74_changed.
Qed.
Example C74_element_annotation_sample :
  parse_dict sample_oracles (JObj (C74_doc C74_tool $"SHA1" C74_p (C74_fil $"SOURCE" $"ACME") C74_s $"DESCRIBES" $"Person: p")) =
  Raise (EParsing [parsing $"annotations" (parsing $"Annotation" $"Actor ACME doesn't match any of person, organization or tool.")]).
Proof.
  destruct C74_base_ok as (d & P).
  refine (C74_element_annotation sample_oracles C74_base _ d $"files" [] C74_f (C74_fil $"SOURCE" $"ACME") [] $"annotator" (JStr $"ACME") _ _ P (or_intror (or_introl eq_refl)) eq_refl _ _ (AM_annotator _ _ C74_wrong_actor)).
  - C74_changed.
  - eexists [], _, []. split; [reflexivity|]. split; C74_changed.
Qed.
Example C74_package_reference_sample :
  parse_dict sample_oracles (JObj (C74_doc C74_tool $"SHA1" (C74_pkg $"NOASSERTION" $"secure") C74_f C74_s $"DESCRIBES" $"Person: p")) =
  Raise (EParsing [$"Error while parsing ExternalPackageRef: ['Invalid ExternalPackageRefCategory: SECURE']"]).
Proof.
  destruct C74_base_ok as (d & P).
  refine (C74_package_reference sample_oracles C74_base _ d C74_p (C74_ref $"secure") _ (parsing $"ExternalPackageRef" ($"Invalid " ++ $"ExternalPackageRefCategory" ++ $": " ++ enum_text $"secure")) P _ _ _).
  - eexists [], (C74_pkg $"NOASSERTION" $"secure"), []. split; [reflexivity|]. split; C74_changed.
  - exists [], [C74_ref $"SECURITY"], []. split; reflexivity.
  - eexists _, (JStr $"secure"), _. split; [reflexivity|]. split; [reflexivity|]. split; [|reflexivity]. exists $"secure". split; [reflexivity|]. split; [discriminate|]. split; [intros []; discriminate|reflexivity].
Qed.
