(** C75: One mistake in an RDF document gives one message that names it.

    [g] is a graph from which a document is read; [g'] differs from it in the values that one node [s] has for one property
    [p] ([SameBut]) and one of them is wrong.  Reading [g'] gives one message: the kind of the part with the mistake, and
    what is wrong there.  A checksum or a reference of a package is reported by itself, without the package or file that it
    belongs to. *)
From Verif Require PyFacts JsonRead.
From Verif Require Import Py Data Oracles Basics Construct Rdf RdfParser RdfReadSpec JsonReportSpec RdfReportSpec RdfIff RdfReport5 RdfReport6 RdfReport7 RdfSamples PropsRdfRead.

Theorem C75_package :
  forall (O : oracles) (L : rdf_library), Foreign O L ->
  forall (g g' : graph) (d : document) (s : node) (p m : pystr),
  translate_graph_to_document O L g = Ok d -> SameBut s p (g_triples g) (g_triples g') -> g_bound g' = g_bound g ->
  forall before after, Subjects is_a (NUri (term "Package")) (g_triples g) (before ++ s :: after) -> ~ In s (before ++ after) ->
  PackageMistake L (g_triples g') s p m ->
  translate_graph_to_document O L g' = Raise (EParsing [parsing $"Package" m]).
Proof. exact RdfReport5.report_package. Qed.
Print Assumptions C75_package.
Theorem C75_file :
  forall (O : oracles) (L : rdf_library), Foreign O L ->
  forall (g g' : graph) (d : document) (s : node) (p m : pystr),
  translate_graph_to_document O L g = Ok d -> SameBut s p (g_triples g) (g_triples g') -> g_bound g' = g_bound g ->
  forall before after, Subjects is_a (NUri (term "File")) (g_triples g) (before ++ s :: after) -> ~ In s (before ++ after) ->
  FileMistake L (g_triples g) (g_triples g') s p m ->
  translate_graph_to_document O L g' = Raise (EParsing [parsing $"File" m]).
Proof. exact RdfReport5.report_file. Qed.
Print Assumptions C75_file.
Theorem C75_annotation :
  forall (O : oracles) (L : rdf_library), Foreign O L ->
  forall (g g' : graph) (d : document) (s : node) (p m : pystr),
  translate_graph_to_document O L g = Ok d -> SameBut s p (g_triples g) (g_triples g') -> g_bound g' = g_bound g ->
  forall of before after, Links (term "annotation") (g_triples g) (before ++ (of, s) :: after) -> ~ In s (map snd (before ++ after)) ->
  AnnotationMistake L (g_triples g') s p m ->
  translate_graph_to_document O L g' = Raise (EParsing [parsing $"Annotation" m]).
Proof. exact RdfReport5.report_annotation. Qed.
Print Assumptions C75_annotation.
Theorem C75_relationship :
  forall (O : oracles) (L : rdf_library), Foreign O L ->
  forall (g g' : graph) (d : document) (s : node) (p m : pystr),
  translate_graph_to_document O L g = Ok d -> SameBut s p (g_triples g) (g_triples g') -> g_bound g' = g_bound g ->
  forall of before after, Links (term "relationship") (g_triples g) (before ++ (of, s) :: after) -> ~ In s (map snd (before ++ after)) ->
  RelationshipMistake L (g_triples g') s p m ->
  translate_graph_to_document O L g' = Raise (EParsing [parsing $"Relationship" m]).
Proof. exact RdfReport5.report_relationship. Qed.
Print Assumptions C75_relationship.
Theorem C75_creation_info :
  forall (O : oracles) (L : rdf_library) (g g' : graph) (d : document) (s : node) (p m : pystr),
  translate_graph_to_document O L g = Ok d -> SameBut s p (g_triples g) (g_triples g') -> g_bound g' = g_bound g ->
  forall others, Subjects is_a (NUri (term "CreationInfo")) (g_triples g) (s :: others) ->
  CreationMistake L (g_triples g') s p m ->
  translate_graph_to_document O L g' = Raise (EParsing [parsing $"CreationInfo" m]).
Proof. exact RdfReport5.report_creation. Qed.
Print Assumptions C75_creation_info.
(** [s] is a checksum of the package [owner] and of nothing else *)
Theorem C75_package_checksum :
  forall (O : oracles) (L : rdf_library), Foreign O L ->
  forall (g g' : graph) (d : document) (s : node) (p m : pystr),
  translate_graph_to_document O L g = Ok d -> SameBut s p (g_triples g) (g_triples g') -> g_bound g' = g_bound g ->
  forall owner before after u v files refs, Subjects is_a (NUri (term "Package")) (g_triples g) (before ++ owner :: after) -> ~ In owner (before ++ after) ->
  Objects owner (term "checksum") (g_triples g) (u ++ s :: v) -> ~ In s u ->
  (forall n l, n <> owner -> Objects n (term "checksum") (g_triples g) l -> ~ In s l) ->
  Subjects is_a (NUri (term "File")) (g_triples g) files -> ~ In owner files ->
  Links (term "externalDocumentRef") (g_triples g) refs -> ~ In owner (map snd refs) ->
  ChecksumMistake L (g_triples g') s p m ->
  translate_graph_to_document O L g' = Raise (EParsing [parsing $"Checksum" m]).
Proof. exact RdfReport6.report_package_checksum. Qed.
Print Assumptions C75_package_checksum.
Theorem C75_file_checksum :
  forall (O : oracles) (L : rdf_library), Foreign O L ->
  forall (g g' : graph) (d : document) (s : node) (p m : pystr),
  translate_graph_to_document O L g = Ok d -> SameBut s p (g_triples g) (g_triples g') -> g_bound g' = g_bound g ->
  forall owner before after u v packages refs, Subjects is_a (NUri (term "File")) (g_triples g) (before ++ owner :: after) -> ~ In owner (before ++ after) ->
  Objects owner (term "checksum") (g_triples g) (u ++ s :: v) -> ~ In s u ->
  (forall n l, n <> owner -> Objects n (term "checksum") (g_triples g) l -> ~ In s l) ->
  Subjects is_a (NUri (term "Package")) (g_triples g) packages -> ~ In owner packages ->
  Links (term "externalDocumentRef") (g_triples g) refs -> ~ In owner (map snd refs) ->
  ChecksumMistake L (g_triples g') s p m ->
  translate_graph_to_document O L g' = Raise (EParsing [parsing $"Checksum" m]).
Proof. exact RdfReport6.report_file_checksum. Qed.
Print Assumptions C75_file_checksum.
Theorem C75_package_reference :
  forall (O : oracles) (L : rdf_library), Foreign O L ->
  forall (g g' : graph) (d : document) (s : node) (p m : pystr),
  translate_graph_to_document O L g = Ok d -> SameBut s p (g_triples g) (g_triples g') -> g_bound g' = g_bound g ->
  forall owner before after u v, Subjects is_a (NUri (term "Package")) (g_triples g) (before ++ owner :: after) -> ~ In owner (before ++ after) ->
  Objects owner (term "externalRef") (g_triples g) (u ++ s :: v) -> ~ In s u ->
  (forall n l, n <> owner -> Objects n (term "externalRef") (g_triples g) l -> ~ In s l) ->
  RefMistake L (g_triples g') s p m ->
  translate_graph_to_document O L g' = Raise (EParsing [parsing $"ExternalPackageRef" m]).
Proof. exact RdfReport6.report_ref. Qed.
Print Assumptions C75_package_reference.

(** Any number of mistakes: each part of the graph is read by itself, and the messages about all of them are given, in the
    order packages, files, snippets, annotations, relationships, contained files, described packages, extracted licenses.
    A document is given if there are none, and only then. *)
Theorem C75_all_reported :
  forall (O : oracles) (L : rdf_library) (g : graph) (ci : creation_info) (packages files snippets : list node) (annotations relationships contained described infos : list (node * node)),
  parse_creation_info L g = Ok ci ->
  let G := g_triples g in let ns := ci_namespace ci in let bound := g_bound g ++ map binding (ci_refs ci) in
  Subjects is_a (NUri (term "Package")) G packages -> Subjects is_a (NUri (term "File")) G files -> Subjects is_a (NUri (term "Snippet")) G snippets ->
  Links (term "annotation") G annotations -> Links (term "relationship") G relationships -> Links (term "hasFile") G contained -> Links (term "describesPackage") G described ->
  Links (term "hasExtractedLicensingInfo") G infos ->
  (forall x, In x packages -> Handled (parse_package O L G bound ns x)) -> (forall x, In x files -> Handled (parse_file O L G bound ns x)) ->
  (forall x, In x snippets -> Handled (parse_snippet O L G bound ns x)) -> (forall x, In x annotations -> Handled (parse_annotation L G bound ns x)) ->
  (forall x, In x relationships -> Handled (parse_relationship L G bound ns x)) -> (forall x, In x contained -> Handled (parse_implicit_relationship L bound ns RT_CONTAINS x)) ->
  (forall x, In x described -> Handled (parse_implicit_relationship L bound ns RT_DESCRIBES x)) -> (forall x, In x infos -> Handled (parse_extracted_licensing_info L G ns (snd x))) ->
  let ms := flat_map (fun x => complaint (parse_package O L G bound ns x)) packages ++ flat_map (fun x => complaint (parse_file O L G bound ns x)) files
    ++ flat_map (fun x => complaint (parse_snippet O L G bound ns x)) snippets ++ flat_map (fun x => complaint (parse_annotation L G bound ns x)) annotations
    ++ flat_map (fun x => complaint (parse_relationship L G bound ns x)) relationships
    ++ flat_map (fun x => complaint (parse_implicit_relationship L bound ns RT_CONTAINS x)) contained
    ++ flat_map (fun x => complaint (parse_implicit_relationship L bound ns RT_DESCRIBES x)) described
    ++ flat_map (fun x => complaint (parse_extracted_licensing_info L G ns (snd x))) infos in
  (ms = [] -> exists d, translate_graph_to_document O L g = Ok d) /\ (ms <> [] -> translate_graph_to_document O L g = Raise (EParsing ms)).
Proof. exact RdfReport7.all_reported. Qed.
Print Assumptions C75_all_reported.

(** ** A document with these parts, and mistakes in it *)
Definition at75 (name : string) : node := NUri ($"https://example.com/doc#SPDXRef-" ++ lit name).
Definition text75 (s : string) : node := NLit (lit s) KPlain.
Definition graph75 : list triple :=
  [(at75 "DOCUMENT", is_a, NUri (term "SpdxDocument")); (at75 "DOCUMENT", term "specVersion", text75 "SPDX-2.3");
   (at75 "DOCUMENT", term "dataLicense", NUri $"http://spdx.org/licenses/CC0-1.0"); (at75 "DOCUMENT", term "name", text75 "sample");
   (NBlank $"c", is_a, NUri (term "CreationInfo")); (NBlank $"c", term "created", text75 "2022-12-01T00:00:00Z"); (NBlank $"c", term "creator", text75 "Tool: t");
   (at75 "A", is_a, NUri (term "Package")); (at75 "A", term "name", text75 "a"); (at75 "A", term "downloadLocation", NUri (term "none"));
   (at75 "A", term "supplier", text75 "Person: Jane Doe"); (at75 "A", term "checksum", NBlank $"k"); (NBlank $"k", term "algorithm", NUri (term "checksumAlgorithm_sha1"));
   (NBlank $"k", term "checksumValue", text75 "abc"); (at75 "A", term "externalRef", NBlank $"r"); (NBlank $"r", term "referenceCategory", NUri (term "referenceCategory_other"));
   (NBlank $"r", term "referenceType", NUri $"http://spdx.org/rdf/references/purl"); (NBlank $"r", term "referenceLocator", text75 "l");
   (at75 "B", is_a, NUri (term "Package")); (at75 "B", term "name", text75 "b"); (at75 "B", term "downloadLocation", NUri (term "noassertion"));
   (at75 "F", is_a, NUri (term "File")); (at75 "F", term "fileName", text75 "./f"); (at75 "F", term "fileType", NUri (term "fileType_source"));
   (at75 "F", term "checksum", NBlank $"h"); (NBlank $"h", term "algorithm", NUri (term "checksumAlgorithm_md5")); (NBlank $"h", term "checksumValue", text75 "def");
   (at75 "A", term "annotation", NBlank $"n"); (NBlank $"n", term "annotator", text75 "Person: Jane Doe"); (NBlank $"n", term "annotationType", NUri (term "annotationType_review"));
   (NBlank $"n", term "annotationDate", text75 "2022-12-01T00:00:00Z"); (NBlank $"n", says_comment, text75 "fine");
   (at75 "DOCUMENT", term "relationship", NBlank $"l"); (NBlank $"l", term "relationshipType", NUri (term "relationshipType_describes"));
   (NBlank $"l", term "relatedSpdxElement", at75 "A")].
(** with another value *)
Definition with75 (s : node) (p : pystr) (o : node) (G : list triple) : list triple :=
  map (fun t => if node_eqb (fst (fst t)) s && str_eqb (snd (fst t)) p then (s, p, o) else t) G.
Lemma with75_same s p o G : SameBut s p G (with75 s p o G).
Proof.
  induction G as [|[[s1 p1] o1] G IH]; [constructor|]. unfold with75 in *. cbn [map fst snd]. destruct (node_eqb s1 s && str_eqb p1 p) eqn:E; [|constructor; exact IH].
  apply andb_true_iff in E as [E1 E2]. apply node_eqb_iff in E1. apply PyFacts.str_eqb_eq in E2. subst. constructor. constructor. exact IH.
Qed.
Definition as75 (G : list triple) : graph := {| g_triples := G; g_bound := [] |}.
Notation read75 G := (translate_graph_to_document rdf_oracles sample_library (as75 G)).
Lemma read75_ok : exists d, read75 graph75 = Ok d.
Proof. assert (E : is_ok (read75 graph75) = true) by (vm_compute; reflexivity). destruct (read75 graph75) as [d|]; [eauto|discriminate E]. Qed.
Ltac list75 := first [apply subjects_iff|apply links_iff|apply objects_iff]; vm_compute; reflexivity.
Ltac apart75 := let E := fresh in intro E; vm_compute in E; repeat (destruct E as [E|E]; [discriminate E|]); exact E.
Ltac alone75 := let n := fresh "n" in let l := fresh "l" in let N := fresh "N" in let H := fresh "H" in let I := fresh "I" in
  intros n l N H I; apply objects_iff in H; subst l; apply RdfReport6.objects_pairs in I;
  match type of I with In _ ?L => let L' := eval vm_compute in L in change L with L' in I end;
  repeat (destruct I as [I|I]; [first [discriminate (f_equal snd I)|apply N; symmetry; exact (f_equal fst I)]|]); exact I.
Lemma no_actor75 : NoActor (text75 "ACME") $"Actor ACME doesn't match any of person, organization or tool.".
Proof. split; [intro t; repeat split; discriminate|reflexivity]. Qed.
Lemma no_member75 {A} (all : list A) (name : A -> pystr) prefix cls n m :
  (forall s x, enum_lookup all name s = Some x <-> s = name x) -> is_ok (parse_enum_value all name (lit prefix) n) = false ->
  m = $"Invalid value for <enum '" ++ lit cls ++ $"'>: " ++ node_str n -> NoMember name prefix cls n m.
Proof. intros H E M. split; [|exact M]. intros a K. apply (member_iff all _ _ _ _ H) in K. rewrite K in E. discriminate E. Qed.

Example C75_package_sample :
  read75 (with75 (at75 "A") (term "supplier") (text75 "ACME") graph75)
  = Raise (EParsing [parsing $"Package" $"Actor ACME doesn't match any of person, organization or tool."])
  /\ parsing $"Package" $"Actor ACME doesn't match any of person, organization or tool."
     = $"Error while parsing Package: [""Actor ACME doesn't match any of person, organization or tool.""]".
Proof.
  split; [|vm_compute; reflexivity]. destruct read75_ok as [d E].
  apply (C75_package rdf_oracles sample_library C56_sample_libraries (as75 graph75) (as75 (with75 (at75 "A") (term "supplier") (text75 "ACME") graph75)) d (at75 "A") (term "supplier") $"Actor ACME doesn't match any of person, organization or tool." E
           (with75_same _ _ _ _) eq_refl [] [at75 "B"]); [list75|apart75|].
  apply RP_actor; [left; reflexivity|]. apply Bad_value with (n := text75 "ACME"); [list75|reflexivity|]. split; [intros [K|K]; discriminate K|]. split; [intros [K|K]; discriminate K|]. apply no_actor75.
Qed.
(** two values; the message names the property *)
Example C75_twice_sample :
  read75 ((at75 "A", term "supplier", text75 "Person: Jack Doe") :: graph75)
  = Raise (EParsing [parsing $"Package" $"Multiple values for unique value http://spdx.org/rdf/terms#supplier found."]).
Proof.
  destruct read75_ok as [d E].
  assert (S : forall G, SameBut (at75 "A") (term "supplier") G G) by (induction G; constructor; assumption).
  apply (C75_package rdf_oracles sample_library C56_sample_libraries (as75 graph75) (as75 ((at75 "A", term "supplier", text75 "Person: Jack Doe") :: graph75)) d (at75 "A") (term "supplier") _ E
           (SB_new _ _ _ _ _ (S _)) eq_refl [] [at75 "B"]); [list75|apart75|].
  apply RP_actor; [left; reflexivity|]. change $"Multiple values for unique value http://spdx.org/rdf/terms#supplier found." with ($"Multiple values for unique value " ++ term "supplier" ++ $" found.").
  apply Bad_twice with (a := text75 "Person: Jack Doe") (b := text75 "Person: Jane Doe") (l := []). list75.
Qed.
Example C75_file_sample :
  read75 (with75 (at75 "F") (term "fileType") (NUri (term "fileType_song")) graph75)
  = Raise (EParsing [parsing $"File" $"Invalid value for <enum 'FileType'>: http://spdx.org/rdf/terms#fileType_song"]).
Proof.
  destruct read75_ok as [d E].
  apply (C75_file rdf_oracles sample_library C56_sample_libraries (as75 graph75) (as75 (with75 (at75 "F") (term "fileType") (NUri (term "fileType_song")) graph75)) d (at75 "F") (term "fileType") _ E (with75_same _ _ _ _) eq_refl [] []); [list75|apart75|].
  apply RF_type with (a := []) (old := [NUri (term "fileType_source")]) (b := []) (n := NUri (term "fileType_song")); [list75|list75|].
  apply (no_member75 file_type_all); [exact JsonRead.ftype_lookup|vm_compute; reflexivity|vm_compute; reflexivity].
Qed.
Example C75_annotation_sample :
  read75 (with75 (NBlank $"n") (term "annotator") (text75 "ACME") graph75)
  = Raise (EParsing [parsing $"Annotation" $"Actor ACME doesn't match any of person, organization or tool."]).
Proof.
  destruct read75_ok as [d E].
  apply (C75_annotation rdf_oracles sample_library C56_sample_libraries (as75 graph75) (as75 (with75 (NBlank $"n") (term "annotator") (text75 "ACME") graph75)) d (NBlank $"n") (term "annotator") _ E (with75_same _ _ _ _) eq_refl (at75 "A") [] []); [list75|apart75|].
  apply RA_annotator. apply Bad_value with (n := text75 "ACME"); [list75|reflexivity|apply no_actor75].
Qed.
Example C75_relationship_sample :
  read75 (with75 (NBlank $"l") (term "relationshipType") (NUri (term "relationshipType_likes")) graph75)
  = Raise (EParsing [parsing $"Relationship" $"Invalid value for <enum 'RelationshipType'>: http://spdx.org/rdf/terms#relationshipType_likes"]).
Proof.
  destruct read75_ok as [d E].
  apply (C75_relationship rdf_oracles sample_library C56_sample_libraries (as75 graph75) (as75 (with75 (NBlank $"l") (term "relationshipType") (NUri (term "relationshipType_likes")) graph75)) d (NBlank $"l") (term "relationshipType") _ E (with75_same _ _ _ _) eq_refl (at75 "DOCUMENT") [] []); [list75|apart75|].
  apply RR_type. apply Bad_value with (n := NUri (term "relationshipType_likes")); [list75|reflexivity|].
  apply (no_member75 rel_type_all); [exact JsonRead.rtype_lookup|vm_compute; reflexivity|vm_compute; reflexivity].
Qed.
Example C75_creation_info_sample :
  exists m, read75 (with75 (NBlank $"c") (term "created") (text75 "yesterday") graph75) = Raise (EParsing [parsing $"CreationInfo" m]).
Proof.
  destruct read75_ok as [d E]. eexists.
  apply (C75_creation_info rdf_oracles sample_library (as75 graph75) (as75 (with75 (NBlank $"c") (term "created") (text75 "yesterday") graph75)) d (NBlank $"c") (term "created") _ E (with75_same _ _ _ _) eq_refl []); [list75|].
  apply RC_created. apply Bad_value with (n := text75 "yesterday"); [list75|reflexivity|]. vm_compute. reflexivity.
Qed.
Lemma no_algorithm75 : NoAlgorithm (NUri (term "checksumAlgorithm_sha0")) $"Invalid value for ChecksumAlgorithm: SHA0".
Proof.
  split.
  - intros a K. apply algorithm_iff in K. assert (X : is_ok (convert_rdf_to_algorithm (NUri (term "checksumAlgorithm_sha0"))) = false) by (vm_compute; reflexivity). rewrite K in X. discriminate X.
  - exists $"sha0". split; [left; reflexivity|vm_compute; reflexivity].
Qed.
Example C75_package_checksum_sample :
  read75 (with75 (NBlank $"k") (term "algorithm") (NUri (term "checksumAlgorithm_sha0")) graph75)
  = Raise (EParsing [parsing $"Checksum" $"Invalid value for ChecksumAlgorithm: SHA0"]).
Proof.
  destruct read75_ok as [d E].
  apply (C75_package_checksum rdf_oracles sample_library C56_sample_libraries (as75 graph75) (as75 (with75 (NBlank $"k") (term "algorithm") (NUri (term "checksumAlgorithm_sha0")) graph75)) d (NBlank $"k") (term "algorithm") _ E (with75_same _ _ _ _) eq_refl (at75 "A") [] [at75 "B"] [] [] [at75 "F"] []);
    [list75|apart75|list75|apart75|alone75|list75|apart75|list75|apart75|].
  apply RK_algorithm. apply Bad_value with (n := NUri (term "checksumAlgorithm_sha0")); [list75|reflexivity|exact no_algorithm75].
Qed.
Example C75_file_checksum_sample :
  read75 (with75 (NBlank $"h") (term "algorithm") (NUri (term "checksumAlgorithm_sha0")) graph75)
  = Raise (EParsing [parsing $"Checksum" $"Invalid value for ChecksumAlgorithm: SHA0"]).
Proof.
  destruct read75_ok as [d E].
  apply (C75_file_checksum rdf_oracles sample_library C56_sample_libraries (as75 graph75) (as75 (with75 (NBlank $"h") (term "algorithm") (NUri (term "checksumAlgorithm_sha0")) graph75)) d (NBlank $"h") (term "algorithm") _ E (with75_same _ _ _ _) eq_refl (at75 "F") [] [] [] [] [at75 "A"; at75 "B"] []);
    [list75|apart75|list75|apart75|alone75|list75|apart75|list75|apart75|].
  apply RK_algorithm. apply Bad_value with (n := NUri (term "checksumAlgorithm_sha0")); [list75|reflexivity|exact no_algorithm75].
Qed.
Example C75_package_reference_sample :
  read75 (with75 (NBlank $"r") (term "referenceCategory") (NUri (term "referenceCategory_none")) graph75)
  = Raise (EParsing [parsing $"ExternalPackageRef" $"Invalid value for <enum 'ExternalPackageRefCategory'>: http://spdx.org/rdf/terms#referenceCategory_none"]).
Proof.
  destruct read75_ok as [d E].
  apply (C75_package_reference rdf_oracles sample_library C56_sample_libraries (as75 graph75) (as75 (with75 (NBlank $"r") (term "referenceCategory") (NUri (term "referenceCategory_none")) graph75)) d (NBlank $"r") (term "referenceCategory") _ E (with75_same _ _ _ _) eq_refl (at75 "A") [] [at75 "B"] [] []);
    [list75|apart75|list75|apart75|alone75|].
  apply RE_category. apply Bad_value with (n := NUri (term "referenceCategory_none")); [list75|reflexivity|].
  apply (no_member75 ref_category_all); [exact JsonRead.cat_lookup|vm_compute; reflexivity|vm_compute; reflexivity].
Qed.
(** three mistakes in three parts *)
Definition broken75 : list triple :=
  with75 (at75 "A") (term "supplier") (text75 "ACME") (with75 (NBlank $"n") (term "annotator") (text75 "Jane") (with75 (NBlank $"l") (term "relationshipType") (NUri (term "relationshipType_likes")) graph75)).
Ltac handled75 := let x := fresh in let I := fresh in intros x I; repeat (destruct I as [<-|I]; [vm_compute; first [left; eexists; reflexivity|right; eexists; reflexivity]|]); destruct I.
Example C75_all_reported_sample :
  read75 broken75
  = Raise (EParsing [parsing $"Package" $"Actor ACME doesn't match any of person, organization or tool.";
                     parsing $"Annotation" $"Actor Jane doesn't match any of person, organization or tool.";
                     parsing $"Relationship" $"Invalid value for <enum 'RelationshipType'>: http://spdx.org/rdf/terms#relationshipType_likes"]).
Proof.
  assert (E : exists ci, parse_creation_info sample_library (as75 broken75) = Ok ci) by (vm_compute; eexists; reflexivity). destruct E as [ci E].
  assert (F : match parse_creation_info sample_library (as75 broken75) with Ok c => c | Raise _ => ci end = ci) by (rewrite E; reflexivity).
  vm_compute in F. subst ci.
  refine (eq_trans (proj2 (C75_all_reported rdf_oracles sample_library (as75 broken75) _ [at75 "A"; at75 "B"] [at75 "F"] [] [(at75 "A", NBlank $"n")] [(at75 "DOCUMENT", NBlank $"l")] [] [] [] E _ _ _ _ _ _ _ _ _ _ _ _ _ _ _ _) _) _);
    try list75; try handled75; vm_compute; [discriminate|reflexivity].
Qed.
