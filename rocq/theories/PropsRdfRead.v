(** Property theorems: reading RDF (C56), nodes of licenses (C44). *)
From Verif Require Import Py PyRe Data Oracles Basics Samples Rdf RdfWriter RdfParser RdfReadSpec RdfSamples.
From Verif Require RdfSpec RdfFinal RdfTotal RdfMore RdfSampleFacts RdfDepict RdfIff2 RdfIff3 RdfIff4 RdfIff5.

(** ** C56 *)
(** An element is read from a node, without any message, if and only if it is the one that the graph describes there:
    property by property, with the terms of the SPDX vocabulary spelled out in RdfReadSpec.v. *)
Theorem C56_package :
  forall (O : oracles) (L : rdf_library), Foreign O L ->
  forall (G : list triple) (bound : list (pystr * pystr)) (ns : pystr) (n : node) (p : package),
  parse_package O L G bound ns n = Ok p <-> PackageIn O L G bound ns n p.
Proof. exact RdfIff3.package_iff. Qed.
Print Assumptions C56_package.
Theorem C56_file :
  forall (O : oracles) (L : rdf_library), Foreign O L ->
  forall (G : list triple) (bound : list (pystr * pystr)) (ns : pystr) (n : node) (f : file),
  parse_file O L G bound ns n = Ok f <-> FileIn O L G bound ns n f.
Proof. exact RdfIff3.file_iff. Qed.
Print Assumptions C56_file.
Theorem C56_snippet :
  forall (O : oracles) (L : rdf_library), Foreign O L ->
  forall (G : list triple) (bound : list (pystr * pystr)) (ns : pystr) (n : node) (s : snippet),
  parse_snippet O L G bound ns n = Ok s <-> SnippetIn O L G bound ns n s.
Proof. exact RdfIff4.snippet_iff. Qed.
Print Assumptions C56_snippet.
Theorem C56_annotation :
  forall (L : rdf_library) (G : list triple) (bound : list (pystr * pystr)) (ns : pystr) (link : node * node) (a : annotation),
  parse_annotation L G bound ns link = Ok a <-> AnnotationIn L G bound ns link a.
Proof. exact RdfIff3.annotation_iff. Qed.
Print Assumptions C56_annotation.
Theorem C56_relationship :
  forall (O : oracles) (L : rdf_library), Foreign O L ->
  forall (G : list triple) (bound : list (pystr * pystr)) (ns : pystr) (link : node * node) (r : relationship),
  parse_relationship L G bound ns link = Ok r <-> RelationshipIn L G bound ns link r.
Proof. exact RdfIff3.relationship_iff. Qed.
Print Assumptions C56_relationship.
(** hasFile and describesPackage *)
Theorem C56_implied_relationship :
  forall (L : rdf_library) (bound : list (pystr * pystr)) (ns : pystr) (ty : rel_type) (link : node * node) (r : relationship),
  parse_implicit_relationship L bound ns ty link = Ok r <-> ImpliedBy L bound ns ty link r.
Proof. exact RdfIff3.implied_iff. Qed.
Print Assumptions C56_implied_relationship.
Theorem C56_extracted_license :
  forall (L : rdf_library) (G : list triple) (ns : pystr) (n : node) (e : extracted),
  parse_extracted_licensing_info L G ns n = Ok e <-> ExtractedIn L G ns n e.
Proof. exact RdfIff3.extracted_iff. Qed.
Print Assumptions C56_extracted_license.
Theorem C56_license_expression :
  forall (O : oracles) (L : rdf_library) (G : list triple) (ns : pystr) (depth : nat) (n : node) (e : option lexpr),
  parse_expression O L depth G ns (Some n) = Ok e <-> Expresses O L G ns depth n e.
Proof. exact RdfIff2.expression_iff. Qed.
Print Assumptions C56_license_expression.
Theorem C56_creation_info :
  forall (L : rdf_library) (g : graph) (c : creation_info),
  parse_creation_info L g = Ok c <-> exists doc, CreationIn L (g_triples g) (g_bound g) doc c.
Proof. exact RdfIff5.creation_iff. Qed.
Print Assumptions C56_creation_info.
(** A document is read if and only if the graph describes exactly it: one element for each node of its class, in the
    order of the graph. *)
Theorem C56_document :
  forall (O : oracles) (L : rdf_library), Foreign O L ->
  forall (g : graph) (d : document), translate_graph_to_document O L g = Ok d <-> DocumentIn O L g d.
Proof. exact RdfIff5.document_iff. Qed.
Print Assumptions C56_document.
(** What is written, in these terms: any graph that is the same but for the labels of blank nodes and the order of triples
    describes the document up to the order of lists. *)
Theorem C56_written :
  forall (O : oracles) (L : rdf_library) (lab : nat -> pystr) (d : document), Foreign O L ->
  RdfSpec.RdfDocument O d -> RdfSpec.LicenseGrammar O -> RdfSpec.RdfLibrary L (ci_namespace (do_ci d)) ->
  exists ts, write_graph O lab d = Ok ts
    /\ forall g, RdfSpec.SameGraph lab ts (g_triples g) -> RdfSpec.Shortens L (g_bound g) (ci_refs (do_ci d)) ->
       exists e, DocumentIn O L g e /\ RdfSpec.SameDocument d e.
Proof.
  intros O L lab d F HD HG HL. destruct (RdfTotal.rdf_written O lab d HD) as [ts E]. exists ts. split; [exact E|].
  intros g HS HB. destruct (RdfFinal.round_trip O lab d L g HD HG HL HB ts E HS) as (e & H & S1). exists e. split; [|exact S1].
  apply C56_document; assumption.
Qed.
Print Assumptions C56_written.
Example C56_sample_libraries : Foreign rdf_oracles sample_library.
Proof.
  split.
  - cbn [rdf_oracles o_lic_parse]. intros s m. unfold grammar_read. destruct (read_or (split_on #" " s)); discriminate.
  - intros s m. discriminate.
  - intros dt t b m. cbn [sample_library r_value]. destruct (str_eqb dt XSD_boolean); [discriminate|]. destruct (int_of_text t); discriminate.
Qed.
(** The sample document, written and read; *)
Example C56_sample_document :
  exists ts, write_graph rdf_oracles sample_label rdf_document = Ok ts
    /\ match translate_graph_to_document rdf_oracles sample_library {| g_triples := ts; g_bound := [] |} with
       | Ok d => List.length (do_packages d) = 2 /\ List.length (do_snippets d) = 1 /\ pk_declared (hd (rdf_package []) (do_packages d))
                 = Some (NVal (LWith $"GPL-2.0" $"Classpath-exception-2.0"))
       | Raise _ => False
       end.
Proof.
  destruct (write_graph rdf_oracles sample_label rdf_document) as [ts|e] eqn:E.
  - exists ts. split; [reflexivity|].
    assert (T : match (do ts <- write_graph rdf_oracles sample_label rdf_document;
                       translate_graph_to_document rdf_oracles sample_library {| g_triples := ts; g_bound := [] |}) with
       | Ok d => List.length (do_packages d) = 2 /\ List.length (do_snippets d) = 1 /\ pk_declared (hd (rdf_package []) (do_packages d))
                 = Some (NVal (LWith $"GPL-2.0" $"Classpath-exception-2.0"))
       | Raise _ => False
       end) by (vm_compute; repeat split). rewrite E in T. exact T.
  - assert (T : is_ok (write_graph rdf_oracles sample_label rdf_document) = true) by (vm_compute; reflexivity). rewrite E in T. discriminate T.
Qed.
(** two values where there may be one describe nothing. *)
Example C56_sample_two_names :
  let n := NUri $"https://example.com/doc#SPDXRef-A" in
  let G := [(n, term "name", NLit $"a" KPlain); (n, term "downloadLocation", NUri (term "none")); (n, term "name", NLit $"b" KPlain)] in
  ~ exists p, PackageIn rdf_oracles sample_library G [] $"https://example.com/doc" n p.
Proof.
  cbv zeta. intros (p & H). apply C56_package in H; [|exact C56_sample_libraries].
  assert (T : is_ok (parse_package rdf_oracles sample_library
    [(NUri $"https://example.com/doc#SPDXRef-A", term "name", NLit $"a" KPlain);
     (NUri $"https://example.com/doc#SPDXRef-A", term "downloadLocation", NUri (term "none"));
     (NUri $"https://example.com/doc#SPDXRef-A", term "name", NLit $"b" KPlain)] [] $"https://example.com/doc"
    (NUri $"https://example.com/doc#SPDXRef-A")) = false) by (vm_compute; reflexivity).
  rewrite H in T. discriminate T.
Qed.

(** ** C44, continued *)
(** Writing a license expression: the licenses and exceptions of the SPDX list are referred to by their URIs there, all
    others belong to the document; AND, OR and WITH are nodes of the classes that the SPDX vocabulary has for them. *)
Theorem C44_license_nodes :
  forall (O : oracles) (lab : nat -> pystr) (ns : pystr) (e : lexpr) (element : node) (p : pystr) (n : nat) (ts : list triple) (k : nat),
  add_license_expression_to_graph O lab e element p ns n = Ok (ts, k) ->
  exists v, In (element, p, v) ts /\ Depicts O ns ts v e.
Proof. exact RdfDepict.expression_depicted. Qed.
Print Assumptions C44_license_nodes.
Example C44_sample_nodes :
  add_license_expression_to_graph rdf_oracles sample_label (LAnd [LSym $"MIT"; LSym $"LicenseRef-1"]) (NUri $"e") (term "licenseConcluded") $"ns" 0
  = Ok ([(NBlank $"N0", is_a, NUri (term "ConjunctiveLicenseSet")); (NUri $"e", term "licenseConcluded", NBlank $"N0");
         (NBlank $"N0", term "member", NUri $"http://spdx.org/licenses/MIT"); (NBlank $"N0", term "member", NUri $"ns#LicenseRef-1")], 1)
  /\ Listed rdf_oracles $"MIT" /\ ~ Listed rdf_oracles $"LicenseRef-1".
Proof. split; [vm_compute; reflexivity|]. split; [reflexivity|]. unfold Listed. vm_compute. discriminate. Qed.
