(** Property theorems: the RDF form of documents (C41 to C45). *)
From Verif Require Import Py Data Oracles Basics Validation ValidationSpec BasicsSpec Samples Rdf RdfWriter RdfParser RdfSpec RdfSamples.
From Verif Require RdfFinal RdfTotal RdfMore RdfReadFacts RdfSampleFacts.

(** ** C41 *)
(** An id of the document comes back from the URI written for it, whatever the namespace, the listed external documents
    and the bound prefixes are, if the fragment of that URI is what follows the namespace. *)
Theorem C41_internal_id :
  forall (L : rdf_library) (bound ext : list (pystr * pystr)) (ns id : pystr),
  RdfId id -> r_fragment L (ns ++ $"#" ++ id) = Ok id ->
  parse_spdx_id L bound (Some (NUri (add_namespace_to_spdx_id id ns ext))) ns = Ok (Some id).
Proof. intros L bound ext ns id. apply RdfMore.internal_back. Qed.
Print Assumptions C41_internal_id.
(** So does the id of an element of a listed external document, if the RDF library shortens its URI with the prefix. *)
Theorem C41_external_id :
  forall (L : rdf_library) (bound : list (pystr * pystr)) (ns : pystr) (refs : list ext_doc_ref) (r : ext_doc_ref) (id : pystr),
  ~ In #"#" ns -> Forall (RdfDocRef ns) refs -> NoDup (map edr_id refs) -> In r refs -> RdfId id ->
  r_normalize L bound (edr_uri r ++ $"#" ++ id) = edr_id r ++ $":" ++ id ->
  parse_spdx_id L bound
    (Some (NUri (add_namespace_to_spdx_id (edr_id r ++ $":" ++ id) ns (external_doc_ref_to_namespace refs)))) ns
  = Ok (Some (edr_id r ++ $":" ++ id)).
Proof. exact RdfMore.external_back. Qed.
Print Assumptions C41_external_id.
(** Any other text without '#' is written and read unchanged. *)
Theorem C41_other_id :
  forall (L : rdf_library) (bound ext : list (pystr * pystr)) (ns id : pystr),
  id <> [] -> ~ In #"#" id -> ~ InternalId id ->
  (forall a b, id = a ++ $":" ++ b -> ~ In #":" a -> assoc a ext = None) ->
  parse_spdx_id L bound (Some (NUri (add_namespace_to_spdx_id id ns ext))) ns = Ok (Some id).
Proof. intros L bound ext ns id. apply RdfMore.unlisted_back. Qed.
Print Assumptions C41_other_id.
Example C41_sample : RdfId $"SPDXRef-Package-A"
  /\ r_fragment sample_library ($"https://example.com/doc" ++ $"#" ++ $"SPDXRef-Package-A") = Ok $"SPDXRef-Package-A"
  /\ RdfDocRef $"https://example.com/doc" sample_ext
  /\ (forall b, RdfId b -> r_normalize sample_library [(edr_id sample_ext, edr_uri sample_ext ++ $"#")] (edr_uri sample_ext ++ $"#" ++ b)
                = edr_id sample_ext ++ $":" ++ b).
Proof.
  split; [apply RdfSampleFacts.id_by_test; vm_compute; reflexivity|]. split; [vm_compute; reflexivity|]. split.
  - pose proof (proj1 (rc_refs _ (rd_ci _ _ RdfSampleFacts.rdf_document_ok))) as F. inversion F. assumption.
  - intros b Hb. exact (RdfSampleFacts.sample_shortens [sample_ext] sample_ext b (Permutation_refl _) (or_introl eq_refl) Hb).
Qed.

(** ** C42 *)
(** Every member of an enumeration is recovered from the URI written for it. *)
Theorem C42_enum_names :
  (forall t, parse_enum_value file_type_all file_type_name $"fileType_" (enum_uri $"fileType_" (file_type_name t)) = Ok t)
  /\ (forall t, parse_enum_value purpose_all purpose_name $"purpose_" (enum_uri $"purpose_" (purpose_name t)) = Ok t)
  /\ (forall t, parse_enum_value ref_category_all ref_category_name $"referenceCategory_" (enum_uri $"referenceCategory_" (ref_category_name t)) = Ok t)
  /\ (forall t, parse_enum_value annotation_type_all annotation_type_name $"annotationType_" (enum_uri $"annotationType_" (annotation_type_name t)) = Ok t)
  /\ (forall t, parse_enum_value rel_type_all rel_type_name $"relationshipType_" (enum_uri $"relationshipType_" (rel_type_name t)) = Ok t).
Proof.
  exact (conj RdfReadFacts.read_file_type (conj RdfReadFacts.read_purpose (conj RdfReadFacts.read_category
    (conj RdfReadFacts.read_annotation_type RdfReadFacts.read_rel_type)))).
Qed.
Print Assumptions C42_enum_names.
Theorem C42_checksum_algorithms : forall a : checksum_alg, convert_rdf_to_algorithm (algorithm_to_rdf_string a) = Ok a.
Proof. exact RdfReadFacts.read_algorithm. Qed.
Print Assumptions C42_checksum_algorithms.
Example C42_sample : enum_uri $"purpose_" (purpose_name PP_OPERATING_SYSTEM) = NUri $"http://spdx.org/rdf/terms#purpose_operatingSystem"
  /\ algorithm_to_rdf_string CA_BLAKE2B_256 = NUri $"http://spdx.org/rdf/terms#checksumAlgorithm_blake2b256".
Proof. split; vm_compute; reflexivity. Qed.

(** ** C43 *)
(** Documents of the class described in RdfSpec.v can be written, and reading the graph back, with any labels of blank
    nodes and the triples in any order, gives the same document up to the order of lists. *)
Theorem C43_rdf_round_trip :
  forall (O : oracles) (L : rdf_library) (lab : nat -> pystr) (d : document),
  RdfDocument O d -> LicenseGrammar O -> RdfLibrary L (ci_namespace (do_ci d)) ->
  exists ts, write_graph O lab d = Ok ts
    /\ forall g, SameGraph lab ts (g_triples g) -> Shortens L (g_bound g) (ci_refs (do_ci d)) ->
       exists e, translate_graph_to_document O L g = Ok e /\ SameDocument d e.
Proof.
  intros O L lab d HD HG HL. destruct (RdfTotal.rdf_written O lab d HD) as [ts E]. exists ts. split; [exact E|].
  intros g HS HB. exact (RdfFinal.round_trip O lab d L g HD HG HL HB ts E HS).
Qed.
Print Assumptions C43_rdf_round_trip.
Example C43_sample : RdfDocument rdf_oracles rdf_document /\ LicenseGrammar rdf_oracles
  /\ RdfLibrary sample_library (ci_namespace (do_ci rdf_document)) /\ Labels sample_label
  /\ Shortens sample_library [] (ci_refs (do_ci rdf_document)) /\ validate_full_spdx_document rdf_oracles rdf_document None = [].
Proof.
  exact (conj RdfSampleFacts.rdf_document_ok (conj RdfSampleFacts.sample_grammar (conj RdfSampleFacts.sample_library_ok
    (conj RdfSampleFacts.sample_label_ok (conj RdfSampleFacts.sample_shortens eq_refl))))).
Qed.

(** Documents outside that class; each of those below is valid. *)
Definition there_and_back (d : document) : result document :=
  do ts <- write_graph rdf_oracles sample_label d;
  translate_graph_to_document rdf_oracles sample_library {| g_triples := ts; g_bound := [] |}.
Definition valid (d : document) : Prop := validate_full_spdx_document rdf_oracles d None = [].
Definition small (p : package) (x : extracted) : document :=
  {| do_ci := do_ci rdf_document; do_packages := [p]; do_files := []; do_snippets := []; do_annotations := [];
     do_relationships := [rel $"SPDXRef-DOCUMENT" RT_DESCRIBES $"SPDXRef-Package-A"]; do_extracted := [sample_extracted; x] |}.
Definition edit (home : option (nn pystr)) (declared : option license) (summary : option pystr) (copyright : option (nn pystr))
    (attribution : list pystr) : package :=
  let p := rdf_package $"SPDXRef-Package-A" in
  {| pk_id := pk_id p; pk_name := pk_name p; pk_download := pk_download p; pk_version := pk_version p;
     pk_file_name := pk_file_name p; pk_supplier := pk_supplier p; pk_originator := pk_originator p;
     pk_files_analyzed := pk_files_analyzed p; pk_verif := pk_verif p; pk_checksums := pk_checksums p; pk_homepage := home;
     pk_source_info := pk_source_info p; pk_concluded := pk_concluded p; pk_info := pk_info p; pk_declared := declared;
     pk_lic_comment := pk_lic_comment p; pk_copyright := copyright; pk_summary := summary;
     pk_description := pk_description p; pk_comment := pk_comment p; pk_refs := pk_refs p; pk_attribution := attribution;
     pk_purpose := pk_purpose p; pk_release := pk_release p; pk_built := pk_built p; pk_valid_until := pk_valid_until p |}.
Definition license_2 : extracted :=
  {| el_id := Some $"LicenseRef-2"; el_text := Some $"text"; el_name := Some (AVal $"name"); el_xrefs := []; el_comment := None |}.
Definition nameless : extracted := {| el_id := None; el_text := None; el_name := Some (AVal $"name"); el_xrefs := []; el_comment := None |}.
Definition license_none : extracted :=
  {| el_id := Some $"LicenseRef-2"; el_text := Some $"text"; el_name := Some (AVal $"NONE"); el_xrefs := []; el_comment := None |}.
(** The homepage NONE (SpdxNone) is read as the text "NONE". *)
Theorem C43_homepage_none_refuted : exists d, valid d /\ map pk_homepage (do_packages d) = [Some NNone]
  /\ match there_and_back d with Ok e => map pk_homepage (do_packages e) = [Some (NVal $"NONE")] | Raise _ => False end.
Proof. exists (small (edit (Some NNone) None None None []) license_2). split; [|split]; vm_compute; reflexivity. Qed.
Print Assumptions C43_homepage_none_refuted.
(** The copyright text "NONE" is read as SpdxNone. *)
Theorem C43_copyright_text_refuted : exists d, valid d /\ map pk_copyright (do_packages d) = [Some (NVal $"NONE")]
  /\ match there_and_back d with Ok e => map pk_copyright (do_packages e) = [Some NNone] | Raise _ => False end.
Proof. exists (small (edit None None None (Some (NVal $"NONE")) []) license_2). split; [|split]; vm_compute; reflexivity. Qed.
Print Assumptions C43_copyright_text_refuted.
(** Blanks around texts and empty texts are lost. *)
Theorem C43_blanks_refuted : exists d, valid d /\ map pk_summary (do_packages d) = [Some $" in short "]
  /\ match there_and_back d with Ok e => map pk_summary (do_packages e) = [Some $"in short"] | Raise _ => False end.
Proof. exists (small (edit None None (Some $" in short ") None []) license_2). split; [|split]; vm_compute; reflexivity. Qed.
Print Assumptions C43_blanks_refuted.
Theorem C43_empty_text_refuted : exists d, valid d /\ map pk_summary (do_packages d) = [Some []]
  /\ match there_and_back d with Ok e => map pk_summary (do_packages e) = [None] | Raise _ => False end.
Proof. exists (small (edit None None (Some []) None []) license_2). split; [|split]; vm_compute; reflexivity. Qed.
Print Assumptions C43_empty_text_refuted.
(** A text that occurs twice in a list comes back once. *)
Theorem C43_repetition_refuted : exists d, valid d /\ map pk_attribution (do_packages d) = [[$"thanks"; $"thanks"]]
  /\ match there_and_back d with Ok e => map pk_attribution (do_packages e) = [[$"thanks"]] | Raise _ => False end.
Proof. exists (small (edit None None None None [$"thanks"; $"thanks"]) license_2). split; [|split]; vm_compute; reflexivity. Qed.
Print Assumptions C43_repetition_refuted.
(** An extracted license without id gets the label of a blank node as its id ... *)
Theorem C43_extracted_id_refuted : exists d i, valid d /\ map el_id (do_extracted d) = [Some $"LicenseRef-1"; None]
  /\ match there_and_back d with Ok e => map el_id (do_extracted e) = [Some $"LicenseRef-1"; Some (sample_label i)] | Raise _ => False end.
Proof. exists (small (edit None None None None []) nameless), 10. split; [|split]; vm_compute; reflexivity. Qed.
Print Assumptions C43_extracted_id_refuted.
(** ... and one with the name "NONE" cannot be read. *)
Theorem C43_extracted_name_refuted : exists d, valid d /\ exists ms, there_and_back d = Raise (EParsing ms).
Proof.
  exists (small (edit None None None None []) license_none). split; [vm_compute; reflexivity|].
  assert (H : match there_and_back (small (edit None None None None []) license_none) with Raise (EParsing _) => true | _ => false end = true)
    by (vm_compute; reflexivity).
  destruct (there_and_back _) as [e|[]]; try discriminate H. eexists. reflexivity.
Qed.
Print Assumptions C43_extracted_name_refuted.

(** ** C44 *)
(** Writing a license expression in disjunctive normal form always succeeds; there is one license to read at the place
    where it was written; and reading it, whatever the labels of blank nodes and the order of triples, gives the same
    expression up to the order of members. *)
Theorem C44_license_round_trip :
  forall (O : oracles) (L : rdf_library) (lab : nat -> pystr) (ns : pystr) (e : lexpr) (id p : pystr) (n : nat),
  LicenseGrammar O -> RdfNamespace ns -> RdfLibrary L ns -> Dnf O e ->
  In p [spdx "licenseConcluded"; spdx "licenseDeclared"; spdx "licenseInfoFromFiles"; spdx "licenseInfoInFile"; spdx "licenseInfoInSnippet"] ->
  let element := NUri (ns ++ $"#" ++ id) in
  exists ts n', add_license_expression_to_graph O lab e element p ns n = Ok (ts, n')
    /\ forall g, SameGraph lab ts g ->
       exists v e', objects g element p = [v] /\ parse_license O L g ns v = Ok (Some e') /\ SameExpr e e'.
Proof.
  intros O L lab ns e id p n HG HN HL HD Hp. cbv zeta.
  destruct (RdfMore.expression_written O lab e (NUri (ns ++ $"#" ++ id)) p ns n) as (ts & n' & E). exists ts, n'. split; [exact E|].
  exact (RdfMore.expression_back O L lab ns e id p n HG HN HL HD Hp ts n' E).
Qed.
Print Assumptions C44_license_round_trip.
(** Expressions that are the same up to the order of members have the same meaning. *)
Theorem C44_same_meaning : forall (v : pystr -> Prop) (e e' : lexpr), SameExpr e e' -> (Holds v e <-> Holds v e').
Proof. intros v e. exact (RdfMore.same_holds v e). Qed.
Print Assumptions C44_same_meaning.
Example C44_sample : Dnf rdf_oracles (LOr [LAnd [LSym $"MIT"; LSym $"LicenseRef-1"]; LSym $"GPL-2.0"])
  /\ LicenseGrammar rdf_oracles /\ RdfNamespace $"https://example.com/doc" /\ RdfLibrary sample_library $"https://example.com/doc".
Proof.
  split; [|split; [exact RdfSampleFacts.sample_grammar|split; [|exact RdfSampleFacts.sample_library_ok]]].
  - pose proof (RdfSampleFacts.rdf_package_ok $"SPDXRef-Package-A") as P. exact (rp_concluded _ _ (P (proj1 C41_sample))).
  - exact (rc_namespace _ (rd_ci _ _ RdfSampleFacts.rdf_document_ok)).
Qed.
(** Other expressions may change their meaning: the member A OR B of a conjunction is joined with AND without parentheses. *)
Definition either_and : lexpr := LAnd [LOr [LSym $"MIT"; LSym $"GPL-2.0"]; LSym $"Apache-2.0"].
Theorem C44_nested_or_refuted : exists d e', valid d /\ map pk_declared (do_packages d) = [Some (NVal either_and)]
  /\ match there_and_back d with Ok e => map pk_declared (do_packages e) = [Some (NVal e')] | Raise _ => False end
  /\ exists v, Holds v e' /\ ~ Holds v either_and.
Proof.
  exists (small (edit None (Some (NVal either_and)) None None []) license_2), (LOr [LSym $"MIT"; LAnd [LSym $"GPL-2.0"; LSym $"Apache-2.0"]]).
  split; [vm_compute; reflexivity|]. split; [reflexivity|]. split; [vm_compute; reflexivity|].
  exists (fun k => k = $"MIT"). split; [left; reflexivity|]. intros [_ [H _]]. discriminate H.
Qed.
Print Assumptions C44_nested_or_refuted.

(** ** C45 *)
(** Writing a document succeeds if and only if its dates are in range and all its snippets have line ranges ... *)
Theorem C45_written_iff :
  forall (O : oracles) (lab : nat -> pystr) (d : document), Forall ValidDatetime (dates d) ->
  ((exists ts, write_graph O lab d = Ok ts) <-> Writable d).
Proof. exact RdfTotal.written_iff. Qed.
Print Assumptions C45_written_iff.
(** ... which validation does not require. *)
Definition lineless : document :=
  {| do_ci := do_ci rdf_document; do_packages := do_packages rdf_document; do_files := do_files rdf_document;
     do_snippets := map (fun s => {| sn_id := sn_id s; sn_file := sn_file s; sn_bytes := sn_bytes s; sn_lines := None;
       sn_concluded := sn_concluded s; sn_info := sn_info s; sn_lic_comment := sn_lic_comment s; sn_copyright := sn_copyright s;
       sn_comment := sn_comment s; sn_name := sn_name s; sn_attribution := sn_attribution s |}) (do_snippets rdf_document);
     do_annotations := []; do_relationships := do_relationships rdf_document; do_extracted := do_extracted rdf_document |}.
Theorem C45_no_line_range_refuted :
  exists d m, valid d /\ write_graph rdf_oracles sample_label d = Raise (EType m).
Proof. exists lineless, $"'NoneType' object is not subscriptable". split; vm_compute; reflexivity. Qed.
Print Assumptions C45_no_line_range_refuted.
Example C45_sample : Forall ValidDatetime (dates rdf_document) /\ is_ok (write_graph rdf_oracles sample_label rdf_document) = true.
Proof.
  split; [|vm_compute; reflexivity].
  pose proof RdfSampleFacts.rdf_date_ok as [V _]. repeat (apply Forall_cons; [exact V|]). apply Forall_nil.
Qed.
