(** C75: One mistake in a snippet or an extracted license of an RDF document gives one message that names it. *)
From Verif Require PyFacts RdfIff4.
From Verif Require Import Py Data Oracles Basics Construct Rdf RdfParser RdfReadSpec JsonReportSpec RdfReportSpec RdfReportSpec2 RdfIff RdfReport6 RdfReport8 RdfReport9 RdfSamples PropsRdfRead PropsRdfReport.

(** a range without start or end, with several of them, with a start and an end of different kinds, or a second range of
    bytes or of lines *)
Theorem C75_snippet :
  forall (O : oracles) (L : rdf_library), Foreign O L ->
  forall (g g' : graph) (d : document) (s : node) (p m : pystr),
  translate_graph_to_document O L g = Ok d -> SameBut s p (g_triples g) (g_triples g') -> g_bound g' = g_bound g ->
  forall before after, Subjects is_a (NUri (term "Snippet")) (g_triples g) (before ++ s :: after) -> ~ In s (before ++ after) ->
  SnippetMistake L (g_triples g) (g_triples g') s p m ->
  translate_graph_to_document O L g' = Raise (EParsing [parsing $"Snippet" m]).
Proof. exact RdfReport8.report_snippet. Qed.
Print Assumptions C75_snippet.
Theorem C75_extracted_license :
  forall (O : oracles) (L : rdf_library), Foreign O L ->
  forall (g g' : graph) (d : document) (s : node) (p m : pystr),
  translate_graph_to_document O L g = Ok d -> SameBut s p (g_triples g) (g_triples g') -> g_bound g' = g_bound g ->
  forall owner before after, Links (term "hasExtractedLicensingInfo") (g_triples g) (before ++ (owner, s) :: after) -> ~ In s (map snd (before ++ after)) ->
  ExtractedMistake L (g_triples g') s p m ->
  translate_graph_to_document O L g' = Raise (EParsing [parsing $"ExtractedLicensingInfo" m]).
Proof. exact RdfReport8.report_extracted. Qed.
Print Assumptions C75_extracted_license.

(** A wrong creator: the message does not name the creation info. *)
Theorem C75_creator :
  forall (O : oracles) (L : rdf_library) (g g' : graph) (d : document) (s : node),
  translate_graph_to_document O L g = Ok d -> SameBut s (term "creator") (g_triples g) (g_triples g') ->
  forall others a old c n t, Subjects is_a (NUri (term "CreationInfo")) (g_triples g) (s :: others) ->
  Objects s (term "creator") (g_triples g) (a ++ old ++ c) -> Objects s (term "creator") (g_triples g') (a ++ n :: c) ->
  Plain L n t -> (forall x, t <> $"Tool:" ++ x /\ t <> $"Person:" ++ x /\ t <> $"Organization:" ++ x) ->
  translate_graph_to_document O L g' = Raise (EParsing [$"Actor " ++ t ++ $" doesn't match any of person, organization or tool."]).
Proof. exact RdfReport9.report_creator. Qed.
Print Assumptions C75_creator.

(** ** A document with a snippet and an extracted license *)
Definition license75 : node := NUri $"https://example.com/doc#LicenseRef-1".
Definition more75 : list triple :=
  graph75
  ++ [(at75 "S", is_a, NUri (term "Snippet")); (at75 "S", term "snippetFromFile", at75 "F"); (at75 "S", term "range", NBlank $"1");
      (NBlank $"1", pointer "startPointer", NBlank $"2"); (NBlank $"1", pointer "endPointer", NBlank $"3");
      (NBlank $"2", is_a, NUri (pointer "ByteOffsetPointer")); (NBlank $"2", pointer "offset", text75 "1");
      (NBlank $"3", is_a, NUri (pointer "ByteOffsetPointer")); (NBlank $"3", pointer "offset", text75 "5");
      (NBlank $"4", pointer "startPointer", NBlank $"2"); (NBlank $"4", pointer "endPointer", NBlank $"5"); (NBlank $"5", is_a, NUri (pointer "LineCharPointer"));
      (NBlank $"6", pointer "startPointer", NBlank $"2"); (NBlank $"6", pointer "endPointer", NBlank $"3");
      (at75 "DOCUMENT", term "hasExtractedLicensingInfo", license75); (license75, term "licenseId", text75 "LicenseRef-1"); (license75, term "extractedText", text75 "text")].
Lemma more75_ok : exists d, read75 more75 = Ok d.
Proof. assert (E : is_ok (read75 more75) = true) by (vm_compute; reflexivity). destruct (read75 more75) as [d|]; [eauto|discriminate E]. Qed.
Lemma add75_same s p o G : SameBut s p G (G ++ [(s, p, o)]).
Proof. induction G; [apply SB_new, SB_nil|constructor; assumption]. Qed.
(** a second range from a byte to a line *)
Example C75_snippet_sample :
  read75 (more75 ++ [(at75 "S", term "range", NBlank $"4")])
  = Raise (EParsing [parsing $"Snippet" $"Types of startPointer and endPointer don't match"]).
Proof.
  destruct more75_ok as [d E].
  apply (C75_snippet rdf_oracles sample_library C56_sample_libraries (as75 more75) (as75 (more75 ++ [(at75 "S", term "range", NBlank $"4")])) d (at75 "S") (term "range") _ E (add75_same _ _ _ _) eq_refl [] []); [list75|apart75|].
  apply RS_range with (a := [NBlank $"1"]) (old := []) (c := []) (n := NBlank $"4"); [list75|list75|].
  apply BR_kinds with (x := NBlank $"2") (y := NBlank $"5") (t := Some (NUri (pointer "ByteOffsetPointer"))) (u := Some (NUri (pointer "LineCharPointer")));
    first [list75|reflexivity|apply first_iff; vm_compute; reflexivity|vm_compute; discriminate].
Qed.
(** a second range of bytes *)
Example C75_snippet_again_sample :
  read75 (more75 ++ [(at75 "S", term "range", NBlank $"6")]) = Raise (EParsing [parsing $"Snippet" $"Multiple ByteOffsetPointer found."]).
Proof.
  destruct more75_ok as [d E].
  apply (C75_snippet rdf_oracles sample_library C56_sample_libraries (as75 more75) (as75 (more75 ++ [(at75 "S", term "range", NBlank $"6")])) d (at75 "S") (term "range") _ E (add75_same _ _ _ _) eq_refl [] []); [list75|apart75|].
  apply (RS_again sample_library more75 _ (at75 "S") [NBlank $"1"] true (NBlank $"1") (1%Z, 5%Z) (NBlank $"6") (1%Z, 5%Z)); [list75|left; reflexivity| |list75|];
    apply RdfIff4.ranges_iff; vm_compute; reflexivity.
Qed.
Example C75_extracted_license_sample :
  read75 (more75 ++ [(license75, term "extractedText", text75 "other")])
  = Raise (EParsing [parsing $"ExtractedLicensingInfo" $"Multiple values for unique value http://spdx.org/rdf/terms#extractedText found."]).
Proof.
  destruct more75_ok as [d E].
  apply (C75_extracted_license rdf_oracles sample_library C56_sample_libraries (as75 more75) (as75 (more75 ++ [(license75, term "extractedText", text75 "other")])) d license75 (term "extractedText") _ E (add75_same _ _ _ _) eq_refl (at75 "DOCUMENT") [] []); [list75|apart75|].
  apply RX_text. change $"Multiple values for unique value http://spdx.org/rdf/terms#extractedText found." with ($"Multiple values for unique value " ++ term "extractedText" ++ $" found.").
  apply Bad_twice with (a := text75 "text") (b := text75 "other") (l := []). list75.
Qed.
Example C75_creator_sample :
  read75 (more75 ++ [(NBlank $"c", term "creator", text75 "ACME")])
  = Raise (EParsing [$"Actor ACME doesn't match any of person, organization or tool."]).
Proof.
  destruct more75_ok as [d E].
  apply (C75_creator rdf_oracles sample_library (as75 more75) (as75 (more75 ++ [(NBlank $"c", term "creator", text75 "ACME")])) d (NBlank $"c") E (add75_same _ _ _ _) [] [text75 "Tool: t"] [] [] (text75 "ACME") $"ACME"); [list75|list75|list75|vm_compute; reflexivity|].
  intro x. repeat split; discriminate.
Qed.

(** ** References to other documents *)
Definition other75 : node := NUri $"https://example.com/doc#DocumentRef-e".
Definition ext75 : list triple :=
  graph75
  ++ [(at75 "DOCUMENT", term "externalDocumentRef", other75); (other75, term "spdxDocument", NUri $"https://example.com/e"); (other75, term "checksum", NBlank $"z");
      (NBlank $"z", term "algorithm", NUri (term "checksumAlgorithm_sha1")); (NBlank $"z", term "checksumValue", text75 "abc")].
(** A mistake in the checksum of a reference to another document: the message about it is lost.  Reading ends with an error
    that says only that the reference has no checksum. *)
Theorem C75_document_reference_refuted :
  exists (O : oracles) (L : rdf_library) (g g' : graph) (d : document) (s : node) (p m : pystr) (ms : list pystr),
  Foreign O L /\ translate_graph_to_document O L g = Ok d /\ SameBut s p (g_triples g) (g_triples g') /\ g_bound g' = g_bound g
  /\ ChecksumMistake L (g_triples g') s p m /\ translate_graph_to_document O L g' = Raise (EParsing ms)
  /\ forall x a b, In x ms -> x <> a ++ m ++ b.
Proof.
  assert (E : exists d, read75 ext75 = Ok d).
  { assert (E : is_ok (read75 ext75) = true) by (vm_compute; reflexivity). destruct (read75 ext75) as [d|]; [eauto|discriminate E]. }
  destruct E as [d E].
  exists rdf_oracles, sample_library, (as75 ext75), (as75 (with75 (NBlank $"z") (term "algorithm") (NUri (term "checksumAlgorithm_sha0")) ext75)), d, (NBlank $"z"), (term "algorithm"), $"Invalid value for ChecksumAlgorithm: SHA0".
  eexists. split; [exact C56_sample_libraries|]. split; [exact E|]. split; [apply with75_same|]. split; [reflexivity|].
  split; [apply RK_algorithm; apply Bad_value with (n := NUri (term "checksumAlgorithm_sha0")); [list75|reflexivity|exact no_algorithm75]|].
  split; [vm_compute; reflexivity|]. intros x a b [<-|[]] X.
  assert (C : contains $"Invalid value for ChecksumAlgorithm: SHA0" (a ++ $"Invalid value for ChecksumAlgorithm: SHA0" ++ b) = true) by (apply PyFacts.contains_spec; eauto).
  rewrite <- X in C. vm_compute in C. discriminate C.
Qed.
Print Assumptions C75_document_reference_refuted.
