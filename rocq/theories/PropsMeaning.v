(** Property theorems: what the JSON-LD files of the SPDX 3 writer mean with their context (C70). *)
From Verif Require Import Py Data Oracles Basics Json DocUtils Payload Bump Typing Typing3 Typing3Spec Jsonld Jsonld3 Jsonld3Spec OwlSpec OwlData MeaningSpec.
From Verif Require MeaningFacts Jsonld3Facts Jsonld3Bump PropsJsonld3.

(** ** C70 *)
(** Every object of what is written, at every depth, has a class of the ontology, and its keys are properties of the ontology, apart from two. *)
Theorem C70_objects :
  forall (c : pystr) (i : instance) (j : json) (o : list (pystr * json)),
  Sound (VObj c i) -> convert_to_json_ld (object_of (VObj c i)) = Ok j -> ObjectIn o j ->
  (exists d iri, In d classes3 /\ assoc $"@type" o = Some (JStr (d_name d)) /\ Meaning context_json (d_name d) iri /\ OwlClass iri)
  /\ forall k, In k (map fst o) -> k = $"@type" \/ k = $"@id" \/ k = $"homepage" \/ k = $"extension" \/ exists iri, Meaning context_json k iri /\ OwlProperty iri.
Proof. exact MeaningFacts.objects_meant. Qed.
Print Assumptions C70_objects.
(** This also holds for documents that are converted from SPDX 2. *)
Theorem C70_converted :
  forall (d : document) (st : bstate) (doc : nat) (js : list json) (j : json) (o : list (pystr * json)),
  bump_spdx_document d = Ok (st, doc) -> convert_payload_to_json_ld st = Ok js -> In j js -> ObjectIn o j ->
  (exists d iri, In d classes3 /\ assoc $"@type" o = Some (JStr (d_name d)) /\ Meaning context_json (d_name d) iri /\ OwlClass iri)
  /\ forall k, In k (map fst o) -> k = $"@type" \/ k = $"@id" \/ k = $"homepage" \/ k = $"extension" \/ exists iri, Meaning context_json k iri /\ OwlProperty iri.
Proof. exact MeaningFacts.converted_meant. Qed.
Print Assumptions C70_converted.
(** Different fields and classes mean different things, and every term, and every word, means one thing at most. *)
Theorem C70_terms_differ :
  forall (t t' iri : pystr), In t (map snd field_keys ++ map d_name classes3) -> In t' (map snd field_keys ++ map d_name classes3) ->
  Meaning context_json t iri -> Meaning context_json t' iri -> t = t'.
Proof. exact MeaningFacts.keys_differ. Qed.
Print Assumptions C70_terms_differ.
Theorem C70_one_meaning :
  forall context : list (pystr * json),
  (forall t i i', Meaning context t i -> Meaning context t i' -> i = i') /\ (forall k w i i', WordMeaning context k w i -> WordMeaning context k w i' -> i = i').
Proof. intro context. exact (conj (MeaningFacts.meaning_one context) (MeaningFacts.word_meaning_one context)). Qed.
Print Assumptions C70_one_meaning.
(** A member of an enumeration is written as a word with a meaning, which is an individual of the ontology unless the word is one of the unknown ones. *)
Theorem C70_words :
  forall (d : decl) (i : instance) (j : json) (f : pystr) (v : pyval) (e : pystr) (words : list (pystr * pystr)) (n k : pystr),
  Sound (VObj (d_name d) i) -> In d classes3 -> convert_to_json_ld (object_of (VObj (d_name d) i)) = Ok j ->
  In (f, v) i -> Holds v e n -> In (e, words) enumeration_words -> In (f, e) enumerated_fields -> In (f, k) field_keys ->
  exists kvs x w iri, j = JObj kvs /\ assoc k kvs = Some x /\ Word x w /\ In (n, w) words /\ WordMeaning context_json k w iri
                      /\ (OwlIndividual iri <-> ~ UnknownWord f w).
Proof. exact MeaningFacts.word_written. Qed.
Print Assumptions C70_words.
(** Different members have different meanings. *)
Theorem C70_words_differ :
  forall (f e k : pystr) (words : list (pystr * pystr)) (n m w w' iri : pystr),
  In (f, e) enumerated_fields -> In (f, k) field_keys -> In (e, words) enumeration_words -> In (n, w) words -> In (m, w') words ->
  WordMeaning context_json k w iri -> WordMeaning context_json k w' iri -> n = m.
Proof. exact MeaningFacts.words_differ. Qed.
Print Assumptions C70_words_differ.
(** These are all fields for members of enumerations, apart from three: their words are not expanded. *)
Theorem C70_enumerations :
  forall (d : decl) (f : pystr) (h : hint3) (e : pystr) (words : list (pystr * pystr)),
  In d classes3 -> Field classes3 d f h -> In (e, words) enumeration_words -> Mentions e h -> In (f, e) (enumerated_fields ++ literal_fields).
Proof. exact MeaningFacts.enumerated_all. Qed.
Print Assumptions C70_enumerations.
Theorem C70_literals : forall f e k w iri : pystr, In (f, e) literal_fields -> In (f, k) field_keys -> ~ WordMeaning context_json k w iri.
Proof. exact MeaningFacts.literal_words. Qed.
Print Assumptions C70_literals.
(** Texts are references to other elements in nine fields; created_using, which has the ids of tools, is not among them. *)
Theorem C70_references : forall f k : pystr, In (f, k) field_keys -> (Reference context_json k <-> In f reference_fields).
Proof. exact MeaningFacts.references. Qed.
Print Assumptions C70_references.

(** ** Cases *)
(** The homepage of every package is written under a key without meaning: it is lost for who reads the file as JSON-LD. *)
Theorem C70_homepage_refuted :
  (forall iri, ~ Meaning context_json $"homepage" iri)
  /\ (forall d i j s, In d classes3 -> Sound (VObj (d_name d) i) -> convert_to_json_ld (object_of (VObj (d_name d) i)) = Ok j -> s <> [] ->
      In ($"homepage", VStr s) i -> exists kvs, j = JObj kvs /\ assoc $"homepage" kvs = Some (JStr s))
  /\ exists d i j s, In d classes3 /\ Sound (VObj (d_name d) i) /\ convert_to_json_ld (object_of (VObj (d_name d) i)) = Ok j /\ s <> [] /\ In ($"homepage", VStr s) i.
Proof. exact MeaningFacts.homepage_case. Qed.
Print Assumptions C70_homepage_refuted.
(** The scope build of a relationship, and the type build of an SBOM, mean the namespace of the build profile. *)
Theorem C70_build_refuted :
  WordMeaning context_json $"scope" $"build" $"https://spdx.org/rdf/Build/" /\ WordMeaning context_json $"sbomType" $"build" $"https://spdx.org/rdf/Build/"
  /\ ~ OwlIndividual $"https://spdx.org/rdf/Build/"
  /\ OwlIndividual $"https://spdx.org/rdf/Core/LifecycleScopeType/build" /\ OwlIndividual $"https://spdx.org/rdf/Software/SBOMType/build".
Proof. exact MeaningFacts.build_case. Qed.
Print Assumptions C70_build_refuted.
(** The ontology has SHA3-256, but what is written means something else. *)
Theorem C70_sha3_refuted :
  WordMeaning context_json $"algorithm" $"sha3256" $"https://spdx.org/rdf/Core/HashAlgorithm/sha3256"
  /\ ~ OwlIndividual $"https://spdx.org/rdf/Core/HashAlgorithm/sha3256" /\ OwlIndividual $"https://spdx.org/rdf/Core/HashAlgorithm/sha3_256".
Proof. exact MeaningFacts.sha3_case. Qed.
Print Assumptions C70_sha3_refuted.
(** For an SBOM with its types, the hypotheses of C70_words are met, and the words mean individuals. *)
Example C70_sbom :
  Sound MeaningFacts.sbom_sample /\ is_ok (convert_to_json_ld (object_of MeaningFacts.sbom_sample)) = true
  /\ (exists i v, MeaningFacts.sbom_sample = VObj $"Sbom" i /\ In ($"sbom_type", v) i /\ Holds v $"SBOMType" $"DEPLOYED")
  /\ WordMeaning context_json $"sbomType" $"deployed" $"https://spdx.org/rdf/Software/SBOMType/deployed" /\ OwlIndividual $"https://spdx.org/rdf/Software/SBOMType/deployed".
Proof. exact MeaningFacts.sbom_case. Qed.
