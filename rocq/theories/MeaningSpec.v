(** Specification of C70: what the keys, classes and words of a JSON-LD file mean with its context (JSON-LD 1.1, expansion of IRIs). *)
From Verif Require Import Py Data Json Typing Typing3 Typing3Spec Jsonld3Spec OwlSpec OwlData.

Section Context.
Context (context : list (pystr * json)).
(** the IRI for an identifier of the context: prefix:rest, or an absolute IRI *)
Inductive Expands : pystr -> pystr -> Prop :=
| ex_compact p rest base : ~ In (ch ":") p -> startswith $"//" rest = false -> assoc p context = Some (JStr base) -> Expands (p ++ $":" ++ rest) (base ++ rest)
| ex_absolute p rest : ~ In (ch ":") p -> Expands (p ++ $"://" ++ rest) (p ++ $"://" ++ rest).
(** the IRI for a term: the key of a field, or the name of a class *)
Definition Meaning (t iri : pystr) : Prop := exists d id, assoc t context = Some d /\ (d = JStr id \/ Identified d id) /\ Expands id iri.
(** The IRI for a word in the field with this key: terms of the context of the field come first, then those of the whole context, then the
    vocabulary of the field.  There is none if the words of the field are not expanded. *)
Inductive WordMeaning (k w : pystr) : pystr -> Prop :=
| wm_own kvs own iri : assoc k context = Some (JObj kvs) -> assoc $"@type" kvs = Some (JStr $"@vocab") -> assoc $"@context" kvs = Some (JObj own) ->
    assoc w own = Some (JStr iri) -> WordMeaning k w iri
| wm_term kvs own iri : assoc k context = Some (JObj kvs) -> assoc $"@type" kvs = Some (JStr $"@vocab") -> assoc $"@context" kvs = Some (JObj own) ->
    assoc w own = None -> Meaning w iri -> WordMeaning k w iri
| wm_vocabulary kvs own v base : assoc k context = Some (JObj kvs) -> assoc $"@type" kvs = Some (JStr $"@vocab") -> assoc $"@context" kvs = Some (JObj own) ->
    assoc w own = None -> assoc w context = None -> assoc $"@vocab" own = Some (JStr v) -> Expands v base -> WordMeaning k w (base ++ w).
(** texts in the field are references to other elements *)
Definition Reference (k : pystr) : Prop := exists kvs, assoc k context = Some (JObj kvs) /\ assoc $"@type" kvs = Some (JStr $"@id").
End Context.

(** what the ontology has: properties, classes, individuals *)
Definition prefixes : list (pystr * json) := match owl_prefixes with JObj l => l | _ => [] end.
Definition OwlProperty (iri : pystr) : Prop :=
  exists n kind t id range, In n owl_graph /\ PropertyNode n kind t id range /\ Expands prefixes id iri.
Definition OwlClass (iri : pystr) : Prop := exists n t id, In n owl_graph /\ ClassNode n t id /\ Expands prefixes id iri.
Definition OwlIndividual (iri : pystr) : Prop :=
  exists kvs l, In (JObj kvs) owl_graph /\ assoc $"@id" kvs = Some (JStr iri) /\ assoc $"@type" kvs = Some (JArr l) /\ In (JStr $"owl:NamedIndividual") l.

(** an object somewhere in a JSON value *)
Inductive ObjectIn (o : list (pystr * json)) : json -> Prop :=
| oi_same : ObjectIn o (JObj o)
| oi_item l j : In j l -> ObjectIn o j -> ObjectIn o (JArr l)
| oi_member kvs k j : In (k, j) kvs -> ObjectIn o j -> ObjectIn o (JObj kvs).

(** the fields of the classes of spdx3/model for members of enumerations: those with words that are expanded, ... *)
Definition enumerated_fields : list (pystr * pystr) :=
  [($"safety_risk_assessment", $"SafetyRiskAssessmentType"); ($"annotation_type", $"AnnotationType"); ($"profile", $"ProfileIdentifierType");
   ($"confidentiality_level", $"ConfidentialityLevelType"); ($"dataset_availability", $"DatasetAvailabilityType");
   ($"external_identifier_type", $"ExternalIdentifierType"); ($"external_reference_type", $"ExternalReferenceType"); ($"algorithm", $"HashAlgorithm");
   ($"relationship_type", $"RelationshipType"); ($"completeness", $"RelationshipCompleteness"); ($"scope", $"LifecycleScopeType");
   ($"catalog_type", $"ExploitCatalogType"); ($"decision_type", $"SsvcDecisionType"); ($"justification_type", $"VexJustificationType");
   ($"sbom_type", $"SBOMType"); ($"software_linkage", $"SoftwareDependencyLinkType"); ($"conditionality", $"DependencyConditionalityType")].
(** ... and those with words that stay texts *)
Definition literal_fields : list (pystr * pystr) :=
  [($"primary_purpose", $"SoftwarePurpose"); ($"additional_purpose", $"SoftwarePurpose"); ($"dataset_type", $"DatasetType")].
(** the words that are not individuals of the ontology: it has others for them, or none; build is the prefix of a profile *)
Definition unknown_words : list (pystr * list pystr) :=
  [($"confidentiality_level", [$"red"; $"amber"; $"green"; $"clear"]);
   ($"dataset_availability", [$"directDownload"; $"scrapingScript"; $"query"; $"clickthrough"; $"registration"]);
   ($"external_identifier_type", [$"purl"]);
   ($"external_reference_type",
    [$"certificationReport"; $"componentAnalysisReport"; $"dynamicAnalysisReport"; $"eolNotice"; $"productMetadata"; $"qualityAssessmentReport";
     $"riskAssessment"; $"runtimeAnalysisReport"; $"secureSoftwareAttestation"; $"securityAdversaryModel"; $"securityPenTestReport"; $"securityPolicy";
     $"securityThreatModel"; $"staticAnalysisReport"; $"vulnerabilityDisclosureReport"; $"vulnerabilityExploitabilityAssessment"]);
   ($"algorithm", [$"blake2B256"; $"blake2B384"; $"blake2B512"; $"sha3224"; $"sha3256"; $"sha3384"; $"sha3512"; $"spdxpvcsha1"; $"spdxpvcsha256"]);
   ($"relationship_type",
    [$"configOf"; $"evidenceFor"; $"hostOf"; $"inputOf"; $"invokedBy"; $"onBehalfOf"; $"outputOf"; $"testedOn"; $"trainedOn"]);
   ($"completeness", [$"noassertion"]);
   ($"scope", [$"build"]);
   ($"sbom_type", [$"build"])].
Definition UnknownWord (f w : pystr) : Prop := exists l, In (f, l) unknown_words /\ In w l.
(** the fields for references *)
Definition reference_fields : list pystr :=
  [$"created_by"; $"element"; $"from_element"; $"originated_by"; $"root_element"; $"subject"; $"supplied_by"; $"to"; $"assessed_element"].
(** the hint mentions the class *)
Fixpoint Mentions (e : pystr) (h : hint3) : Prop :=
  match h with
  | TIs c => c = e
  | TOr a b | TDict a b => Mentions e a \/ Mentions e b
  | TList a => Mentions e a
  | _ => False
  end.
(** the value of a field: the member itself, or a list with it; its word likewise *)
Definition Holds (v : pyval) (e n : pystr) : Prop := v = member e n \/ exists l, v = VList l /\ In (member e n) l.
Definition Word (j : json) (w : pystr) : Prop := j = JStr w \/ exists l, j = JArr l /\ In (JStr w) l.
