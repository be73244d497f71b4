(** Specification of C69: what a node of an ontology says about the terms of a JSON-LD context, and which definition of a term wins. *)
From Verif Require Import Py Json.

(** the name of a term: what follows the last colon of the identifier *)
Definition Named (t id : pystr) : Prop := ~ In (ch ":") t /\ (id = t \/ exists p, id = p ++ $":" ++ t).

(** the properties with a range that is an enumeration *)
Definition enumerated : list pystr :=
  [$"safetyRiskAssessment"; $"sensitivePersonalInformation"; $"annotationType"; $"externalIdentifierType"; $"externalReferenceType"; $"algorithm";
   $"scope"; $"profile"; $"completeness"; $"relationshipType"; $"confidentialityLevel"; $"datasetAvailability"; $"decisionType";
   $"justificationType"; $"catalogType"; $"conditionality"; $"sbomType"; $"softwareLinkage"; $"purpose"].
(** the words for profiles, which are also names of prefixes *)
Definition profiles : list pystr :=
  [$"core"; $"software"; $"licensing"; $"security"; $"build"; $"ai"; $"dataset"; $"usage"; $"extension"].

(** a property: its kind, term, identifier and range *)
Inductive PropertyNode (n : json) (kind t id : pystr) (range : json) : Prop :=
| pn kvs r : n = JObj kvs -> assoc $"@type" kvs = Some (JStr kind) -> kind = $"owl:DatatypeProperty" \/ kind = $"owl:ObjectProperty" ->
    assoc $"@id" kvs = Some (JStr id) -> Named t id -> assoc $"rdfs:range" kvs = Some (JObj r) -> assoc $"@id" r = Some range ->
    PropertyNode n kind t id range.
(** the definition of the term for a property *)
Inductive Describes (kind t id : pystr) (range : json) : json -> Prop :=
| ds_profile : t = $"profile" ->
    Describes kind t id range
      (JObj [($"@id", JStr id); ($"@type", JStr $"@vocab");
             ($"@context", JObj (map (fun p => (p, JStr ($"https://spdx.org/rdf/Core/ProfileIdentifierType/" ++ p))) profiles))])
| ds_enumerated r : In t enumerated -> t <> $"profile" -> range = JStr r ->
    Describes kind t id range (JObj [($"@id", JStr id); ($"@type", JStr $"@vocab"); ($"@context", JObj [($"@vocab", JStr (r ++ $"/"))])])
| ds_reference : ~ In t enumerated -> kind = $"owl:ObjectProperty" -> range = JStr $"core:Element" \/ range = JStr $"core:Agent" ->
    Describes kind t id range (JObj [($"@id", JStr id); ($"@type", JStr $"@id")])
| ds_other : ~ In t enumerated -> ~ (kind = $"owl:ObjectProperty" /\ (range = JStr $"core:Element" \/ range = JStr $"core:Agent")) ->
    Describes kind t id range (JObj [($"@id", JStr id); ($"@type", range)]).
(** a class: a node of the type owl:Class, or of several types without owl:NamedIndividual *)
Inductive ClassNode (n : json) (t id : pystr) : Prop :=
| cn kvs ty : n = JObj kvs -> assoc $"@type" kvs = Some ty ->
    ty = JStr $"owl:Class" \/ (exists l, ty = JArr l /\ l <> [] /\ ~ In (JStr $"owl:NamedIndividual") l) ->
    assoc $"@id" kvs = Some (JStr id) -> Named t id -> ClassNode n t id.
(** a node of a type that is neither of these, nor owl:NamedIndividual: it is reported *)
Inductive Reported (n ty : json) : Prop :=
| rp_text kvs s : n = JObj kvs -> assoc $"@type" kvs = Some ty -> ty = JStr s -> s <> [] ->
    ~ In s [$"owl:DatatypeProperty"; $"owl:ObjectProperty"; $"owl:Class"] -> ~ (exists a b, s = a ++ $"owl:NamedIndividual" ++ b) -> Reported n ty
| rp_object kvs l : n = JObj kvs -> assoc $"@type" kvs = Some ty -> ty = JObj l -> l <> [] -> ~ In $"owl:NamedIndividual" (map fst l) -> Reported n ty.
(** a node without a type, with an empty one, or an individual *)
Definition Ignored (n : json) : Prop :=
  exists kvs, n = JObj kvs /\
    match assoc $"@type" kvs with
    | None | Some JNull | Some (JBool false) | Some (JInt 0) | Some (JStr []) | Some (JArr []) | Some (JObj []) => True
    | Some (JFloat r) => r = $"0.0" \/ r = $"-0.0"
    | Some (JStr s) => exists a b, s = a ++ $"owl:NamedIndividual" ++ b
    | Some (JArr l) => In (JStr $"owl:NamedIndividual") l
    | Some (JObj l) => In $"owl:NamedIndividual" (map fst l)
    | _ => False
    end.

(** the node offers a definition of the term *)
Definition Offers (t : pystr) (n d : json) : Prop :=
  (exists kind id range, PropertyNode n kind t id range /\ Describes kind t id range d) \/ (exists id, ClassNode n t id /\ d = JStr id).
(** what the nodes contribute, in their order *)
Inductive Collected (R : json -> json -> Prop) : list json -> list json -> Prop :=
| cl_nil : Collected R [] []
| cl_take n ns d ds : R n d -> Collected R ns ds -> Collected R (n :: ns) (d :: ds)
| cl_skip n ns ds : (forall d, ~ R n d) -> Collected R ns ds -> Collected R (n :: ns) ds.
(** the definitions of a term: that of the given context, if any, then those that the nodes offer *)
Definition Candidates (context : list (pystr * json)) (nodes : list json) (t : pystr) (cs : list json) : Prop :=
  exists ds, Collected (Offers t) nodes ds /\ cs = match assoc t context with Some d => d :: ds | None => ds end.

(** a definition with an identifier; a definition of the core profile; the definition of a class *)
Definition Identified (d : json) (id : pystr) : Prop := exists kvs, d = JObj kvs /\ assoc $"@id" kvs = Some (JStr id).
Definition Core (d : json) : Prop := exists rest, Identified d ($"core" ++ rest).
Definition Plain (d : json) : Prop := exists id, d = JStr id.
(** The winner: the last definition of a class; among properties the first one of the core profile, and the last one if there is none. *)
Inductive Wins : list json -> json -> Prop :=
| w_only d : Wins [d] d
| w_class l id : Wins (l ++ [JStr id]) (JStr id)
| w_core l d m : Core d -> Forall (fun e => ~ Core e /\ ~ Plain e) l -> Forall (fun e => ~ Plain e) m -> Wins (l ++ d :: m) d
| w_last l d : Forall (fun e => ~ Core e /\ ~ Plain e) (l ++ [d]) -> Wins (l ++ [d]) d.

(** the node can be used after those before it *)
Inductive Usable (context : list (pystr * json)) (before : list json) (n : json) : Prop :=
| us_ignored : Ignored n -> Usable context before n
| us_reported ty : Reported n ty -> Usable context before n
| us_class t id : ClassNode n t id -> Usable context before n
| us_new kind t id range d : PropertyNode n kind t id range -> Describes kind t id range d -> Candidates context before t [] -> Usable context before n
| us_known kind t id range cs w i : PropertyNode n kind t id range -> Candidates context before t cs -> Wins cs w -> Identified w i ->
    Core w \/ (exists d, Describes kind t id range d) -> Usable context before n.

(** an ontology: a context and a graph of nodes *)
Definition Ontology (owl : json) (context : list (pystr * json)) (nodes : list json) : Prop :=
  exists kvs, owl = JObj kvs /\ assoc $"@context" kvs = Some (JObj context) /\ assoc $"@graph" kvs = Some (JArr nodes).
