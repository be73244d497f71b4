(** Property theorems: the JSON-LD context generated from an ontology (C69). *)
From Verif Require Import Py Json Owl OwlSpec OwlData.
From Verif Require OwlFacts.

(** ** C69 *)
(** A term of the generated context has the definition that wins among those of the given context and of the nodes. *)
Theorem C69_definitions :
  forall (owl : json) (context : list (pystr * json)) (nodes : list json) (r : json * list json),
  Ontology owl context nodes -> convert_spdx_owl_to_jsonld_context owl = Ok r ->
  exists kvs, fst r = JObj kvs /\ forall t d, assoc t kvs = Some d <-> exists cs, Candidates context nodes t cs /\ Wins cs d.
Proof. exact OwlFacts.definitions. Qed.
Print Assumptions C69_definitions.
(** There is one such definition at most. *)
Theorem C69_one_winner : forall (cs : list json) (d d' : json), Wins cs d -> Wins cs d' -> d = d'.
Proof. exact OwlFacts.wins_one. Qed.
Print Assumptions C69_one_winner.
(** No term of the given context is lost, the new ones come after them, and they are those that the nodes offer. *)
Theorem C69_terms :
  forall (owl : json) (context : list (pystr * json)) (nodes : list json) (r : json * list json),
  Ontology owl context nodes -> NoDup (map fst context) -> convert_spdx_owl_to_jsonld_context owl = Ok r ->
  exists kvs new, fst r = JObj kvs /\ map fst kvs = map fst context ++ new /\ NoDup (map fst kvs)
    /\ forall t, In t new <-> ~ In t (map fst context) /\ exists n d, In n nodes /\ Offers t n d.
Proof. exact OwlFacts.terms. Qed.
Print Assumptions C69_terms.
(** Types that are not known are reported, in the order of the nodes. *)
Theorem C69_reported :
  forall (owl : json) (context : list (pystr * json)) (nodes : list json) (r : json * list json),
  Ontology owl context nodes -> convert_spdx_owl_to_jsonld_context owl = Ok r -> Collected Reported nodes (snd r).
Proof. exact OwlFacts.reported. Qed.
Print Assumptions C69_reported.
(** The generator succeeds if every node can be used after those before it, and fails otherwise; then the file stays as it was. *)
Theorem C69_succeeds :
  forall (owl : json) (context : list (pystr * json)) (nodes : list json), Ontology owl context nodes ->
  ((exists r, convert_spdx_owl_to_jsonld_context owl = Ok r) <-> forall before n after, nodes = before ++ n :: after -> Usable context before n).
Proof. exact OwlFacts.succeeds. Qed.
Print Assumptions C69_succeeds.
Theorem C69_file :
  forall (owl : json) (context : list (pystr * json)) (nodes : list json) (file : json), Ontology owl context nodes ->
  (exists before n after, nodes = before ++ n :: after /\ ~ Usable context before n) -> context_file_after (Ok owl) file = file.
Proof.
  intros owl context nodes file T (a & n & b & E & U). unfold context_file_after. cbn [bind].
  destruct (convert_spdx_owl_to_jsonld_context owl) as [r|e] eqn:C; [|reflexivity]. exfalso. apply U.
  exact (proj1 (OwlFacts.succeeds _ _ _ T) (ex_intro _ r C) a n b E).
Qed.
Print Assumptions C69_file.
(** The context of the repository is what the generator makes of the ontology of the repository. *)
Theorem C69_shipped : convert_spdx_owl_to_jsonld_context spdx_owl = Ok (JObj context_json, []).
Proof. vm_compute. reflexivity. Qed.
Print Assumptions C69_shipped.

(** ** Cases *)
Example C69_sample : exists context nodes, Ontology spdx_owl context nodes /\ List.length nodes = 434 /\ exists r, convert_spdx_owl_to_jsonld_context spdx_owl = Ok r.
Proof.
  exists (match owl_prefixes with JObj l => l | _ => [] end), owl_graph. split; [|split; [vm_compute; reflexivity|eexists; exact C69_shipped]].
  exists [($"@context", owl_prefixes); ($"@graph", JArr owl_graph)]. split; [reflexivity|split; reflexivity].
Qed.
(** contentType is a property of two profiles, and that of the core profile wins, although it comes later. *)
Definition content_type (profile range : pystr) : json := JObj [($"@id", JStr (profile ++ $":contentType")); ($"@type", JStr range)].
Example C69_content_type :
  OwlFacts.candidates (match owl_prefixes with JObj l => l | _ => [] end) owl_graph $"contentType"
    = [content_type $"software" $"core:MediaType"; content_type $"core" $"core:MediaType"]
  /\ Wins [content_type $"software" $"core:MediaType"; content_type $"core" $"core:MediaType"] (content_type $"core" $"core:MediaType").
Proof.
  split; [vm_compute; reflexivity|]. apply (w_core [_] _ []); [| |constructor].
  - exists $":contentType". eexists. split; reflexivity.
  - constructor; [|constructor]. split; [|intros [i H]; discriminate]. intros (rest & kvs & H & A).
    assert (E : kvs = match content_type $"software" $"core:MediaType" with JObj l => l | _ => [] end) by (rewrite H; reflexivity).
    rewrite E in A. vm_compute in A. discriminate.
Qed.
(** The nodes of an ontology are a set, but their order matters: a property that has the name of a class has to come before it. *)
Theorem C69_order_refuted :
  exists context n m, is_ok (convert_spdx_owl_to_jsonld_context (JObj [($"@context", JObj context); ($"@graph", JArr [n; m])])) = true
    /\ is_ok (convert_spdx_owl_to_jsonld_context (JObj [($"@context", JObj context); ($"@graph", JArr [m; n])])) = false.
Proof.
  exists [], (property $"owl:DatatypeProperty" $"core:thing" $"xsd:string"), (class $"software:thing"). split; vm_compute; reflexivity.
Qed.
Print Assumptions C69_order_refuted.
(** Among properties of other profiles the last one wins: here the terms of the two orders differ. *)
Theorem C69_last_refuted :
  exists n m a b, convert_spdx_owl_to_jsonld_context (JObj [($"@context", JObj []); ($"@graph", JArr [n; m])]) = Ok (a, [])
    /\ convert_spdx_owl_to_jsonld_context (JObj [($"@context", JObj []); ($"@graph", JArr [m; n])]) = Ok (b, []) /\ a <> b.
Proof.
  exists (property $"owl:DatatypeProperty" $"ai:sensitivePersonalInformation" $"ai:PresenceType"),
         (property $"owl:DatatypeProperty" $"dataset:sensitivePersonalInformation" $"dataset:PresenceType"),
         (JObj [($"sensitivePersonalInformation", JObj [($"@id", JStr $"dataset:sensitivePersonalInformation"); ($"@type", JStr $"@vocab");
                                                        ($"@context", JObj [($"@vocab", JStr $"dataset:PresenceType/")])])]),
         (JObj [($"sensitivePersonalInformation", JObj [($"@id", JStr $"ai:sensitivePersonalInformation"); ($"@type", JStr $"@vocab");
                                                        ($"@context", JObj [($"@vocab", JStr $"ai:PresenceType/")])])]).
  split; [vm_compute; reflexivity|]. split; [vm_compute; reflexivity|]. discriminate.
Qed.
Print Assumptions C69_last_refuted.
