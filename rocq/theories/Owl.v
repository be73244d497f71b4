(** The generator of the JSON-LD context: spdx3/writer/json_ld/owl_to_context.py. *)
From Verif Require Import Py Json.

(** owl_to_context.py:19-39 *)
Definition PROPERTIES_WITH_ENUM_RANGE : list pystr :=
  [$"safetyRiskAssessment"; $"sensitivePersonalInformation"; $"annotationType"; $"externalIdentifierType"; $"externalReferenceType"; $"algorithm";
   $"scope"; $"profile"; $"completeness"; $"relationshipType"; $"confidentialityLevel"; $"datasetAvailability"; $"decisionType";
   $"justificationType"; $"catalogType"; $"conditionality"; $"sbomType"; $"softwareLinkage"; $"purpose"].
(** owl_to_context.py:41-44 *)
Definition REFERENCE_PROPERTY_TYPES : list pystr := [$"core:Element"; $"core:Agent"].

(** owl_to_context.py:80-90  the nested context of the term profile *)
Definition profile_context : json :=
  JObj [($"core", JStr $"https://spdx.org/rdf/Core/ProfileIdentifierType/core");
        ($"software", JStr $"https://spdx.org/rdf/Core/ProfileIdentifierType/software");
        ($"licensing", JStr $"https://spdx.org/rdf/Core/ProfileIdentifierType/licensing");
        ($"security", JStr $"https://spdx.org/rdf/Core/ProfileIdentifierType/security");
        ($"build", JStr $"https://spdx.org/rdf/Core/ProfileIdentifierType/build");
        ($"ai", JStr $"https://spdx.org/rdf/Core/ProfileIdentifierType/ai");
        ($"dataset", JStr $"https://spdx.org/rdf/Core/ProfileIdentifierType/dataset");
        ($"usage", JStr $"https://spdx.org/rdf/Core/ProfileIdentifierType/usage");
        ($"extension", JStr $"https://spdx.org/rdf/Core/ProfileIdentifierType/extension")].

(** owl_to_context.py:63, 103, 107  [node["@id"].split(":")[-1]] *)
Definition term_name (node : json) : result pystr :=
  do i <- jitem $"@id" node;
  match i with
  | JStr s => Ok (last (split_on (ch ":") s) [])
  | _ => Raise (EAttr (jtype i ++ $" object has no attribute split"))
  end.
(** [context_dict[name] = value] *)
Definition set_term (name : pystr) (v : json) (context : json) : result json :=
  match context with
  | JObj kvs => Ok (JObj (dict_set name v kvs))
  | _ => Raise (EType (jtype context ++ $" object does not support item assignment"))
  end.
(** owl_to_context.py:66  the term is defined already, with an identifier that starts with core *)
Definition core_defined (name : pystr) (context : json) : result bool :=
  do b <- jin name context;
  if b then
    do d <- jitem name context;
    do i <- jitem $"@id" d;
    match i with JStr s => Ok (startswith $"core" s) | _ => Raise (EAttr (jtype i ++ $" object has no attribute startswith")) end
  else Ok false.
(** [value == text] and [value in texts] *)
Definition is_one_of (j : json) (texts : list pystr) : bool := match j with JStr s => str_in s texts | _ => false end.

(** owl_to_context.py:70-100  the definition of a property *)
Definition property_definition (node_type node type_id : json) (name : pystr) : result json :=
  if str_in name PROPERTIES_WITH_ENUM_RANGE then
    if str_eqb name $"profile" then
      do i <- jitem $"@id" node;
      Ok (JObj [($"@id", i); ($"@type", JStr $"@vocab"); ($"@context", profile_context)])
    else
      do i <- jitem $"@id" node;
      match type_id with
      | JStr t => Ok (JObj [($"@id", i); ($"@type", JStr $"@vocab"); ($"@context", JObj [($"@vocab", JStr (t ++ $"/"))])])
      | _ => Raise (EType ($"unsupported operand for +: " ++ jtype type_id))
      end
  else if is_one_of node_type [$"owl:ObjectProperty"] && is_one_of type_id REFERENCE_PROPERTY_TYPES then
    do i <- jitem $"@id" node;
    Ok (JObj [($"@id", i); ($"@type", JStr $"@id")])
  else
    do i <- jitem $"@id" node;
    Ok (JObj [($"@id", i); ($"@type", type_id)]).

(** owl_to_context.py:53-110  one node; the second component are the types reported as unknown, last first.
    Their text (the str of the value) is not modelled. *)
Definition owl_node (node : json) (acc : json * list json) : result (json * list json) :=
  let '(context, unknown) := acc in
  do node_type <- jget $"@type" node;
  if negb (jtruthy node_type) then Ok acc else
  do individual <- jin $"owl:NamedIndividual" node_type;
  if individual then Ok acc else
  if is_one_of node_type [$"owl:DatatypeProperty"; $"owl:ObjectProperty"] then
    do name <- term_name node;
    do range <- jitem $"rdfs:range" node;
    do type_id <- jitem $"@id" range;
    do core <- core_defined name context;
    if core then Ok acc else
    do d <- property_definition node_type node type_id name;
    do context' <- set_term name d context;
    Ok (context', unknown)
  else if is_one_of node_type [$"owl:Class"] then
    do name <- term_name node;
    do i <- jitem $"@id" node;
    do context' <- set_term name i context;
    Ok (context', unknown)
  else match node_type with
       | JArr _ =>
           do name <- term_name node;
           do i <- jitem $"@id" node;
           do context' <- set_term name i context;
           Ok (context', unknown)
       | _ => Ok (context, node_type :: unknown)
       end.
(** owl_to_context.py:53  the loop *)
Fixpoint owl_nodes (nodes : list json) (acc : json * list json) : result (json * list json) :=
  match nodes with
  | [] => Ok acc
  | n :: nodes' => do acc' <- owl_node n acc; owl_nodes nodes' acc'
  end.
(** owl_to_context.py:47-115  the new content of context.json and what is reported, for the loaded ontology *)
Definition convert_spdx_owl_to_jsonld_context (owl : json) : result (json * list json) :=
  do context <- jitem $"@context" owl;
  do graph <- jitem $"@graph" owl;
  do nodes <- jiter graph;
  do r <- owl_nodes nodes (context, []);
  Ok (fst r, rev (snd r)).
(** owl_to_context.py:112-115  the resource context.json is opened for writing only after the loop *)
Definition context_file_after (owl : result json) (before : json) : json :=
  match bind owl convert_spdx_owl_to_jsonld_context with Ok r => fst r | Raise _ => before end.
