(** SPDX 3 payloads as JSON-LD: spdx3/writer/json_ld/json_ld_converter.py and the attributes of the objects of
    spdx3/model that it reads.  Writing the file is in Cli3.v. *)
From Verif Require Import Py Data Oracles Basics Json DocUtils Payload Bump.

(** The Python values that the converter meets.  There are no tuples among them: no attribute of the classes of spdx3/model has
    such a type.  Numbers with a fraction and dictionaries do not occur among the attributes of the objects that the conversion from SPDX 2
    makes.  An object is given by the name of its class and by vars(object). *)
Inductive pyobj :=
| XNone
| XStr (s : pystr)
| XInt (z : Z)
| XBool (b : bool)
| XFloat (repr : pystr)              (* a float, by its repr() *)
| XVersion (s : pystr)               (* semantic_version.Version, by its str() *)
| XDate (d : datetime)
| XEnum (name : pystr)
| XList (l : list pyobj)
| XDict (kvs : list (pyobj * pyobj))
| XObj (cls : pystr) (attrs : list (pystr * pyobj)).

(** bool(value); the classes define neither __bool__ nor __len__ *)
Definition xtruthy (v : pyobj) : bool :=
  match v with
  | XNone => false
  | XStr s => truthy_list s
  | XInt z => negb (Z.eqb z 0)
  | XBool b => b
  | XFloat r => negb (str_in r [$"0.0"; $"-0.0"])
  | XList l => truthy_list l
  | XDict l => truthy_list l
  | XVersion _ | XDate _ | XEnum _ | XObj _ _ => true
  end.

(** json_ld_converter.py:70-75  the key of an attribute *)
Definition json_ld_key (attribute : pystr) : pystr :=
  if str_eqb attribute $"_spdx_id" then $"@id"
  else if str_eqb attribute $"_from_element" then $"from"
  else snake_to_camel attribute.

(** json_ld_converter.py:27-79  _convert_to_json_ld_dict; the flags alt_creation_info and alt_hash are never set *)
Fixpoint convert_to_json_ld (v : pyobj) : result json :=
  if negb (xtruthy v) then Ok JNull
  else
    match v with
    | XNone => Ok JNull
    | XStr s => Ok (JStr s)
    | XInt z => Ok (JInt z)
    | XBool b => Ok (JBool b)
    | XVersion s => Ok (JStr s)
    | XDate d => do s <- datetime_to_iso_string d; Ok (JStr s)
    | XEnum name => Ok (JStr (snake_to_camel name))
    | XList l =>
        do js <- (fix items (l : list pyobj) : result (list json) :=
                    match l with
                    | [] => Ok []
                    | x :: l' =>
                        if xtruthy x then do j <- convert_to_json_ld x; do js <- items l'; Ok (j :: js)
                        else items l'
                    end) l;
        Ok (JArr js)
    | XFloat _ | XDict _ => Raise (EType $"vars() argument must have __dict__ attribute")
    | XObj cls attrs =>
        do kvs <- (fix loop (attrs : list (pystr * pyobj)) (acc : list (pystr * json)) : result (list (pystr * json)) :=
                     match attrs with
                     | [] => Ok acc
                     | (a, x) :: r =>
                         if xtruthy x then do j <- convert_to_json_ld x; loop r (dict_set (json_ld_key a) j acc)
                         else loop r acc
                     end) attrs [($"@type", JStr cls)];
        Ok (JObj kvs)
    end.

(** ** vars(object): the fields of the dataclass in their order, inherited ones first (common/typing/type_checks.py:21-25,
    common/typing/dataclass_with_properties.py:28) *)
Definition xopt {A} (f : A -> pyobj) (o : option A) : pyobj := match o with Some a => f a | None => XNone end.
Definition xtexts (l : list pystr) : pyobj := XList (map XStr l).

(** spdx3/model/integrity_method.py:11-13, hash.py:40-46 *)
Definition hash_object (h : hash3) : pyobj :=
  XObj $"Hash" [($"_comment", XNone); ($"_algorithm", XEnum (h3_alg h)); ($"_hash_value", XStr (h3_value h))].
(** spdx3/model/external_reference.py:54-59 *)
Definition extref_object (r : extref3) : pyobj :=
  XObj $"ExternalReference" [($"_external_reference_type", XEnum (xr_type r)); ($"_locator", xtexts (xr_locator r));
                             ($"_content_type", XNone); ($"_comment", xopt XStr (xr_comment r))].
(** spdx3/model/external_identifier.py:27-33 *)
Definition extid_object (i : extid3) : pyobj :=
  XObj $"ExternalIdentifier" [($"_external_identifier_type", XEnum (xi_type i)); ($"_identifier", XStr (xi_identifier i));
                              ($"_comment", xopt XStr (xi_comment i)); ($"_identifier_locator", XList []);
                              ($"_issuing_authority", XNone)].
(** spdx3/model/namespace_map.py:8-11 *)
Definition nsmap_object (m : nsmap3) : pyobj :=
  XObj $"NamespaceMap" [($"_prefix", XStr (nm_prefix m)); ($"_namespace", XStr (nm_namespace m))].
(** spdx3/model/external_map.py:13-18 *)
Definition extmap_object (m : extmap3) : pyobj :=
  XObj $"ExternalMap" [($"_external_id", XStr (em_id m)); ($"_verified_using", XList (map hash_object (em_verified m)));
                       ($"_location_hint", XNone); ($"_defining_document", xopt XStr (em_defining m))].
(** spdx3/model/creation_info.py:15-23; the constants are those of bump_from_spdx2/creation_info.py:40, 43 *)
Definition cinfo_object (c : cinfo3) : pyobj :=
  XObj $"CreationInfo" [($"_spec_version", XVersion $"3.0.0"); ($"_created", XDate (c3_created c));
                        ($"_created_by", xtexts (c3_created_by c));
                        ($"_profile", XList [XEnum $"CORE"; XEnum $"SOFTWARE"; XEnum $"LICENSING"]);
                        ($"_data_license", XStr (c3_data_license c)); ($"_created_using", xtexts (c3_created_using c));
                        ($"_comment", XNone)].
(** spdx3/model/positive_integer_range.py:8-11 *)
Definition range_object (r : Z * Z) : pyobj :=
  XObj $"PositiveIntegerRange" [($"_begin", XInt (fst r)); ($"_end", XInt (snd r))].

(** spdx3/model/element.py:13-24 *)
Definition element_attrs (id : pystr) (ci name summary description comment : pyobj) (verified : list hash3)
           (refs : list extref3) (ids : list extid3) : list (pystr * pyobj) :=
  [($"_spdx_id", XStr id); ($"_creation_info", ci); ($"_name", name); ($"_summary", summary);
   ($"_description", description); ($"_comment", comment); ($"_verified_using", XList (map hash_object verified));
   ($"_external_reference", XList (map extref_object refs)); ($"_external_identifier", XList (map extid_object ids));
   ($"_extension", XNone)].
(** spdx3/model/artifact.py:13-20 *)
Definition artifact_attrs (originated supplied : list pystr) (built release valid_until : option datetime)
  : list (pystr * pyobj) :=
  [($"_originated_by", xtexts originated); ($"_supplied_by", xtexts supplied); ($"_built_time", xopt XDate built);
   ($"_release_time", xopt XDate release); ($"_valid_until_time", xopt XDate valid_until); ($"_standard", XList [])].
(** spdx3/model/software/software_artifact.py:14-22; the conversion sets no licenses *)
Definition software_attrs (purpose copyright : option pystr) (attribution : pystr) : list (pystr * pyobj) :=
  [($"_content_identifier", XNone); ($"_primary_purpose", xopt XEnum purpose); ($"_additional_purpose", XList []);
   ($"_concluded_license", XNone); ($"_declared_license", XNone); ($"_copyright_text", xopt XStr copyright);
   ($"_attribution_text", XStr attribution)].
(** spdx3/model/relationship.py:86-96 *)
Definition relationship_attrs (r : rel3) : list (pystr * pyobj) :=
  [($"_from_element", XStr (r3_from r)); ($"_to", xtexts (r3_to r)); ($"_relationship_type", XEnum (r3_type r));
   ($"_completeness", xopt XEnum (r3_completeness r)); ($"_start_time", XNone); ($"_end_time", XNone)].

(** the creation_info attribute: the object that it refers to *)
Definition cinfo_at (st : bstate) (a : nat) : pyobj := xopt cinfo_object (nth_error (b_cis st) a).
(** actor.py:14-53: the class of an actor *)
Definition actor_class (t : actor_type) : pystr :=
  match t with AT_PERSON => $"Person" | AT_ORGANIZATION => $"Organization" | AT_TOOL => $"Tool" end.

Definition element_object (st : bstate) (e : element3) : pyobj :=
  match e with
  | E3Actor a =>
      XObj (actor_class (a3_kind a))
           (element_attrs (a3_id a) (match a3_ci a with Some c => cinfo_at st c | None => XNone end) (XStr (a3_name a))
                          XNone XNone XNone [] [] (a3_extids a))
  | E3Package p =>
      XObj $"Package"
           (element_attrs (p3_id p) XNone (XStr (p3_name p)) (xopt XStr (p3_summary p)) (xopt XStr (p3_description p))
                          (xopt XStr (p3_comment p)) (p3_verified p) (p3_extrefs p) (p3_extids p)
            ++ artifact_attrs (p3_originated p) (p3_supplied p) (p3_built p) (p3_release p) (p3_valid_until p)
            ++ software_attrs (p3_purpose p) (p3_copyright p) (p3_attribution p)
            ++ [($"_package_version", xopt XStr (p3_version p)); ($"_download_location", xopt XStr (p3_download p));
                ($"_package_url", xopt XStr (p3_purl p)); ($"_homepage", xopt XStr (p3_homepage p));
                ($"_source_info", xopt XStr (p3_source_info p))])
  | E3File f =>
      XObj $"File"
           (element_attrs (f3_id f) XNone (XStr (f3_name f)) XNone XNone (xopt XStr (f3_comment f)) (f3_verified f) [] []
            ++ artifact_attrs [] [] None None None ++ software_attrs None (f3_copyright f) (f3_attribution f)
            ++ [($"_content_type", XNone)])
  | E3Snippet s =>
      XObj $"Snippet"
           (element_attrs (s3_id s) XNone (xopt XStr (s3_name s)) XNone XNone (xopt XStr (s3_comment s)) [] [] []
            ++ artifact_attrs [] [] None None None ++ software_attrs None (s3_copyright s) (s3_attribution s)
            ++ [($"_byte_range", xopt range_object (s3_bytes s)); ($"_line_range", xopt range_object (s3_lines s))])
  | E3Relationship r =>
      if r3_dependency r then
        XObj $"SoftwareDependencyRelationship"
             (element_attrs (r3_id r) XNone XNone XNone XNone (xopt XStr (r3_comment r)) [] [] []
              ++ relationship_attrs r
              ++ [($"_scope", xopt XEnum (r3_scope r)); ($"_software_linkage", xopt XEnum (r3_linkage r));
                  ($"_conditionality", xopt XEnum (r3_conditionality r))])
      else
        XObj $"Relationship"
             (element_attrs (r3_id r) XNone XNone XNone XNone (xopt XStr (r3_comment r)) [] [] [] ++ relationship_attrs r)
  | E3Annotation a =>
      XObj $"Annotation"
           (element_attrs (n3_id a) (cinfo_at st (n3_ci a)) XNone XNone XNone XNone [] [] []
            ++ [($"_annotation_type", XEnum (n3_type a)); ($"_subject", XStr (n3_subject a)); ($"_content_type", XList []);
                ($"_statement", XStr (n3_statement a))])
  | E3Document d =>
      XObj $"SpdxDocument"
           (element_attrs (d3_id d) (cinfo_at st (d3_ci d)) (XStr (d3_name d)) XNone XNone (xopt XStr (d3_comment d)) [] [] []
            ++ [($"_element", xtexts (d3_element d)); ($"_root_element", xtexts (d3_root d));
                ($"_namespaces", XList (map nsmap_object (d3_namespaces d)));
                ($"_imports", XList (map extmap_object (d3_imports d))); ($"_context", XNone)])
  end.

(** payload.get_full_map().values(), payload.py:21-22 *)
Definition payload_elements (st : bstate) : list element3 :=
  flat_map (fun p => match nth_error (b_objs st) (snd p) with Some e => [e] | None => [] end) (b_map st).

(** json_ld_converter.py:17-24  convert_payload_to_json_ld_list_of_elements *)
Definition convert_payload_to_json_ld (st : bstate) : result (list json) :=
  map_result (fun e => convert_to_json_ld (element_object st e)) (payload_elements st).

(** json_ld_writer.py:22  the value that is written; [context]: the contents of context.json *)
Definition json_ld_file (context : json) (graph : list json) : json :=
  JObj [($"@context", context); ($"@graph", JArr graph)].
