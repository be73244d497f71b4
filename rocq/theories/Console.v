(** Printing SPDX 3 payloads: spdx3/writer/console/*.py, for objects whose values have the types of their
    fields. *)
From Verif Require Import Py Data Oracles Basics Json DocUtils Payload Bump Jsonld.

(** What has been written, and the exception that ended the writing. *)
Definition output : Type := (pystr * option exn)%type.
Definition say (s : pystr) : output := (s, None).
Definition then_ (a b : output) : output := match snd a with None => (fst a ++ fst b, snd b) | Some _ => a end.
Definition all_of (l : list output) : output := fold_right then_ (say []) l.

Section Console.
(** str(datetime), of the standard library *)
Variable str_of_date : datetime -> pystr.

(** getattr(element, name) *)
Definition getattr (o : pyobj) (name : pystr) : pyobj :=
  match o with
  | XObj _ attrs => match assoc ($"_" ++ name) attrs with Some v => v | None => XNone end
  | _ => XNone
  end.
Definition class_of (o : pyobj) : pystr := match o with XObj c _ => c | _ => [] end.
Definition list_of (o : pyobj) : list pyobj := match o with XList l => l | _ => [] end.
Definition str_of_Z (z : Z) : pystr := match z with Zneg _ => $"-" ++ str_of_N (Z.abs_N z) | _ => str_of_N (Z.abs_N z) end.

(** str(value) of a value of type int *)
Definition number_of (v : pyobj) : option pystr :=
  match v with XInt z => Some (str_of_Z z) | XBool b => Some (if b then $"True" else $"False") | _ => None end.
(** f"{value}"; of the objects only ranges are formatted, by the __repr__ of a dataclass; dictionaries are not formatted, the lists that are have
    entries of type str *)
Definition str_of (v : pyobj) : pystr :=
  match v with
  | XNone => $"None"
  | XStr s | XVersion s => s
  | XInt z => str_of_Z z
  | XBool b => if b then $"True" else $"False"
  | XFloat r => r
  | XDict _ => []
  | XDate d => str_of_date d
  | XEnum name => name
  | XList l => join $", " (map (fun x => match x with XStr s => s | _ => [] end) l)
  | XObj c attrs =>
      match number_of (getattr v $"begin"), number_of (getattr v $"end") with
      | Some b, Some e => c ++ $"(begin=" ++ b ++ $", end=" ++ e ++ $")"
      | _, _ => []
      end
  end.

(** ", ".join([entry for entry in entries]): TypeError for entries that are not str *)
Definition is_text (v : pyobj) : bool := match v with XStr _ => true | _ => false end.
Definition joined (entries : list pyobj) : result pystr :=
  if forallb is_text entries then Ok (str_of (XList entries)) else Raise (EType $"sequence item").
(** f"{tag}: ({key}: {val})" *)
Definition dict_entry (tag : pystr) (kv : pyobj * pyobj) : pystr :=
  tag ++ $": (" ++ str_of (fst kv) ++ $": " ++ str_of (snd kv) ++ $")".
(** console.py:9-27  write_value, write_and_possibly_indent *)
Definition write_value (tag : pystr) (value : pyobj) (indent : bool) : output :=
  if xtruthy value then
    match match value with
          | XDict items => Ok (join $", " (map (dict_entry tag) items))
          | XList entries => joined entries
          | _ => Ok (str_of value)
          end with
    | Ok s => say ((if indent then $"  " else []) ++ tag ++ $": " ++ s ++ [LF])
    | Raise e => ([], Some e)
    end
  else say [].
(** for property_name in Class.__annotations__.keys(): write_value(property_name, getattr(..), ..) *)
Definition write_properties (names : list pystr) (o : pyobj) : output :=
  all_of (map (fun n => write_value n (getattr o n) false) names).
(** spdx/writer/tagvalue/tagvalue_writer_helper_functions.py:54-56  write_optional_heading *)
Definition write_optional_heading (field : pyobj) (heading : pystr) : output := if xtruthy field then say heading else say [].

(** creation_info_writer.py:11-21  write_creation_info, with indent *)
Definition write_creation_info (c : pyobj) : output :=
  all_of ([say ($"# Creation Information" ++ [LF]);
           write_value $"specVersion" (XStr (str_of (getattr c $"spec_version"))) true;
           match getattr c $"created" with
           | XDate d => match datetime_to_iso_string d with Ok s => write_value $"created" (XStr s) true | Raise e => ([], Some e) end
           | _ => ([], Some (EAttr $"created"))
           end]
          ++ map (fun x => write_value $"created by" x true) (list_of (getattr c $"created_by"))
          ++ map (fun x => write_value $"created using" x true) (list_of (getattr c $"created_using"))
          ++ [write_value $"profile" (XList (map (fun x => XStr (str_of x)) (list_of (getattr c $"profile")))) true;
              write_value $"data license" (getattr c $"data_license") true;
              write_value $"comment" (getattr c $"comment") true]).

(** hash_writer.py:11-16, integrity_method_writer.py:10-11  write_hash without heading, with indent *)
Definition write_hash (h : pyobj) : output :=
  all_of [write_value $"algorithm" (getattr h $"algorithm") true; write_value $"hash_value" (getattr h $"hash_value") true;
          write_value $"comment" (getattr h $"comment") true].
(** external_reference_writer.py:10-12 *)
Definition write_external_reference : pyobj -> output :=
  write_properties [$"external_reference_type"; $"locator"; $"content_type"; $"comment"].
(** external_identifier_writer.py:10-12 *)
Definition write_external_identifier : pyobj -> output :=
  write_properties [$"external_identifier_type"; $"identifier"; $"comment"; $"identifier_locator"; $"issuing_authority"].
(** namespace_map_writer.py:10-12 *)
Definition write_namespace_map : pyobj -> output := write_properties [$"prefix"; $"namespace"].
(** external_map_writer.py:12-20 *)
Definition write_external_map (m : pyobj) : output :=
  all_of ([write_value $"external_id" (getattr m $"external_id") false;
           write_optional_heading (getattr m $"verified_using") ($"verified using" ++ [LF])]
          ++ map write_hash (list_of (getattr m $"verified_using"))
          ++ [write_value $"location_hint" (getattr m $"location_hint") false]).

(** element_writer.py:15-34  write_element_properties *)
Definition write_element_properties (o : pyobj) : output :=
  all_of ([write_value $"SPDXID" (getattr o $"spdx_id") false; write_value $"name" (getattr o $"name") false;
           (if xtruthy (getattr o $"creation_info") then write_creation_info (getattr o $"creation_info") else say []);
           write_value $"summary" (getattr o $"summary") false; write_value $"description" (getattr o $"description") false;
           write_value $"comment" (getattr o $"comment") false;
           write_optional_heading (getattr o $"verified_using") ($"verified using:" ++ [LF])]
          ++ map write_hash (list_of (getattr o $"verified_using"))
          ++ [write_optional_heading (getattr o $"external_reference") ($"External Reference" ++ [LF])]
          ++ map write_external_reference (list_of (getattr o $"external_reference"))
          ++ [write_optional_heading (getattr o $"external_identifier") ($"External Identifier" ++ [LF])]
          ++ map write_external_identifier (list_of (getattr o $"external_identifier"))).

(** agent_writer.py:10-18, tool_writer.py:18-21 *)
Definition write_actor (o : pyobj) : output := then_ (say ($"## " ++ class_of o ++ [LF])) (write_element_properties o).
(** artifact_writer.py:11-15 *)
Definition write_artifact_properties (o : pyobj) : output :=
  then_ (write_element_properties o)
        (write_properties [$"originated_by"; $"supplied_by"; $"built_time"; $"release_time"; $"valid_until_time"; $"standard"] o).
(** software/package_writer.py:11-22; the property package_purpose of lines 17-21 does not exist *)
Definition write_package (heading : bool) (o : pyobj) : output :=
  all_of [(if heading then say ($"## Package" ++ [LF]) else say []); write_artifact_properties o;
          write_properties [$"package_version"; $"download_location"; $"package_url"; $"homepage"; $"source_info"] o].
(** software/file_writer.py:11-21 *)
Definition write_file (o : pyobj) : output :=
  all_of [say ($"## File" ++ [LF]); write_artifact_properties o; write_properties [$"content_type"] o].
(** software/snippet_writer.py:11-21 *)
Definition write_snippet (o : pyobj) : output :=
  all_of [say ($"## Snippet" ++ [LF]); write_artifact_properties o; write_properties [$"byte_range"; $"line_range"] o].
(** relationship_writer.py:11-16 without the heading *)
Definition write_relationship_properties (o : pyobj) : output :=
  then_ (write_element_properties o)
        (write_properties [$"from_element"; $"to"; $"relationship_type"; $"completeness"; $"start_time"; $"end_time"] o).
(** relationship_writer.py:11-16 *)
Definition write_relationship (o : pyobj) : output := then_ (say ($"## Relationship" ++ [LF])) (write_relationship_properties o).
(** software/software_dependency_relationship_writer.py:12-20, lifecycle_scoped_relationship_writer.py:12-20 *)
Definition write_software_dependency_relationship (o : pyobj) : output :=
  all_of [say ($"## SoftwareDependencyRelationship" ++ [LF]); write_relationship_properties o; write_properties [$"scope"] o;
          write_properties [$"software_linkage"; $"conditionality"] o].
(** annotation_writer.py:11-16 *)
Definition write_annotation (o : pyobj) : output :=
  all_of [say ($"## Annotation" ++ [LF]); write_element_properties o;
          write_properties [$"annotation_type"; $"subject"; $"content_type"; $"statement"] o].
(** spdx_collection_writer.py:13-21 *)
Definition write_collection (o : pyobj) : output :=
  all_of ([write_element_properties o;
           match joined (list_of (getattr o $"element")) with
           | Ok s => say ($"elements: " ++ s ++ [LF])
           | Raise e => ([], Some e)
           end;
           write_optional_heading (getattr o $"namespaces") ($"# Namespaces" ++ [LF])]
          ++ map write_namespace_map (list_of (getattr o $"namespaces"))
          ++ [write_optional_heading (getattr o $"imports") ($"# Imports" ++ [LF])]
          ++ map write_external_map (list_of (getattr o $"imports"))).
(** bundle_writer.py:11-15 *)
Definition write_bundle (heading : bool) (o : pyobj) : output :=
  all_of [(if heading then say ($"## Bundle" ++ [LF]) else say []); write_collection o; write_value $"context" (getattr o $"context") false].
(** bom_writer.py:10-13 *)
Definition write_bom (heading : bool) (o : pyobj) : output :=
  then_ (if heading then say ($"## Bom" ++ [LF]) else say []) (write_bundle false o).
(** spdx_document_writer.py:10-12 *)
Definition write_spdx_document (o : pyobj) : output := then_ (say ($"## SPDX Document" ++ [LF])) (write_bundle false o).
(** software/sbom_writer.py:10-12 *)
Definition write_sbom (o : pyobj) : output := then_ (say ($"## Sbom" ++ [LF])) (write_bom false o).
(** ai/ai_package_writer.py:11-16 *)
Definition write_ai_package (o : pyobj) : output :=
  all_of [say ($"## AI Package" ++ [LF]); write_package false o;
          write_properties [$"energy_consumption"; $"standard_compliance"; $"limitation"; $"type_of_model"; $"information_about_training";
                            $"information_about_application"; $"hyperparameter"; $"model_data_preprocessing"; $"model_explainability";
                            $"sensitive_personal_information"; $"metric_decision_threshold"; $"metric"; $"domain"; $"autonomy_type";
                            $"safety_risk_assessment"] o].
(** dataset/dataset_writer.py:11-16 *)
Definition write_dataset (o : pyobj) : output :=
  all_of [say ($"## Dataset" ++ [LF]); write_package false o;
          write_properties [$"dataset_type"; $"data_collection_process"; $"intended_use"; $"dataset_size"; $"dataset_noise";
                            $"data_preprocessing"; $"sensor"; $"known_bias"; $"sensitive_personal_information"; $"anonymization_method_used";
                            $"confidentiality_level"; $"dataset_update_mechanism"; $"dataset_availability"] o].
(** build/build_writer.py:13-24; there is no line break in the heading of the digests *)
Definition write_build (o : pyobj) : output :=
  all_of ([say ($"## Build" ++ [LF]); write_element_properties o;
           write_properties [$"build_type"; $"build_id"; $"config_source_entrypoint"; $"config_source_uri"] o;
           write_optional_heading (getattr o $"config_source_digest") $"config_source_digest"]
          ++ map write_hash (list_of (getattr o $"config_source_digest"))
          ++ [write_properties [$"parameters"; $"build_start_time"; $"build_end_time"; $"environment"] o]).

(** payload_writer.py:40-58  MAP_CLASS_TO_WRITE_METHOD *)
Definition write_method (cls : pystr) : option (pyobj -> output) :=
  assoc cls [($"Annotation", write_annotation); ($"Relationship", write_relationship);
             ($"SoftwareDependencyRelationship", write_software_dependency_relationship); ($"Bundle", write_bundle true);
             ($"SpdxDocument", write_spdx_document); ($"Bom", write_bom true); ($"File", write_file); ($"Package", write_package true);
             ($"Snippet", write_snippet); ($"Sbom", write_sbom); ($"Person", write_actor); ($"Organization", write_actor);
             ($"SoftwareAgent", write_actor); ($"Tool", write_actor); ($"AIPackage", write_ai_package); ($"Dataset", write_dataset);
             ($"Build", write_build)].

(** payload_writer.py:61-65  write_payload, for the elements of a payload in its order *)
Definition write_elements (os : list pyobj) : output :=
  all_of (flat_map (fun o => [match write_method (class_of o) with Some f => f o | None => ([], Some (EKey (class_of o))) end; say [LF]]) os).
(** payload_writer.py:61-65  write_payload, for the payload of a conversion from SPDX 2 *)
Definition write_payload_to_console (st : bstate) : output := write_elements (map (element_object st) (payload_elements st)).
End Console.
