(** Specification of C68: what the console shows of the elements of a payload of SPDX 3, stated without the functions of the writer. *)
From Verif Require Import Py Data Oracles Basics Json DocUtils Payload Typing Typing3 Typing3Spec Jsonld3Spec.

(** A piece of the output: a text, or an exception that ends it. *)
Inductive piece := Text (s : pystr) | Stop (e : exn).
Definition line (s : pystr) : piece := Text (s ++ [LF]).
(** the texts up to the first exception, and that exception *)
Fixpoint said (ps : list piece) : pystr * option exn :=
  match ps with
  | [] => ([], None)
  | Text s :: ps' => (s ++ fst (said ps'), snd (said ps'))
  | Stop e :: _ => ([], Some e)
  end.

(** the value of a field and the items of a list *)
Definition field (f : pystr) (v : pyval) : pyval :=
  match v with VObj _ i => match assoc f i with Some w => w | None => VNone end | _ => VNone end.
Definition items_of (v : pyval) : list pyval := match v with VList l => l | _ => [] end.
(** values of which nothing is shown *)
Definition empty (v : pyval) : bool :=
  match v with VNone | VBool false | VInt 0 | VStr [] | VList [] | VDict [] => true | _ => false end.

Section Texts.
(** str(datetime) *)
Variable str_of_date : datetime -> pystr.
Definition decimal (z : Z) : pystr := match z with Zneg _ => $"-" ++ str_of_N (Z.abs_N z) | _ => str_of_N (Z.abs_N z) end.
(** The text of a value: members of enumerations by their names, ranges by their ends. *)
Definition text_of (v : pyval) : pystr :=
  match v with
  | VNone => $"None"
  | VStr s => s
  | VBool b => if b then $"True" else $"False"
  | VInt z => decimal z
  | VDatetime d => str_of_date d
  | VObj c i =>
      match i with
      | [(_, VStr s)] => if str_in c (map fst enumeration_words) || str_eqb c $"Version" then s else []
      | _ =>
          let num w := match w with VInt z => Some (decimal z) | VBool b => Some (if b then $"True" else $"False") | _ => None end in
          match num (field $"begin" v), num (field $"end" v) with
          | Some b, Some e => c ++ $"(begin=" ++ b ++ $", end=" ++ e ++ $")"
          | _, _ => []
          end
      end
  | _ => []
  end.
(** the texts in a list; nothing if there is anything else in it *)
Fixpoint texts (l : list pyval) : option (list pystr) :=
  match l with
  | [] => Some []
  | VStr s :: l' => option_map (cons s) (texts l')
  | _ => None
  end.

(** The line for a value under a name.  The items of lists have to be texts; the entries of dictionaries are in parentheses. *)
Definition entry (indent : bool) (name : pystr) (v : pyval) : list piece :=
  let shown s := [line ((if indent then $"  " else []) ++ name ++ $": " ++ s)] in
  if empty v then []
  else match v with
       | VList l => match texts l with Some ss => shown (join $", " ss) | None => [Stop (EType $"sequence item")] end
       | VDict kvs => shown (join $", " (map (fun kv => name ++ $": (" ++ text_of (fst kv) ++ $": " ++ text_of (snd kv) ++ $")") kvs))
       | _ => shown (text_of v)
       end.
Definition fields (names : list pystr) (v : pyval) : list piece := flat_map (fun f => entry false f (field f v)) names.
(** a heading, if something comes under it *)
Definition titled (heading : list piece) (v : pyval) : list piece := if empty v then [] else heading.

Definition hash_pieces (v : pyval) : list piece := flat_map (fun f => entry true f (field f v)) [$"algorithm"; $"hash_value"; $"comment"].
Definition reference_names : list pystr := [$"external_reference_type"; $"locator"; $"content_type"; $"comment"].
Definition identifier_names : list pystr := [$"external_identifier_type"; $"identifier"; $"comment"; $"identifier_locator"; $"issuing_authority"].
Definition map_names : list pystr := [$"prefix"; $"namespace"].
Definition import_pieces (v : pyval) : list piece :=
  fields [$"external_id"] v ++ titled [line $"verified using"] (field $"verified_using" v)
  ++ flat_map hash_pieces (items_of (field $"verified_using" v)) ++ fields [$"location_hint"] v.
Definition creation_pieces (v : pyval) : list piece :=
  [line $"# Creation Information"] ++ entry true $"specVersion" (VStr (text_of (field $"spec_version" v)))
  ++ match field $"created" v with
     | VDatetime d => match datetime_to_iso_string d with Ok s => entry true $"created" (VStr s) | Raise e => [Stop e] end
     | _ => [Stop (EAttr $"created")]
     end
  ++ flat_map (entry true $"created by") (items_of (field $"created_by" v))
  ++ flat_map (entry true $"created using") (items_of (field $"created_using" v))
  ++ entry true $"profile" (VList (map (fun x => VStr (text_of x)) (items_of (field $"profile" v))))
  ++ entry true $"data license" (field $"data_license" v) ++ entry true $"comment" (field $"comment" v).

(** The parts of which the outputs for the classes consist. *)
Inductive section := Common | Fields (names : list pystr) | Digests | Members.
Definition section_pieces (v : pyval) (s : section) : list piece :=
  match s with
  | Common =>
      entry false $"SPDXID" (field $"spdx_id" v) ++ fields [$"name"] v
      ++ (if empty (field $"creation_info" v) then [] else creation_pieces (field $"creation_info" v))
      ++ fields [$"summary"; $"description"; $"comment"] v
      ++ titled [line $"verified using:"] (field $"verified_using" v) ++ flat_map hash_pieces (items_of (field $"verified_using" v))
      ++ titled [line $"External Reference"] (field $"external_reference" v)
      ++ flat_map (fields reference_names) (items_of (field $"external_reference" v))
      ++ titled [line $"External Identifier"] (field $"external_identifier" v)
      ++ flat_map (fields identifier_names) (items_of (field $"external_identifier" v))
  | Fields names => fields names v
  | Digests =>
      (* no line break after the heading *)
      titled [Text $"config_source_digest"] (field $"config_source_digest" v)
      ++ flat_map hash_pieces (items_of (field $"config_source_digest" v))
  | Members =>
      match texts (items_of (field $"element" v)) with
      | Some ss => [line ($"elements: " ++ join $", " ss)]
      | None => [Stop (EType $"sequence item")]
      end
      ++ titled [line $"# Namespaces"] (field $"namespaces" v) ++ flat_map (fields map_names) (items_of (field $"namespaces" v))
      ++ titled [line $"# Imports"] (field $"imports" v) ++ flat_map import_pieces (items_of (field $"imports" v))
  end.

Definition artifact_names : list pystr :=
  [$"originated_by"; $"supplied_by"; $"built_time"; $"release_time"; $"valid_until_time"; $"standard"].
Definition package_names : list pystr := [$"package_version"; $"download_location"; $"package_url"; $"homepage"; $"source_info"].
Definition relationship_names : list pystr := [$"from_element"; $"to"; $"relationship_type"; $"completeness"; $"start_time"; $"end_time"].
(** the classes that can be shown, with their headings and sections *)
Definition layouts : list (pystr * (pystr * list section)) :=
  [($"Annotation", ($"## Annotation", [Common; Fields [$"annotation_type"; $"subject"; $"content_type"; $"statement"]]));
   ($"Relationship", ($"## Relationship", [Common; Fields relationship_names]));
   ($"SoftwareDependencyRelationship",
    ($"## SoftwareDependencyRelationship", [Common; Fields relationship_names; Fields [$"scope"]; Fields [$"software_linkage"; $"conditionality"]]));
   ($"Bundle", ($"## Bundle", [Common; Members; Fields [$"context"]]));
   ($"SpdxDocument", ($"## SPDX Document", [Common; Members; Fields [$"context"]]));
   ($"Bom", ($"## Bom", [Common; Members; Fields [$"context"]]));
   ($"File", ($"## File", [Common; Fields artifact_names; Fields [$"content_type"]]));
   ($"Package", ($"## Package", [Common; Fields artifact_names; Fields package_names]));
   ($"Snippet", ($"## Snippet", [Common; Fields artifact_names; Fields [$"byte_range"; $"line_range"]]));
   ($"Sbom", ($"## Sbom", [Common; Members; Fields [$"context"]]));
   ($"Person", ($"## Person", [Common]));
   ($"Organization", ($"## Organization", [Common]));
   ($"SoftwareAgent", ($"## SoftwareAgent", [Common]));
   ($"Tool", ($"## Tool", [Common]));
   ($"AIPackage",
    ($"## AI Package",
     [Common; Fields artifact_names; Fields package_names;
      Fields [$"energy_consumption"; $"standard_compliance"; $"limitation"; $"type_of_model"; $"information_about_training";
              $"information_about_application"; $"hyperparameter"; $"model_data_preprocessing"; $"model_explainability";
              $"sensitive_personal_information"; $"metric_decision_threshold"; $"metric"; $"domain"; $"autonomy_type";
              $"safety_risk_assessment"]]));
   ($"Dataset",
    ($"## Dataset",
     [Common; Fields artifact_names; Fields package_names;
      Fields [$"dataset_type"; $"data_collection_process"; $"intended_use"; $"dataset_size"; $"dataset_noise"; $"data_preprocessing";
              $"sensor"; $"known_bias"; $"sensitive_personal_information"; $"anonymization_method_used"; $"confidentiality_level";
              $"dataset_update_mechanism"; $"dataset_availability"]]));
   ($"Build",
    ($"## Build",
     [Common; Fields [$"build_type"; $"build_id"; $"config_source_entrypoint"; $"config_source_uri"]; Digests;
      Fields [$"parameters"; $"build_start_time"; $"build_end_time"; $"environment"]]))].

(** everything that is shown of an element, with the empty line after it *)
Definition element_pieces (v : pyval) : list piece :=
  match v with
  | VObj c _ =>
      match assoc c layouts with
      | Some (heading, sections) => [line heading] ++ flat_map (section_pieces v) sections ++ [line []]
      | None => [Stop (EKey c)]
      end
  | _ => []
  end.
End Texts.

(** An element: a sound instance of a class of the model. *)
Definition Element (v : pyval) : Prop := Sound v /\ exists c i, v = VObj c i /\ In c (map d_name classes3).
(** Why an element cannot be shown: there is no layout for its class, it is a data set with a type, or the time in its creation info cannot be
    written. *)
Definition CannotBeShown (v : pyval) (e : exn) : Prop :=
  (exists c i, v = VObj c i /\ ~ In c (map fst layouts) /\ e = EKey c)
  \/ (exists i x l, v = VObj $"Dataset" i /\ field $"dataset_type" v = VList (x :: l) /\ exists m, e = EType m)
  \/ (exists c i d, v = VObj c i /\ In c (map fst layouts) /\ field $"created" (field $"creation_info" v) = VDatetime d
      /\ datetime_to_iso_string d = Raise e).
