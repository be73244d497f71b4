(** What the console output for an SPDX 3 payload has to contain, stated without the functions of the writer. *)
From Verif Require Import Py Data Oracles Basics Json DocUtils Payload Bump.

(** * Lines *)
(** A value that is missing or empty gives no line. *)
Definition shown (tag s : pystr) : list pystr := match s with [] => [] | _ => [tag ++ $": " ++ s] end.
Definition shown_if (tag : pystr) (o : option pystr) : list pystr := match o with Some s => shown tag s | None => [] end.
Definition listed (tag : pystr) (l : list pystr) : list pystr := match l with [] => [] | _ => [tag ++ $": " ++ join $", " l] end.
(** members of enumerations, by their names *)
Definition member (tag name : pystr) : list pystr := [tag ++ $": " ++ name].
Definition member_if (tag : pystr) (o : option pystr) : list pystr := match o with Some n => member tag n | None => [] end.
Definition indented (ls : list pystr) : list pystr := map (fun l => $"  " ++ l) ls.
(** a heading, if something comes under it *)
Definition under (heading : pystr) (parts : list (list pystr)) : list pystr :=
  match parts with [] => [] | _ => heading :: List.concat parts end.
(** a number in decimal *)
Definition decimal (z : Z) : pystr := match z with Zneg _ => $"-" ++ str_of_N (Z.abs_N z) | _ => str_of_N (Z.abs_N z) end.

(** * Parts of elements *)
Definition hash_lines (h : hash3) : list pystr := indented (member $"algorithm" (h3_alg h) ++ shown $"hash_value" (h3_value h)).
Definition reference_lines (r : extref3) : list pystr :=
  member $"external_reference_type" (xr_type r) ++ listed $"locator" (xr_locator r) ++ shown_if $"comment" (xr_comment r).
Definition identifier_lines (i : extid3) : list pystr :=
  member $"external_identifier_type" (xi_type i) ++ shown $"identifier" (xi_identifier i) ++ shown_if $"comment" (xi_comment i).
Definition namespace_lines (m : nsmap3) : list pystr := shown $"prefix" (nm_prefix m) ++ shown $"namespace" (nm_namespace m).
Definition import_lines (m : extmap3) : list pystr :=
  shown $"external_id" (em_id m) ++ under $"verified using" (map hash_lines (em_verified m)).
Definition range_lines (tag : pystr) (r : option (Z * Z)) : list pystr :=
  match r with Some (b, e) => [tag ++ $": PositiveIntegerRange(begin=" ++ decimal b ++ $", end=" ++ decimal e ++ $")"] | None => [] end.
Definition creation_lines (c : cinfo3) (created : pystr) : list pystr :=
  $"# Creation Information"
  :: indented ([$"specVersion: 3.0.0"] ++ shown $"created" created ++ flat_map (shown $"created by") (c3_created_by c)
               ++ flat_map (shown $"created using") (c3_created_using c) ++ [$"profile: CORE, SOFTWARE, LICENSING"]
               ++ shown $"data license" (c3_data_license c)).
(** the creation info at an address *)
Inductive CreationLines (st : bstate) : option nat -> list pystr -> Prop :=
| no_creation : CreationLines st None []
| creation a c s : nth_error (b_cis st) a = Some c -> datetime_to_iso_string (c3_created c) = Ok s ->
    CreationLines st (Some a) (creation_lines c s).
(** the time in the creation info of an element *)
Definition creation_time (st : bstate) (e : element3) : option datetime :=
  match match e with
        | E3Actor a => a3_ci a
        | E3Annotation a => Some (n3_ci a)
        | E3Document d => Some (d3_ci d)
        | _ => None
        end with
  | Some i => option_map c3_created (nth_error (b_cis st) i)
  | None => None
  end.

Section Blocks.
(** str(datetime) *)
Variable str_of_date : datetime -> pystr.
Definition dated (tag : pystr) (o : option datetime) : list pystr :=
  match o with Some d => [tag ++ $": " ++ str_of_date d] | None => [] end.

(** * The lines of an element *)
Inductive Block (st : bstate) : element3 -> list pystr -> Prop :=
| actor_block a ci : CreationLines st (a3_ci a) ci ->
    Block st (E3Actor a)
      ([match a3_kind a with AT_PERSON => $"## Person" | AT_ORGANIZATION => $"## Organization" | AT_TOOL => $"## Tool" end]
       ++ shown $"SPDXID" (a3_id a) ++ shown $"name" (a3_name a) ++ ci
       ++ under $"External Identifier" (map identifier_lines (a3_extids a)))
| package_block p :
    Block st (E3Package p)
      ([$"## Package"] ++ shown $"SPDXID" (p3_id p) ++ shown $"name" (p3_name p) ++ shown_if $"summary" (p3_summary p)
       ++ shown_if $"description" (p3_description p) ++ shown_if $"comment" (p3_comment p)
       ++ under $"verified using:" (map hash_lines (p3_verified p))
       ++ under $"External Reference" (map reference_lines (p3_extrefs p))
       ++ under $"External Identifier" (map identifier_lines (p3_extids p))
       ++ listed $"originated_by" (p3_originated p) ++ listed $"supplied_by" (p3_supplied p)
       ++ dated $"built_time" (p3_built p) ++ dated $"release_time" (p3_release p)
       ++ dated $"valid_until_time" (p3_valid_until p)
       ++ shown_if $"package_version" (p3_version p) ++ shown_if $"download_location" (p3_download p)
       ++ shown_if $"package_url" (p3_purl p) ++ shown_if $"homepage" (p3_homepage p)
       ++ shown_if $"source_info" (p3_source_info p))
| file_block f :
    Block st (E3File f)
      ([$"## File"] ++ shown $"SPDXID" (f3_id f) ++ shown $"name" (f3_name f) ++ shown_if $"comment" (f3_comment f)
       ++ under $"verified using:" (map hash_lines (f3_verified f)))
| snippet_block s :
    Block st (E3Snippet s)
      ([$"## Snippet"] ++ shown $"SPDXID" (s3_id s) ++ shown_if $"name" (s3_name s) ++ shown_if $"comment" (s3_comment s)
       ++ range_lines $"byte_range" (s3_bytes s) ++ range_lines $"line_range" (s3_lines s))
| relationship_block r : r3_dependency r = false ->
    Block st (E3Relationship r)
      ([$"## Relationship"] ++ shown $"SPDXID" (r3_id r) ++ shown_if $"comment" (r3_comment r)
       ++ shown $"from_element" (r3_from r) ++ listed $"to" (r3_to r) ++ member $"relationship_type" (r3_type r)
       ++ member_if $"completeness" (r3_completeness r))
| dependency_block r : r3_dependency r = true ->
    Block st (E3Relationship r)
      ([$"## SoftwareDependencyRelationship"] ++ shown $"SPDXID" (r3_id r) ++ shown_if $"comment" (r3_comment r)
       ++ shown $"from_element" (r3_from r) ++ listed $"to" (r3_to r) ++ member $"relationship_type" (r3_type r)
       ++ member_if $"completeness" (r3_completeness r) ++ member_if $"scope" (r3_scope r)
       ++ member_if $"software_linkage" (r3_linkage r) ++ member_if $"conditionality" (r3_conditionality r))
| annotation_block a ci : CreationLines st (Some (n3_ci a)) ci ->
    Block st (E3Annotation a)
      ([$"## Annotation"] ++ shown $"SPDXID" (n3_id a) ++ ci ++ member $"annotation_type" (n3_type a)
       ++ shown $"subject" (n3_subject a) ++ shown $"statement" (n3_statement a))
| document_block d ci : CreationLines st (Some (d3_ci d)) ci ->
    Block st (E3Document d)
      ([$"## SPDX Document"] ++ shown $"SPDXID" (d3_id d) ++ shown $"name" (d3_name d) ++ ci
       ++ shown_if $"comment" (d3_comment d) ++ [$"elements: " ++ join $", " (d3_element d)]
       ++ under $"# Namespaces" (map namespace_lines (d3_namespaces d))
       ++ under $"# Imports" (map import_lines (d3_imports d))).
End Blocks.

(** the text of a block: its lines, and an empty line after them *)
Definition block_text (ls : list pystr) : pystr := List.concat (map (fun l => l ++ [LF]) ls) ++ [LF].
Definition payload_text (blocks : list (list pystr)) : pystr := List.concat (map block_text blocks).
