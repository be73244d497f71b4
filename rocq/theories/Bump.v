(** Conversion of SPDX 2 documents to SPDX 3 payloads: spdx3/bump_from_spdx2/*.py on the classes of spdx3/model.

    Objects that the code changes after they were made (elements and creation infos) live in heaps and are referred to
    by address, so that sharing is visible.  Members of SPDX 3 enums are represented by their names.
    The messages that print_missing_conversion prints to stderr (message.py) are in BumpLog.v, what
    handle_no_assertion_or_none prints to stdout (bump_utils.py:12) is in Cli3.v.  Not modelled: the constructor fields that the conversion never sets.  The constructors check the types of
    their arguments (see Typing.v); the only argument of these calls whose type may not fit is the homepage of a
    package, which is checked explicitly. *)
From Verif Require Import Py Data Oracles DocUtils Payload.

(** spdx3/model/hash.py:13-37 *)
Definition HashAlgorithm : list pystr :=
  [$"BLAKE2B256"; $"BLAKE2B384"; $"BLAKE2B512"; $"BLAKE3"; $"CRYSTALS_KYBER"; $"CRYSTALS_DILITHIUM"; $"FALCON"; $"MD2";
   $"MD4"; $"MD5"; $"MD6"; $"OTHER"; $"SHA1"; $"SHA224"; $"SHA256"; $"SHA3_224"; $"SHA3_256"; $"SHA3_384"; $"SHA3_512";
   $"SHA384"; $"SHA512"; $"SPDXPVCSHA1"; $"SPDXPVCSHA256"; $"SPHINCS_PLUS"].
(** spdx3/model/software/software_purpose.py:7-29 *)
Definition SoftwarePurpose : list pystr :=
  [$"APPLICATION"; $"ARCHIVE"; $"BOM"; $"CONFIGURATION"; $"CONTAINER"; $"DATA"; $"DEVICE"; $"DOCUMENTATION";
   $"EXECUTABLE"; $"FILE"; $"FIRMWARE"; $"FRAMEWORK"; $"INSTALL"; $"LIBRARY"; $"MODEL"; $"MODULE"; $"OPERATING_SYSTEM";
   $"OTHER"; $"PATCH"; $"REQUIREMENT"; $"SOURCE"; $"TEST"].
(** spdx3/model/annotation.py:14-16 *)
Definition AnnotationType : list pystr := [$"REVIEW"; $"OTHER"].
(** Enum[name] *)
Definition enum_member (members : list pystr) (name : pystr) : result pystr :=
  if str_in name members then Ok name else Raise (EKey name).

(** spdx3/model/hash.py:40-45 *)
Record hash3 := { h3_alg : pystr; h3_value : pystr }.
(** spdx3/model/external_reference.py:54-59 *)
Record extref3 := { xr_type : pystr; xr_locator : list pystr; xr_comment : option pystr }.
(** spdx3/model/external_identifier.py:27-33 *)
Record extid3 := { xi_type : pystr; xi_identifier : pystr; xi_comment : option pystr }.
(** spdx3/model/namespace_map.py:8-14 *)
Record nsmap3 := { nm_prefix : pystr; nm_namespace : pystr }.
(** spdx3/model/external_map.py:13-18 *)
Record extmap3 := { em_id : pystr; em_verified : list hash3; em_defining : option pystr }.
(** spdx3/model/creation_info.py:15-23; the constant specVersion and profile are left out *)
Record cinfo3 := { c3_created : datetime; c3_created_by : list pystr; c3_created_using : list pystr;
                   c3_data_license : pystr }.
(** spdx3/model/person.py, organization.py, tool.py: the class is [a3_kind] *)
Record actor3 := { a3_kind : actor_type; a3_id : pystr; a3_ci : option nat; a3_name : pystr; a3_extids : list extid3 }.
(** spdx3/model/software/package.py, with the inherited fields *)
Record package3 := { p3_id : pystr; p3_name : pystr; p3_summary : option pystr; p3_description : option pystr;
                     p3_comment : option pystr; p3_verified : list hash3; p3_extrefs : list extref3;
                     p3_extids : list extid3; p3_originated : list pystr; p3_supplied : list pystr;
                     p3_built : option datetime; p3_release : option datetime; p3_valid_until : option datetime;
                     p3_purpose : option pystr; p3_concluded : option unit; p3_declared : option unit;
                     p3_version : option pystr; p3_download : option pystr; p3_purl : option pystr;
                     p3_homepage : option pystr; p3_source_info : option pystr; p3_copyright : option pystr;
                     p3_attribution : pystr }.
(** spdx3/model/software/file.py *)
Record file3 := { f3_id : pystr; f3_name : pystr; f3_comment : option pystr; f3_verified : list hash3;
                  f3_copyright : option pystr; f3_attribution : pystr }.
(** spdx3/model/software/snippet.py, spdx3/model/positive_integer_range.py *)
Record snippet3 := { s3_id : pystr; s3_name : option pystr; s3_comment : option pystr; s3_bytes : option (Z * Z);
                     s3_lines : option (Z * Z); s3_copyright : option pystr; s3_attribution : pystr }.
(** spdx3/model/relationship.py:86-96, spdx3/model/software/software_dependency_relationship.py:38-41;
    [r3_dependency]: the object is a SoftwareDependencyRelationship *)
Record rel3 := { r3_id : pystr; r3_from : pystr; r3_type : pystr; r3_to : list pystr; r3_comment : option pystr;
                 r3_completeness : option pystr; r3_dependency : bool; r3_scope : option pystr;
                 r3_linkage : option pystr; r3_conditionality : option pystr }.
(** spdx3/model/annotation.py:19-24 *)
Record annotation3 := { n3_id : pystr; n3_type : pystr; n3_subject : pystr; n3_ci : nat; n3_statement : pystr }.
(** spdx3/model/spdx_document.py, bundle.py, spdx_collection.py *)
Record doc3 := { d3_id : pystr; d3_name : pystr; d3_element : list pystr; d3_root : list pystr; d3_ci : nat;
                 d3_comment : option pystr; d3_namespaces : list nsmap3; d3_imports : list extmap3 }.

(** the instances of spdx3/model/element.py that the conversion makes *)
Inductive element3 :=
| E3Actor (a : actor3) | E3Package (p : package3) | E3File (f : file3) | E3Snippet (s : snippet3)
| E3Relationship (r : rel3) | E3Annotation (a : annotation3) | E3Document (d : doc3).
(** element.spdx_id *)
Definition e3_id (e : element3) : pystr :=
  match e with
  | E3Actor a => a3_id a | E3Package p => p3_id p | E3File f => f3_id f | E3Snippet s => s3_id s
  | E3Relationship r => r3_id r | E3Annotation a => n3_id a | E3Document d => d3_id d
  end.

(** The program state: elements, creation infos, and the dict of the payload that is being filled. *)
Record bstate := { b_objs : list element3; b_cis : list cinfo3; b_map : idmap }.
Definition with_objs (st : bstate) (o : list element3) : bstate := {| b_objs := o; b_cis := b_cis st; b_map := b_map st |}.
Definition with_cis (st : bstate) (c : list cinfo3) : bstate := {| b_objs := b_objs st; b_cis := c; b_map := b_map st |}.
Definition with_map (st : bstate) (m : idmap) : bstate := {| b_objs := b_objs st; b_cis := b_cis st; b_map := m |}.

(** a constructor call: a new element *)
Definition new_object (st : bstate) (e : element3) : bstate * nat :=
  (with_objs st (b_objs st ++ [e]), List.length (b_objs st)).
(** a constructor call: a new creation info *)
Definition new_cinfo (st : bstate) (c : cinfo3) : bstate * nat :=
  (with_cis st (b_cis st ++ [c]), List.length (b_cis st)).
(** payload.add_element(obj), payload.py:15-16 *)
Definition add_element (st : bstate) (addr : nat) : bstate :=
  match nth_error (b_objs st) addr with
  | Some e => with_map st (dict_set (e3_id e) addr (b_map st))
  | None => st
  end.
(** payload.add_element(Class(..)) *)
Definition add_new (st : bstate) (e : element3) : bstate := let (st, a) := new_object st e in add_element st a.
(** payload.get_element(id), payload.py:18-19, with the object's current fields *)
Definition get_element (st : bstate) (id : pystr) : result element3 :=
  match assoc id (b_map st) with
  | Some a => match nth_error (b_objs st) a with Some e => Ok e | None => Raise (EKey id) end
  | None => Raise (EKey id)
  end.

(** bump_from_spdx2/checksum.py:16-21  convert_checksum_algorithm_to_hash_algorithm *)
Definition convert_checksum_algorithm_to_hash_algorithm (a : checksum_alg) : result pystr :=
  if startswith $"BLAKE" (checksum_alg_name a) then enum_member HashAlgorithm (replace $"_" [] (checksum_alg_name a))
  else if checksum_alg_eqb a CA_ADLER32 then Ok $"OTHER"
  else enum_member HashAlgorithm (checksum_alg_name a).

(** bump_from_spdx2/checksum.py:9-13  bump_checksum *)
Definition bump_checksum (c : checksum) : result hash3 :=
  do a <- convert_checksum_algorithm_to_hash_algorithm (ck_alg c);
  Ok {| h3_alg := a; h3_value := ck_value c |}.

(** bump_from_spdx2/external_document_ref.py:11-17  bump_external_document_ref *)
Definition bump_external_document_ref (r : ext_doc_ref) : result (nsmap3 * extmap3) :=
  do h <- bump_checksum (edr_checksum r);
  Ok ({| nm_prefix := edr_id r; nm_namespace := edr_uri r ++ $"#" |},
      {| em_id := edr_id r ++ $":SPDXRef-DOCUMENT"; em_verified := [h]; em_defining := None |}).

(** bump_from_spdx2/actor.py:14-53  bump_actor; [ci]: the address of the creation_info argument *)
Definition bump_actor (a : actor) (ns : pystr) (ci : option nat) (st : bstate) : bstate * pystr :=
  let mail := match ac_email a with Some ((_ :: _) as e) => Some e | _ => None end in
  let id := ns ++ $"#SPDXRef-Actor-" ++ remove_ws (ac_name a) ++
            match mail with Some e => $"-" ++ e | None => [] end in
  let extids := match mail with
                | Some e => [{| xi_type := $"EMAIL"; xi_identifier := e; xi_comment := None |}]
                | None => []
                end in
  match assoc id (b_map st) with
  | Some _ => (st, id)
  | None => (add_new st (E3Actor {| a3_kind := ac_type a; a3_id := id; a3_ci := ci; a3_name := ac_name a;
                                    a3_extids := extids |}), id)
  end.

(** actor_type in [ActorType.PERSON, ActorType.ORGANIZATION] *)
Definition is_agent (t : actor_type) : bool := match t with AT_PERSON | AT_ORGANIZATION => true | AT_TOOL => false end.

(** bump_from_spdx2/creation_info.py:49-56  the loop over the creators *)
Fixpoint bump_creators (l : list actor) (ns : pystr) (ci : nat) (st : bstate) (creators tools : list pystr)
  : bstate * list pystr * list pystr :=
  match l with
  | [] => (st, creators, tools)
  | a :: l' =>
      let (st, id) := bump_actor a ns (Some ci) st in
      if is_agent (ac_type a) then bump_creators l' ns ci st (creators ++ [id]) tools
      else bump_creators l' ns ci st creators (tools ++ [id])
  end.

(** bump_from_spdx2/creation_info.py:16-79  bump_creation_info; the new SpdxDocument is returned by its address *)
Definition bump_creation_info (c : creation_info) (st : bstate) : result (bstate * nat) :=
  do maps <- map_result bump_external_document_ref (ci_refs c);
  let (st, ci) := new_cinfo st {| c3_created := ci_created c; c3_created_by := []; c3_created_using := [];
                                  c3_data_license := $"https://spdx.org/licenses/" ++ ci_data_license c |} in
  let '(st, creators, tools) := bump_creators (ci_creators c) (ci_namespace c) ci st [] [] in
  let st := with_cis st (set_nth ci {| c3_created := ci_created c; c3_created_by := creators; c3_created_using := tools;
                                       c3_data_license := $"https://spdx.org/licenses/" ++ ci_data_license c |} (b_cis st)) in
  Ok (new_object st (E3Document {| d3_id := ci_namespace c ++ $"#" ++ ci_id c; d3_name := ci_name c; d3_element := [];
                                   d3_root := []; d3_ci := ci; d3_comment := ci_doc_comment c;
                                   d3_namespaces := map fst maps; d3_imports := map snd maps |})).

(** an assignment to a field of the SpdxDocument object, or an append to one of its lists *)
Definition update_document (f : doc3 -> doc3) (addr : nat) (st : bstate) : bstate :=
  match nth_error (b_objs st) addr with
  | Some (E3Document d) => with_objs st (set_nth addr (E3Document (f d)) (b_objs st))
  | _ => st
  end.
Definition set_root (l : list pystr) (d : doc3) : doc3 :=
  {| d3_id := d3_id d; d3_name := d3_name d; d3_element := d3_element d; d3_root := l; d3_ci := d3_ci d;
     d3_comment := d3_comment d; d3_namespaces := d3_namespaces d; d3_imports := d3_imports d |}.
Definition set_elements (l : list pystr) (d : doc3) : doc3 :=
  {| d3_id := d3_id d; d3_name := d3_name d; d3_element := l; d3_root := d3_root d; d3_ci := d3_ci d;
     d3_comment := d3_comment d; d3_namespaces := d3_namespaces d; d3_imports := d3_imports d |}.
Definition append_import (m : extmap3) (d : doc3) : doc3 :=
  {| d3_id := d3_id d; d3_name := d3_name d; d3_element := d3_element d; d3_root := d3_root d; d3_ci := d3_ci d;
     d3_comment := d3_comment d; d3_namespaces := d3_namespaces d; d3_imports := d3_imports d ++ [m] |}.

(** package.py:34-40, file.py:24-30, snippet.py:28-34: an element of another document is imported; [doc]: the address
    of the SpdxDocument whose imports list is the argument *)
Definition import_external (id : pystr) (doc : nat) (st : bstate) : bstate :=
  if has_char #":" id then
    update_document (append_import {| em_id := id; em_verified := [];
                                      em_defining := Some (hd [] (split_on #":" id) ++ $":SPDXRef-DOCUMENT") |}) doc st
  else st.

(** bump_from_spdx2/bump_utils.py:10-17  handle_no_assertion_or_none *)
Definition handle_no_assertion_or_none (v : nn pystr) : option pystr := match v with NVal s => Some s | _ => None end.

(** package.py:57-61, file.py:36-40, snippet.py:37-41: the copyright text *)
Definition bump_copyright (v : option (nn pystr)) : option pystr := match v with Some (NVal s) => Some s | _ => None end.

(** package.py:117-131  external_ref_type_map *)
Inductive id_or_ref_type := IdType (n : pystr) | RefType (n : pystr).
Definition external_ref_type_map : list (pystr * option id_or_ref_type) :=
  [($"cpe22Type", Some (IdType $"CPE22")); ($"cpe23Type", Some (IdType $"CPE23"));
   ($"advisory", Some (RefType $"SECURITY_ADVISORY")); ($"fix", Some (RefType $"SECURITY_FIX")); ($"url", None);
   ($"swid", Some (IdType $"SWID")); ($"maven-central", None); ($"npm", None); ($"nuget", None); ($"bower", None);
   ($"purl", Some (IdType $"PURL")); ($"swh", Some (IdType $"SWHID")); ($"gitoid", Some (IdType $"GITOID"))].

(** package.py:134-155  bump_external_package_ref *)
Inductive id_or_ref := XRef (r : extref3) | XId (i : extid3).
Definition bump_external_package_ref (r : ext_pkg_ref) : option id_or_ref :=
  match assoc (er_type r) external_ref_type_map with
  | Some (Some (RefType n)) => Some (XRef {| xr_type := n; xr_locator := [er_locator r]; xr_comment := er_comment r |})
  | Some (Some (IdType n)) => Some (XId {| xi_type := n; xi_identifier := er_locator r; xi_comment := er_comment r |})
  | _ => None
  end.

(** package.py:70-76  exactly one purl reference, without a comment *)
Definition is_purl (r : ext_pkg_ref) : bool := str_eqb (er_type r) $"purl".
Definition single_purl (refs : list ext_pkg_ref) : option pystr :=
  match filter is_purl refs with
  | [r] => match er_comment r with None => Some (er_locator r) | Some _ => None end
  | _ => None
  end.

(** package.py:77-84  the loop over the external references *)
Fixpoint bump_external_refs (skip_purl : bool) (refs : list ext_pkg_ref) : list extref3 * list extid3 :=
  match refs with
  | [] => ([], [])
  | r :: refs' =>
      let (xs, is) := bump_external_refs skip_purl refs' in
      if skip_purl && is_purl r then (xs, is)
      else match bump_external_package_ref r with
           | Some (XRef x) => (x :: xs, is)
           | Some (XId i) => (xs, i :: is)
           | None => (xs, is)
           end
  end.

(** package.py:44-51  supplier and originator *)
Definition bump_optional_actor (a : option (na actor)) (ns : pystr) (st : bstate) : bstate * list pystr :=
  match a with
  | Some (AVal x) => let (st, id) := bump_actor x ns None st in (st, [id])
  | _ => (st, [])
  end.

(** the type check of the argument homepage : Optional[str] (spdx3/model/software/package.py:21, 52) *)
Definition check_homepage (h : option (nn pystr)) : result (option pystr) :=
  match h with
  | None => Ok None
  | Some (NVal s) => Ok (Some s)
  | Some _ => Raise (EConstructor [$"SetterError Package: homepage"])
  end.

(** package.py:26-114  bump_package *)
Definition bump_package (p : package) (ns : pystr) (refs : list ext_doc_ref) (doc : nat) (st : bstate) : result bstate :=
  do id <- get_full_element_spdx_id (pk_id p) ns refs;
  let st := import_external (pk_id p) doc st in
  let (st, supplied) := bump_optional_actor (pk_supplier p) ns st in
  let (st, originated) := bump_optional_actor (pk_originator p) ns st in
  do hashes <- map_result bump_checksum (pk_checksums p);
  let purl := single_purl (pk_refs p) in
  let (xrefs, xids) := bump_external_refs (match purl with Some _ => true | None => false end) (pk_refs p) in
  do purpose <- match pk_purpose p with
                | Some x => do n <- enum_member SoftwarePurpose (purpose_name x); Ok (Some n)
                | None => Ok None
                end;
  do homepage <- check_homepage (pk_homepage p);
  Ok (add_new st (E3Package
        {| p3_id := id; p3_name := pk_name p; p3_summary := pk_summary p; p3_description := pk_description p;
           p3_comment := pk_comment p; p3_verified := hashes; p3_extrefs := xrefs; p3_extids := xids;
           p3_originated := originated; p3_supplied := supplied; p3_built := pk_built p; p3_release := pk_release p;
           p3_valid_until := pk_valid_until p; p3_purpose := purpose; p3_concluded := None; p3_declared := None;
           p3_version := pk_version p; p3_download := handle_no_assertion_or_none (pk_download p); p3_purl := purl;
           p3_homepage := homepage; p3_source_info := pk_source_info p; p3_copyright := bump_copyright (pk_copyright p);
           p3_attribution := join $", " (pk_attribution p) |})).

(** bump_from_spdx2/file.py:16-56  bump_file *)
Definition bump_file (f : file) (ns : pystr) (refs : list ext_doc_ref) (doc : nat) (st : bstate) : result bstate :=
  do id <- get_full_element_spdx_id (fi_id f) ns refs;
  let st := import_external (fi_id f) doc st in
  do hashes <- map_result bump_checksum (fi_checksums f);
  Ok (add_new st (E3File {| f3_id := id; f3_name := fi_name f; f3_comment := fi_comment f; f3_verified := hashes;
                            f3_copyright := bump_copyright (fi_copyright f);
                            f3_attribution := join $", " (fi_attribution f) |})).

(** bump_from_spdx2/snippet.py:16-58  bump_snippet with bump_integer_range *)
Definition bump_snippet (s : snippet) (ns : pystr) (refs : list ext_doc_ref) (doc : nat) (st : bstate) : result bstate :=
  do id <- get_full_element_spdx_id (sn_id s) ns refs;
  let st := import_external (sn_id s) doc st in
  Ok (add_new st (E3Snippet {| s3_id := id; s3_name := sn_name s; s3_comment := sn_comment s;
                               s3_bytes := Some (sn_bytes s); s3_lines := sn_lines s;
                               s3_copyright := bump_copyright (sn_copyright s);
                               s3_attribution := join $", " (sn_attribution s) |})).

(** A loop whose body may raise *)
Fixpoint each {A} (f : A -> bstate -> result bstate) (l : list A) (st : bstate) : result bstate :=
  match l with
  | [] => Ok st
  | x :: l' => do st <- f x st; each f l' st
  end.

(** relationship.py:24-149  relationship_mapping: None for a class None; otherwise whether the class is
    SoftwareDependencyRelationship, the relationship type and the parameters *)
Record rparams := { rp_dependency : bool; rp_type : pystr; rp_swap : bool; rp_scope : option pystr;
                    rp_linkage : option pystr; rp_conditionality : option pystr }.
Definition plain (t : pystr) : option rparams :=
  Some {| rp_dependency := false; rp_type := t; rp_swap := false; rp_scope := None; rp_linkage := None;
          rp_conditionality := None |}.
Definition swapped (t : pystr) : option rparams :=
  Some {| rp_dependency := false; rp_type := t; rp_swap := true; rp_scope := None; rp_linkage := None;
          rp_conditionality := None |}.
Definition dependency (swap : bool) (scope linkage cond : option pystr) : option rparams :=
  Some {| rp_dependency := true; rp_type := $"DEPENDS_ON"; rp_swap := swap; rp_scope := scope; rp_linkage := linkage;
          rp_conditionality := cond |}.
Definition relationship_mapping (t : rel_type) : option rparams :=
  match t with
  | RT_AMENDS => plain $"AMENDS"
  | RT_ANCESTOR_OF => plain $"ANCESTOR"
  | RT_BUILD_DEPENDENCY_OF => dependency false (Some $"BUILD") (Some $"TOOL") None
  | RT_BUILD_TOOL_OF => dependency false (Some $"BUILD") (Some $"TOOL") None
  | RT_CONTAINED_BY => swapped $"CONTAINS"
  | RT_CONTAINS => plain $"CONTAINS"
  | RT_COPY_OF => plain $"COPY"
  | RT_DATA_FILE_OF => None
  | RT_DEPENDENCY_MANIFEST_OF => dependency false None None None
  | RT_DEPENDENCY_OF => dependency true None None None
  | RT_DEPENDS_ON => dependency false None None None
  | RT_DESCENDANT_OF => swapped $"ANCESTOR"
  | RT_DESCRIBED_BY => swapped $"DESCRIBES"
  | RT_DESCRIBES => plain $"DESCRIBES"
  | RT_DEV_DEPENDENCY_OF => dependency false (Some $"DEVELOPMENT") None None
  | RT_DEV_TOOL_OF => dependency false (Some $"DEVELOPMENT") (Some $"TOOL") None
  | RT_DISTRIBUTION_ARTIFACT => None
  | RT_DOCUMENTATION_OF => plain $"DOCUMENTATION"
  | RT_DYNAMIC_LINK => dependency false None (Some $"DYNAMIC") None
  | RT_EXAMPLE_OF => plain $"EXAMPLE"
  | RT_EXPANDED_FROM_ARCHIVE => plain $"EXPANDED_FROM_ARCHIVE"
  | RT_FILE_ADDED => plain $"FILE_ADDED"
  | RT_FILE_DELETED => plain $"FILE_DELETED"
  | RT_FILE_MODIFIED => plain $"FILE_MODIFIED"
  | RT_GENERATED_FROM => swapped $"GENERATES"
  | RT_GENERATES => plain $"GENERATES"
  | RT_HAS_PREREQUISITE => dependency false None None (Some $"PREREQUISITE")
  | RT_METAFILE_OF => plain $"METAFILE"
  | RT_OPTIONAL_COMPONENT_OF => None
  | RT_OPTIONAL_DEPENDENCY_OF => dependency false None None (Some $"OPTIONAL")
  | RT_OTHER => plain $"OTHER"
  | RT_PACKAGE_OF => dependency false None None None
  | RT_PATCH_APPLIED => swapped $"PATCH"
  | RT_PATCH_FOR => plain $"PATCH"
  | RT_PREREQUISITE_FOR => dependency false None None (Some $"PREREQUISITE")
  | RT_PROVIDED_DEPENDENCY_OF => dependency false (Some $"BUILD") None (Some $"PROVIDED")
  | RT_RUNTIME_DEPENDENCY_OF => dependency false (Some $"RUNTIME") None None
  | RT_STATIC_LINK => dependency false None (Some $"STATIC") None
  | RT_TEST_CASE_OF => plain $"TEST_CASE"
  | RT_TEST_DEPENDENCY_OF => dependency false (Some $"TEST") None None
  | RT_TEST_OF => plain $"TEST"
  | RT_TEST_TOOL_OF => dependency false (Some $"TEST") (Some $"TOOL") None
  | RT_VARIANT_OF => plain $"VARIANT"
  | RT_REQUIREMENT_DESCRIPTION_FOR => plain $"REQUIREMENT_FOR"
  | RT_SPECIFICATION_FOR => plain $"SPECIFICATION_FOR"
  end.

(** relationship.py:220-232  determine_completeness_and_to *)
Definition determine_completeness_and_to (related : nn pystr) : option pystr * list pystr :=
  match related with
  | NNoAssertion => (Some $"NOASSERTION", [])
  | NNone => (Some $"COMPLETE", [])
  | NVal i => (None, [i])
  end.

(** relationship.py:172-217  bump_relationship (the new object is returned as a value, bump_relationships stores it) *)
Definition bump_relationship (r : relationship) (ns : pystr) (counter : nat) : option rel3 :=
  let (completeness, to) := determine_completeness_and_to (re_related r) in
  let id := ns ++ $"#" ++ $"SPDXRef-Relationship-" ++ str_of_N (N.of_nat counter) in
  match relationship_mapping (re_type r) with
  | None => None
  | Some p =>
      let build from to :=
        let from := if rp_dependency p then re_id r else from in
        {| r3_id := id; r3_from := ns ++ $"#" ++ from; r3_type := rp_type p; r3_to := map (fun t => ns ++ $"#" ++ t) to;
           r3_comment := re_comment r; r3_completeness := completeness; r3_dependency := rp_dependency p;
           r3_scope := rp_scope p; r3_linkage := rp_linkage p; r3_conditionality := rp_conditionality p |} in
      if rp_swap p then
        match to with
        | [] => None
        | t :: _ => Some (build t [re_id r])
        end
      else Some (build (re_id r) to)
  end.

(** generated_relationships: Dict[Tuple[str, str], List[Relationship]] *)
Definition groups (A : Type) := list ((pystr * pystr) * list A).
(** relationship.py:161-163  setdefault(key, []).append(relationship) *)
Fixpoint group_append {A} (key : pystr * pystr) (a : A) (g : groups A) : groups A :=
  match g with
  | [] => [(key, [a])]
  | (k, l) :: g' =>
      if str_eqb (fst k) (fst key) && str_eqb (snd k) (snd key) then (k, l ++ [a]) :: g'
      else (k, l) :: group_append key a g'
  end.

(** relationship.py:157-163  the first loop *)
Fixpoint generate_relationships (rs : list relationship) (ns : pystr) (counter : nat) (st : bstate) (g : groups nat)
  : bstate * groups nat :=
  match rs with
  | [] => (st, g)
  | r :: rs' =>
      match bump_relationship r ns counter with
      | None => generate_relationships rs' ns (S counter) st g
      | Some x =>
          let (st, a) := new_object st (E3Relationship x) in
          generate_relationships rs' ns (S counter) st (group_append (r3_from x, r3_type x) a g)
      end
  end.

(** the relationship object at an address *)
Definition rel_at (st : bstate) (a : nat) : option rel3 :=
  match nth_error (b_objs st) a with Some (E3Relationship r) => Some r | _ => None end.

(** relationship.py:240-253  the loop of _merge_relationships_and_add_to_payload *)
Fixpoint merge_loop (l : list nat) (st : bstate) (to : list pystr) (completeness id : option pystr)
  : bstate * list pystr * option pystr * option pystr :=
  match l with
  | [] => (st, to, completeness, id)
  | a :: l' =>
      match rel_at st a with
      | None => merge_loop l' st to completeness id
      | Some r =>
          if truthy_opt (r3_comment r) then merge_loop l' (add_element st a) to completeness id
          else merge_loop l' st (to ++ r3_to r)
                          (match completeness with Some _ => completeness | None => r3_completeness r end)
                          (Some (r3_id r))
      end
  end.

(** relationship.py:255-258  the assignments to the object that the loop variable holds *)
Definition assign_merged (id : option pystr) (to : list pystr) (completeness : option pystr) (r : rel3) : rel3 :=
  {| r3_id := match id with Some i => i | None => r3_id r end; r3_from := r3_from r; r3_type := r3_type r; r3_to := to;
     r3_comment := None; r3_completeness := completeness; r3_dependency := r3_dependency r; r3_scope := r3_scope r;
     r3_linkage := r3_linkage r; r3_conditionality := r3_conditionality r |}.

(** relationship.py:235-259  _merge_relationships_and_add_to_payload.  If [to] is not empty, some relationship has set
    the id, so that the case id = None of [assign_merged] does not arise. *)
Definition merge_relationships (l : list nat) (st : bstate) : bstate :=
  let '(st, to, completeness, id) := merge_loop l st [] None None in
  match to, rev l with
  | _ :: _, last :: _ =>
      match rel_at st last with
      | Some r =>
          let st := with_objs st (set_nth last (E3Relationship (assign_merged id to completeness r)) (b_objs st)) in
          add_element st last
      | None => st
      end
  | _, _ => st
  end.

(** relationship.py:165-169  the second loop *)
Fixpoint add_groups (g : groups nat) (st : bstate) : bstate :=
  match g with
  | [] => st
  | (_, [a]) :: g' => add_groups g' (add_element st a)
  | (_, l) :: g' => add_groups g' (merge_relationships l st)
  end.

(** relationship.py:152-169  bump_relationships *)
Definition bump_relationships (rs : list relationship) (ns : pystr) (st : bstate) : bstate :=
  let (st, g) := generate_relationships rs ns 0 st [] in add_groups g st.

(** bump_from_spdx2/annotation.py:14-49  bump_annotation; [ci]: the address of the document's creation info, which is
    copied *)
Definition bump_annotation (a : annotation) (ci : nat) (ns : pystr) (counter : nat) (st : bstate) : result bstate :=
  match nth_error (b_cis st) ci with
  | None => Raise (EAttr $"creation_info")
  | Some c =>
      let (st, ci') := new_cinfo st {| c3_created := an_date a; c3_created_by := c3_created_by c;
                                       c3_created_using := c3_created_using c; c3_data_license := c3_data_license c |} in
      let (st, creator) := bump_actor (an_annotator a) ns (Some ci') st in
      let st := if is_agent (ac_type (an_annotator a)) then
                  with_cis st (set_nth ci' {| c3_created := an_date a; c3_created_by := [creator];
                                              c3_created_using := c3_created_using c;
                                              c3_data_license := c3_data_license c |} (b_cis st))
                else st in
      do t <- enum_member AnnotationType (annotation_type_name (an_type a));
      Ok (add_new st (E3Annotation {| n3_id := ns ++ $"#" ++ $"SPDXRef-Annotation-" ++ str_of_N (N.of_nat counter);
                                      n3_type := t; n3_subject := ns ++ $"#" ++ an_id a; n3_ci := ci';
                                      n3_statement := an_comment a |}))
  end.
Fixpoint bump_annotations (l : list annotation) (ci : nat) (ns : pystr) (counter : nat) (st : bstate) : result bstate :=
  match l with
  | [] => Ok st
  | a :: l' => do st <- bump_annotation a ci ns counter st; bump_annotations l' ci ns (S counter) st
  end.

(** str() of a relationship target (spdx_none.py:11, spdx_no_assertion.py:11) *)
Definition nn_text (v : nn pystr) : pystr := match v with NVal s => s | NNoAssertion => $"NOASSERTION" | NNone => $"NONE" end.

(** bump_from_spdx2/spdx_document.py:21-70  bump_spdx_document: the payload and the address of the SpdxDocument *)
Definition bump_spdx_document (d : document) : result (bstate * nat) :=
  let c := do_ci d in
  let ns := ci_namespace c in
  do (st, doc) <- bump_creation_info c {| b_objs := []; b_cis := []; b_map := [] |};
  let st := update_document (set_root (map (fun r => ns ++ $"#" ++ nn_text (re_related r))
                                          (filter_by_type_and_origin (do_relationships d) RT_DESCRIBES DOCUMENT_SPDX_ID)))
                            doc st in
  let ci := match nth_error (b_objs st) doc with Some (E3Document x) => d3_ci x | _ => O end in
  let doc_id := match nth_error (b_objs st) doc with Some e => e3_id e | _ => [] end in
  let st := add_element st doc in
  do st <- each (fun p => bump_package p ns (ci_refs c) doc) (do_packages d) st;
  do st <- each (fun f => bump_file f ns (ci_refs c) doc) (do_files d) st;
  do st <- each (fun s => bump_snippet s ns (ci_refs c) doc) (do_snippets d) st;
  let st := bump_relationships (do_relationships d) ns st in
  do st <- bump_annotations (do_annotations d) ci ns 0 st;
  let st := update_document (set_elements (filter (fun i => negb (str_eqb i doc_id)) (map fst (b_map st)))) doc st in
  Ok (st, doc).

(** bump_from_spdx2/license_expression.py; the classes of spdx3/model/licensing *)
Inductive any_license :=
| ListedLicense (id name text : pystr)
| CustomLicense (id name text : pystr)
| ConjunctiveLicenseSet (members : list any_license)
| DisjunctiveLicenseSet (members : list any_license)
| WithAdditionOperator (subject : any_license) (addition : license_addition)
with license_addition :=
| ListedLicenseException (id name text : pystr)
| CustomLicenseAddition (id name text : pystr).
Inductive license_field := NoneLicense | NoAssertionLicense | LicenseInfo (l : any_license).

Section License.
  Variable O : oracles.
  Variable infos : list extracted.

  (** str() of an optional string, and of Optional[Union[str, SpdxNoAssertion]] *)
  Definition text_of_opt (o : option pystr) : pystr := match o with Some s => s | None => $"None" end.
  Definition text_of_name (o : option (na pystr)) : pystr :=
    match o with Some (AVal s) => s | Some ANoAssertion => $"NOASSERTION" | None => $"None" end.

  (** license_expression.py:61-62, 80-81: the first extracted licensing info with this id *)
  Definition info_for (key : pystr) : option extracted :=
    find (fun e => match el_id e with Some i => str_eqb i key | None => false end) infos.

  (** license_expression.py:57-71  bump_license_expression of a LicenseSymbol, whose obj is its key *)
  Definition bump_symbol (key : pystr) : any_license :=
    match o_invalid_symbols O (LSym key) with
    | [] => ListedLicense key key $"blank"
    | _ => match info_for key with
           | Some e => CustomLicense (text_of_opt (el_id e)) (text_of_name (el_name e)) (text_of_opt (el_text e))
           | None => CustomLicense key [] []
           end
    end.

  (** license_expression.py:74-89  bump_license_exception *)
  Definition bump_license_exception (key : pystr) : license_addition :=
    match o_invalid_symbols O (LSym key) with
    | [] => ListedLicenseException key [] []
    | _ => match info_for key with
           | Some e => CustomLicenseAddition (text_of_opt (el_id e)) (text_of_name (el_name e)) (text_of_opt (el_text e))
           | None => CustomLicenseAddition key [] []
           end
    end.

  (** license_expression.py:38-71  bump_license_expression; the license of a WITH is a symbol, so that the ValueError of
      line 52 is not reached *)
  Fixpoint bump_license_expression (e : lexpr) : any_license :=
    match e with
    | LAnd args => ConjunctiveLicenseSet (map bump_license_expression args)
    | LOr args => DisjunctiveLicenseSet (map bump_license_expression args)
    | LWith l x => WithAdditionOperator (bump_symbol l) (bump_license_exception x)
    | LSym k => bump_symbol k
    end.

  (** license_expression.py:26-35  bump_license_expression_or_none_or_no_assertion *)
  Definition bump_license_field (l : license) : license_field :=
    match l with
    | NNone => NoneLicense
    | NNoAssertion => NoAssertionLicense
    | NVal e => LicenseInfo (bump_license_expression e)
    end.
End License.
