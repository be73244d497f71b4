(** Document level helpers: spdx/document_utils.py, spdx/spdx_element_utils.py, spdx/model/relationship_filters.py. *)
From Verif Require Import Py Data.

(** document_utils.py:11-15  get_contained_spdx_element_ids *)
Definition get_contained_spdx_element_ids (d : document) : list pystr :=
  map fi_id (do_files d) ++ map pk_id (do_packages d) ++ map sn_id (do_snippets d).

(** Union[Package, File, Snippet] *)
Inductive element := EPackage (p : package) | EFile (f : file) | ESnippet (s : snippet).
Definition element_id (e : element) : pystr :=
  match e with EPackage p => pk_id p | EFile f => fi_id f | ESnippet s => sn_id s end.

(** Building a dict from key/value pairs in order ({k: v for ..}, dict.update) *)
Definition dict_update {A} (l : list (pystr * A)) (kvs : list (pystr * A)) : list (pystr * A) :=
  fold_left (fun acc kv => dict_set (fst kv) (snd kv) acc) kvs l.

(** document_utils.py:25-30  get_contained_spdx_elements *)
Definition get_contained_spdx_elements (d : document) : list (pystr * element) :=
  let m := dict_update [] (map (fun p => (pk_id p, EPackage p)) (do_packages d)) in
  let m := dict_update m (map (fun f => (fi_id f, EFile f)) (do_files d)) in
  dict_update m (map (fun s => (sn_id s, ESnippet s)) (do_snippets d)).

(** document_utils.py:18-22  get_element_from_spdx_id *)
Definition get_element_from_spdx_id (d : document) (id : pystr) : option element :=
  assoc id (get_contained_spdx_elements d).

(** spdx_element_utils.py:19-28  get_element_type_from_spdx_id (the id may also be SpdxNone/SpdxNoAssertion) *)
Inductive element_type := TPackage | TFile | TSnippet.
Definition get_element_type_from_spdx_id (id : nn pystr) (d : document) : option element_type :=
  match id with
  | NVal i =>
      if str_in i (map pk_id (do_packages d)) then Some TPackage
      else if str_in i (map fi_id (do_files d)) then Some TFile
      else if str_in i (map sn_id (do_snippets d)) then Some TSnippet
      else None
  | _ => None
  end.

(** spdx_element_utils.py:45-48  the first reference with this id *)
Definition find_ext_uri (ext_id : pystr) (refs : list ext_doc_ref) : option pystr :=
  match find (fun r => str_eqb (edr_id r) ext_id) refs with
  | Some r => Some (edr_uri r)
  | None => None
  end.

(** spdx_element_utils.py:31-53  get_full_element_spdx_id (the argument is the element's id) *)
Definition get_full_element_spdx_id (id ns : pystr) (refs : list ext_doc_ref) : result pystr :=
  if negb (has_char #":" id) then Ok (ns ++ $"#" ++ id)
  else match split_on #":" id with
       | [ext_id; local_id] =>
           match find_ext_uri ext_id refs with
           | None | Some [] =>
               Raise (EValue ($"external id " ++ ext_id ++ $" not found in external document references"))
           | Some uri => Ok (uri ++ $"#" ++ local_id)
           end
       | _ => Raise (EValue $"too many values to unpack (expected 2)")
       end.

(** document_utils.py:51-57  create_list_without_duplicates; [eqb] is the == of the elements *)
Definition create_list_without_duplicates {A} (eqb : A -> A -> bool) (l : list A) : list A :=
  fold_left (fun acc x => if existsb (eqb x) acc then acc else acc ++ [x]) l [].

(** == of the list elements that occur in the data model.  License expressions compare with the equality of the
    license-expression library, which is a parameter. *)
Definition license_eqb (leq : lexpr -> lexpr -> bool) (a b : license) : bool :=
  match a, b with
  | NVal x, NVal y => leq x y
  | NNoAssertion, NNoAssertion => true
  | NNone, NNone => true
  | _, _ => false
  end.

(** document_utils.py:33-48  create_document_without_duplicates: all list-valued fields of the creation info and of
    every file, package, snippet and extracted licensing info; the lists of the document itself are kept. *)
Section Dedup.
  Variable leq : lexpr -> lexpr -> bool.
  Definition dd_str := create_list_without_duplicates str_eqb.
  Definition dd_lic := create_list_without_duplicates (license_eqb leq).
  Definition dd_ck := create_list_without_duplicates (eqb_of checksum_eq_dec).

  Definition dedup_ci (c : creation_info) : creation_info :=
    {| ci_version := ci_version c; ci_id := ci_id c; ci_name := ci_name c; ci_namespace := ci_namespace c;
       ci_creators := create_list_without_duplicates (eqb_of actor_eq_dec) (ci_creators c);
       ci_created := ci_created c; ci_creator_comment := ci_creator_comment c;
       ci_data_license := ci_data_license c;
       ci_refs := create_list_without_duplicates (eqb_of ext_doc_ref_eq_dec) (ci_refs c);
       ci_list_version := ci_list_version c; ci_doc_comment := ci_doc_comment c |}.

  Definition dedup_file (f : file) : file :=
    {| fi_name := fi_name f; fi_id := fi_id f; fi_checksums := dd_ck (fi_checksums f);
       fi_types := create_list_without_duplicates file_type_eqb (fi_types f);
       fi_concluded := fi_concluded f; fi_info := dd_lic (fi_info f); fi_lic_comment := fi_lic_comment f;
       fi_copyright := fi_copyright f; fi_comment := fi_comment f; fi_notice := fi_notice f;
       fi_contributors := dd_str (fi_contributors f); fi_attribution := dd_str (fi_attribution f) |}.

  Definition dedup_package (p : package) : package :=
    {| pk_id := pk_id p; pk_name := pk_name p; pk_download := pk_download p; pk_version := pk_version p;
       pk_file_name := pk_file_name p; pk_supplier := pk_supplier p; pk_originator := pk_originator p;
       pk_files_analyzed := pk_files_analyzed p; pk_verif := pk_verif p; pk_checksums := dd_ck (pk_checksums p);
       pk_homepage := pk_homepage p; pk_source_info := pk_source_info p; pk_concluded := pk_concluded p;
       pk_info := dd_lic (pk_info p); pk_declared := pk_declared p; pk_lic_comment := pk_lic_comment p;
       pk_copyright := pk_copyright p; pk_summary := pk_summary p; pk_description := pk_description p;
       pk_comment := pk_comment p;
       pk_refs := create_list_without_duplicates (eqb_of ext_pkg_ref_eq_dec) (pk_refs p);
       pk_attribution := dd_str (pk_attribution p); pk_purpose := pk_purpose p; pk_release := pk_release p;
       pk_built := pk_built p; pk_valid_until := pk_valid_until p |}.

  Definition dedup_snippet (s : snippet) : snippet :=
    {| sn_id := sn_id s; sn_file := sn_file s; sn_bytes := sn_bytes s; sn_lines := sn_lines s;
       sn_concluded := sn_concluded s; sn_info := dd_lic (sn_info s); sn_lic_comment := sn_lic_comment s;
       sn_copyright := sn_copyright s; sn_comment := sn_comment s; sn_name := sn_name s;
       sn_attribution := dd_str (sn_attribution s) |}.

  Definition dedup_extracted (e : extracted) : extracted :=
    {| el_id := el_id e; el_text := el_text e; el_name := el_name e; el_xrefs := dd_str (el_xrefs e);
       el_comment := el_comment e |}.

  Definition create_document_without_duplicates (d : document) : document :=
    {| do_ci := dedup_ci (do_ci d); do_packages := map dedup_package (do_packages d);
       do_files := map dedup_file (do_files d); do_snippets := map dedup_snippet (do_snippets d);
       do_annotations := do_annotations d; do_relationships := do_relationships d;
       do_extracted := map dedup_extracted (do_extracted d) |}.
End Dedup.

(** [x == id] where x may be SpdxNone/SpdxNoAssertion *)
Definition nn_is (x : nn pystr) (id : pystr) : bool := match x with NVal i => str_eqb i id | _ => false end.

(** relationship_filters.py:33-40  filter_by_type_and_target *)
Definition filter_by_type_and_target (rs : list relationship) (t : rel_type) (target : pystr) : list relationship :=
  filter (fun r => rel_type_eqb (re_type r) t && nn_is (re_related r) target) rs.

(** relationship_filters.py:43-50  filter_by_type_and_origin *)
Definition filter_by_type_and_origin (rs : list relationship) (t : rel_type) (origin : pystr) : list relationship :=
  filter (fun r => rel_type_eqb (re_type r) t && str_eqb (re_id r) origin) rs.

(** [x in ids] where x may be SpdxNone/SpdxNoAssertion *)
Definition nn_in (x : nn pystr) (ids : list pystr) : bool := match x with NVal i => str_in i ids | _ => false end.

(** relationship_filters.py:9-18  find_package_contains_file_relationships *)
Definition find_package_contains_file_relationships (d : document) (p : package) : list relationship :=
  filter (fun r => nn_in (re_related r) (map fi_id (do_files d)))
         (filter_by_type_and_origin (do_relationships d) RT_CONTAINS (pk_id p)).

(** relationship_filters.py:21-30  find_file_contained_by_package_relationships *)
Definition find_file_contained_by_package_relationships (d : document) (p : package) : list relationship :=
  filter (fun r => str_in (re_id r) (map fi_id (do_files d)))
         (filter_by_type_and_target (do_relationships d) RT_CONTAINED_BY (pk_id p)).

(** spdx_element_utils.py:80-91  calculate_file_checksum.  The hash object is a state with an update function and
    a final hexdigest; [read n] on the remaining content returns at most n bytes. *)
Section Hash.
  Variable state : Type.
  Variable init : checksum_alg -> state.
  Variable update : state -> list N -> state.
  Variable hexdigest : state -> pystr.
  (** file system: content of a file, or FileNotFoundError *)
  Variable fs : pystr -> option (list N).
  (** str.encode("utf-8") *)
  Variable encode : pystr -> list N.

  Definition BUFFER_SIZE : N := 65536%N.
  (** the loop of lines 85-89; the fuel is an upper bound for the number of reads, see [hash_chunks_fuel] *)
  Fixpoint hash_chunks (fuel : nat) (content : list N) (st : state) : option state :=
    match fuel with
    | O => None
    | S k =>
        let data := firstn (N.to_nat BUFFER_SIZE) content in
        let rest := skipn (N.to_nat BUFFER_SIZE) content in
        match data with
        | [] => Some st
        | _ => hash_chunks k rest (update st data)
        end
    end.
  Definition hash_file_loop (content : list N) (st : state) : option state :=
    hash_chunks (S (List.length content)) content st.

  Definition calculate_file_checksum (name : pystr) (alg : checksum_alg) : result pystr :=
    match fs name with
    | None => Raise (EFileNotFound name)
    | Some content =>
        match hash_file_loop content (init alg) with
        | Some st => Ok (hexdigest st)
        | None => Raise (EValue $"out of fuel")
        end
    end.

  (** spdx_element_utils.py:59-62  the last SHA1 value of a file *)
  Definition sha1_of (f : file) : option pystr :=
    fold_left (fun acc c => if checksum_alg_eqb (ck_alg c) CA_SHA1 then Some (ck_value c) else acc)
              (fi_checksums f) None.

  (** spdx_element_utils.py:58-71 *)
  Definition file_hash (f : file) : result pystr :=
    if truthy_opt (sha1_of f) then Ok (match sha1_of f with Some v => v | None => [] end)
    else calculate_file_checksum (fi_name f) CA_SHA1.

  (** Code point order of Python strings *)
  Fixpoint str_leb (a b : pystr) : bool :=
    match a, b with
    | [], _ => true
    | _ :: _, [] => false
    | x :: a', y :: b' => (x <? y)%N || ((x =? y)%N && str_leb a' b')
    end.
  Fixpoint insert (x : pystr) (l : list pystr) : list pystr :=
    match l with
    | [] => [x]
    | y :: l' => if str_leb x y then x :: l else y :: insert x l'
    end.
  (** list.sort() *)
  Fixpoint sort (l : list pystr) : list pystr :=
    match l with [] => [] | x :: l' => insert x (sort l') end.

  Fixpoint map_result {A B} (f : A -> result B) (l : list A) : result (list B) :=
    match l with
    | [] => Ok []
    | x :: l' => do y <- f x; do ys <- map_result f l'; Ok (y :: ys)
    end.

  (** spdx_element_utils.py:56-77  calculate_package_verification_code *)
  Definition calculate_package_verification_code (files : list file) : result verif_code :=
    do hashes <- map_result file_hash files;
    Ok {| vc_value := hexdigest (update (init CA_SHA1) (encode (join [] (sort hashes)))); vc_excluded := [] |}.
End Hash.
