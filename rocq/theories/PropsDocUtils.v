(** Property theorems: document utilities (C20, C22-C26). *)
From Verif Require Import Py Data DocUtils DocUtilsSpec Samples.
From Verif Require DocUtilsFacts.
From Coq Require Import Sorting.Permutation.
From Coq Require Sorting.Sorted.

(** ** C20: lists *)
(** The result consists of the first occurrences, in order. *)
Theorem C20_first_occurrences :
  forall (A : Type) (eqb : A -> A -> bool) (same : A -> A -> Prop) (l : list A),
    (forall x y, eqb x y = true <-> same x y) -> FirstOccurrences same l (create_list_without_duplicates eqb l).
Proof. intros A. exact DocUtilsFacts.dedup_FO. Qed.
Print Assumptions C20_first_occurrences.
(** That determines it. *)
Theorem C20_first_occurrences_unique :
  forall (A : Type) (same : A -> A -> Prop) (l l1 l2 : list A),
    FirstOccurrences same l l1 -> FirstOccurrences same l l2 -> l1 = l2.
Proof. intros A. exact DocUtilsFacts.FO_functional. Qed.
Print Assumptions C20_first_occurrences_unique.
Theorem C20_order_kept :
  forall (A : Type) (eqb : A -> A -> bool), (forall a b, eqb a b = true <-> a = b) ->
  forall l, Subseq (create_list_without_duplicates eqb l) l.
Proof. intros A. exact DocUtilsFacts.dedup_Subseq. Qed.
Print Assumptions C20_order_kept.
Theorem C20_nothing_lost_nothing_added :
  forall (A : Type) (eqb : A -> A -> bool), (forall a b, eqb a b = true <-> a = b) ->
  forall l x, In x (create_list_without_duplicates eqb l) <-> In x l.
Proof. intros A. exact DocUtilsFacts.dedup_In. Qed.
Print Assumptions C20_nothing_lost_nothing_added.
Theorem C20_no_duplicates_left :
  forall (A : Type) (eqb : A -> A -> bool), (forall a b, eqb a b = true <-> a = b) ->
  forall l, NoDup (create_list_without_duplicates eqb l).
Proof. intros A. exact DocUtilsFacts.dedup_NoDup. Qed.
Print Assumptions C20_no_duplicates_left.
Theorem C20_identity_without_duplicates :
  forall (A : Type) (eqb : A -> A -> bool), (forall a b, eqb a b = true <-> a = b) ->
  forall l, NoDup l -> create_list_without_duplicates eqb l = l.
Proof. intros A. exact DocUtilsFacts.dedup_id. Qed.
Print Assumptions C20_identity_without_duplicates.
Example C20_sample : create_list_without_duplicates str_eqb [$"b"; $"a"; $"b"; $"c"; $"a"] = [$"b"; $"a"; $"c"].
Proof. reflexivity. Qed.

(** ** C20: documents.  Every list of every element is reduced to its first occurrences, everything else is unchanged. *)
Theorem C20_documents :
  forall (leq : lexpr -> lexpr -> bool) (d : document),
    DedupDocument (fun a b => leq a b = true) d (create_document_without_duplicates leq d).
Proof. exact DocUtilsFacts.dedup_document. Qed.
Print Assumptions C20_documents.
Theorem C20_documents_idempotent :
  forall (leq : lexpr -> lexpr -> bool), (forall a b, leq a b = true <-> a = b) ->
  forall d, create_document_without_duplicates leq (create_document_without_duplicates leq d)
            = create_document_without_duplicates leq d.
Proof. exact DocUtilsFacts.dedup_document_idem. Qed.
Print Assumptions C20_documents_idempotent.
Example C20_documents_sample : fi_contributors (dedup_file lexpr_eqb
    {| fi_name := $"./a"; fi_id := $"SPDXRef-F"; fi_checksums := []; fi_types := []; fi_concluded := None; fi_info := [];
       fi_lic_comment := None; fi_copyright := None; fi_comment := None; fi_notice := None;
       fi_contributors := [$"J"; $"K"; $"J"]; fi_attribution := [] |}) = [$"J"; $"K"].
Proof. reflexivity. Qed.

(** ** C22 *)
(** The hash object has states, an update and a hexdigest; an update with a and then b is an update with a ++ b.  The
    code succeeds with the digest of the concatenated sorted file hashes, and only with that. *)
Theorem C22_verification_code :
  forall (state : Type) (init : checksum_alg -> state) (update : state -> list N -> state) (hexdigest : state -> pystr)
         (fs : pystr -> option (list N)) (encode : pystr -> list N),
    (forall s a b, update (update s a) b = update s (a ++ b)) -> (forall s, update s [] = s) ->
    forall files c,
    let digest bytes := hexdigest (update (init CA_SHA1) bytes) in
    calculate_package_verification_code state init update hexdigest fs encode files = Ok c <->
    exists hashes sorted, Forall2 (FileHash digest fs) files hashes
      /\ Permutation hashes sorted /\ StronglySorted StrLe sorted
      /\ c = {| vc_value := digest (encode (List.concat sorted)); vc_excluded := [] |}.
Proof. exact DocUtilsFacts.verif_code_spec. Qed.
Print Assumptions C22_verification_code.
Theorem C22_order_of_files_irrelevant :
  forall (state : Type) (init : checksum_alg -> state) (update : state -> list N -> state) (hexdigest : state -> pystr)
         (fs : pystr -> option (list N)) (encode : pystr -> list N),
    (forall s a b, update (update s a) b = update s (a ++ b)) -> (forall s, update s [] = s) ->
    forall files files', Permutation files files' ->
    let calc := calculate_package_verification_code state init update hexdigest fs encode in
    (forall c, calc files = Ok c <-> calc files' = Ok c)
    /\ ((exists e, calc files = Raise e) <-> (exists e, calc files' = Raise e)).
Proof. exact DocUtilsFacts.verif_code_perm. Qed.
Print Assumptions C22_order_of_files_irrelevant.
Theorem C22_fails_only_for_missing_hashes :
  forall (state : Type) (init : checksum_alg -> state) (update : state -> list N -> state) (hexdigest : state -> pystr)
         (fs : pystr -> option (list N)) (encode : pystr -> list N),
    (forall s a b, update (update s a) b = update s (a ++ b)) -> (forall s, update s [] = s) ->
    forall files,
    (exists e, calculate_package_verification_code state init update hexdigest fs encode files = Raise e) <->
    exists f, In f files /\ fs (fi_name f) = None /\ (sha1_values f = [] \/ exists vs, sha1_values f = vs ++ [[]]).
Proof. exact DocUtilsFacts.verif_code_fails. Qed.
Print Assumptions C22_fails_only_for_missing_hashes.
(** a toy hash (the state collects the bytes) on the sample files *)
Example C22_sample :
  let calc := calculate_package_verification_code (list N) (fun _ => []) (@app N) (fun s => s) (fun _ => None) (fun s => s) in
  calc (do_files (sample_document $"SPDX-2.3")) = Ok {| vc_value := sha1 ++ sha1; vc_excluded := [] |}.
Proof. reflexivity. Qed.

(** ** C23 *)
Theorem C23_chunked_hashing :
  forall (state : Type) (init : checksum_alg -> state) (update : state -> list N -> state) (hexdigest : state -> pystr)
         (fs : pystr -> option (list N)),
    (forall s a b, update (update s a) b = update s (a ++ b)) -> (forall s, update s [] = s) ->
    forall name alg,
    calculate_file_checksum state init update hexdigest fs name alg
    = match fs name with
      | Some content => Ok (hexdigest (update (init alg) content))
      | None => Raise (EFileNotFound name)
      end.
Proof. exact DocUtilsFacts.file_checksum_whole. Qed.
Print Assumptions C23_chunked_hashing.
Example C23_sample : (forall (s a b : list N), (s ++ a) ++ b = s ++ (a ++ b)) /\ (forall s : list N, s ++ [] = s).
Proof. split; intros; [symmetry; apply app_assoc|apply app_nil_r]. Qed.

(** ** C24 *)
Theorem C24_lookup_sound :
  forall d id e, get_element_from_spdx_id d id = Some e -> In e (all_elements d) /\ element_id e = id.
Proof. exact DocUtilsFacts.get_element_sound. Qed.
Print Assumptions C24_lookup_sound.
Theorem C24_lookup_complete :
  forall d id, (exists e, get_element_from_spdx_id d id = Some e) <-> exists e, In e (all_elements d) /\ element_id e = id.
Proof. exact DocUtilsFacts.get_element_iff. Qed.
Print Assumptions C24_lookup_complete.
Theorem C24_lookup_exact_for_distinct_ids :
  forall d id e, NoDup (map element_id (all_elements d)) -> In e (all_elements d) -> element_id e = id ->
    get_element_from_spdx_id d id = Some e.
Proof. exact DocUtilsFacts.get_element_unique. Qed.
Print Assumptions C24_lookup_exact_for_distinct_ids.
Theorem C24_type_lookup_agrees_for_distinct_ids :
  forall d id, NoDup (map element_id (all_elements d)) ->
    get_element_type_from_spdx_id (NVal id) d = option_map type_of (get_element_from_spdx_id d id).
Proof. exact DocUtilsFacts.get_type_agrees. Qed.
Print Assumptions C24_type_lookup_agrees_for_distinct_ids.
(** Without distinct ids the two lookups may disagree. *)
Theorem C24_type_lookup_agrees_refuted :
  exists d id, get_element_type_from_spdx_id (NVal id) d <> option_map type_of (get_element_from_spdx_id d id).
Proof.
  exists {| do_ci := sample_ci $"SPDX-2.3"; do_packages := [sample_package $"SPDXRef-X"]; do_files := [sample_file $"SPDXRef-X"];
            do_snippets := []; do_annotations := []; do_relationships := []; do_extracted := [] |}, $"SPDXRef-X".
  vm_compute. discriminate.
Qed.
Print Assumptions C24_type_lookup_agrees_refuted.
Example C24_sample : NoDup (map element_id (all_elements (sample_document $"SPDX-2.3")))
  /\ option_map element_id (get_element_from_spdx_id (sample_document $"SPDX-2.3") $"SPDXRef-File-2") = Some $"SPDXRef-File-2".
Proof.
  split; [|reflexivity]. vm_compute. repeat constructor; cbn; intuition discriminate.
Qed.

(** ** C25 *)
Theorem C25_internal_ids : forall id ns refs, ~ In #":" id -> get_full_element_spdx_id id ns refs = Ok (ns ++ $"#" ++ id).
Proof. exact DocUtilsFacts.full_id_internal. Qed.
Print Assumptions C25_internal_ids.
(** The first reference with the id decides. *)
Theorem C25_external_ids :
  forall a b ns refs1 r refs2,
    ~ In #":" a -> ~ In #":" b -> edr_id r = a -> ~ In a (map edr_id refs1) -> edr_uri r <> [] ->
    get_full_element_spdx_id (a ++ $":" ++ b) ns (refs1 ++ r :: refs2) = Ok (edr_uri r ++ $"#" ++ b).
Proof. exact DocUtilsFacts.full_id_external. Qed.
Print Assumptions C25_external_ids.
Theorem C25_unknown_documents_rejected :
  forall a b ns refs, ~ In #":" a -> ~ In #":" b -> ~ In a (map edr_id refs) ->
    get_full_element_spdx_id (a ++ $":" ++ b) ns refs
    = Raise (EValue ($"external id " ++ a ++ $" not found in external document references")).
Proof. exact DocUtilsFacts.full_id_unknown. Qed.
Print Assumptions C25_unknown_documents_rejected.
Theorem C25_injective :
  forall i j ns refs, ~ In #":" i -> ~ In #":" j ->
    get_full_element_spdx_id i ns refs = get_full_element_spdx_id j ns refs -> i = j.
Proof. exact DocUtilsFacts.full_id_inj. Qed.
Print Assumptions C25_injective.
Example C25_sample :
  get_full_element_spdx_id $"DocumentRef-ext:SPDXRef-1" $"https://doc" [sample_ext] = Ok $"https://example.com/ext#SPDXRef-1"
  /\ get_full_element_spdx_id $"SPDXRef-1" $"https://doc" [sample_ext] = Ok $"https://doc#SPDXRef-1".
Proof. vm_compute. auto. Qed.

(** ** C26 *)
Theorem C26_by_type_and_target :
  forall rs t i, Selected (fun r => re_type r = t /\ re_related r = NVal i) rs (filter_by_type_and_target rs t i).
Proof. exact DocUtilsFacts.filter_target_sel. Qed.
Print Assumptions C26_by_type_and_target.
Theorem C26_by_type_and_origin :
  forall rs t i, Selected (fun r => re_type r = t /\ re_id r = i) rs (filter_by_type_and_origin rs t i).
Proof. exact DocUtilsFacts.filter_origin_sel. Qed.
Print Assumptions C26_by_type_and_origin.
Theorem C26_package_contains_file :
  forall d p, Selected (fun r => re_type r = RT_CONTAINS /\ re_id r = pk_id p
                                 /\ exists f, In f (do_files d) /\ re_related r = NVal (fi_id f))
                       (do_relationships d) (find_package_contains_file_relationships d p).
Proof. exact DocUtilsFacts.find_contains_sel. Qed.
Print Assumptions C26_package_contains_file.
Theorem C26_file_contained_by_package :
  forall d p, Selected (fun r => re_type r = RT_CONTAINED_BY /\ re_related r = NVal (pk_id p)
                                 /\ exists f, In f (do_files d) /\ re_id r = fi_id f)
                       (do_relationships d) (find_file_contained_by_package_relationships d p).
Proof. exact DocUtilsFacts.find_contained_by_sel. Qed.
Print Assumptions C26_file_contained_by_package.
Example C26_sample :
  find_package_contains_file_relationships (sample_document $"SPDX-2.3") (sample_package $"SPDXRef-Package-A")
  = [rel $"SPDXRef-Package-A" RT_CONTAINS $"SPDXRef-File-1"].
Proof. reflexivity. Qed.
