(** C37-C40, C52-C55: the conversion of SPDX 2 documents to SPDX 3. *)
From Verif Require Import Py Data Oracles DocUtils Validation Payload Bump BumpSpec Samples BumpFacts BumpRels BumpFinal BumpMore.

(** * C37: the payload is a map *)

(** For a payload made without an argument: whatever the calls of add_element, get_element returns the element of the
    last call with that id, and raises KeyError if there was none. *)
Theorem C37_payload_is_a_map :
  forall (h : dicts) (calls : list (pystr * nat)) (id : pystr) (h' : dicts) (p : nat), payload_init h None = (h', p) ->
  match payload_get (adds h' p calls) p id with
  | Ok e => LastAdded id e calls
  | Raise x => x = EKey id /\ ~ In id (map fst calls)
  end.
Proof. exact BumpFacts.payload_new. Qed.
Print Assumptions C37_payload_is_a_map.
(** Elements added to one payload do not show up in another dictionary. *)
Theorem C37_payloads_are_separate :
  forall (h : dicts) (p q : nat) (calls : list (pystr * nat)) (id : pystr), q <> p ->
  payload_get (adds h p calls) q id = payload_get h q id.
Proof. exact BumpFacts.payload_isolated. Qed.
Print Assumptions C37_payloads_are_separate.
(** get_full_map has each id once, and exactly the ids that were added. *)
Theorem C37_full_map :
  forall (h : dicts) (calls : list (pystr * nat)) (h' : dicts) (p : nat), payload_init h None = (h', p) ->
  NoDup (map fst (payload_full_map (adds h' p calls) p)) /\
  (forall id, In id (map fst (payload_full_map (adds h' p calls) p)) <-> In id (map fst calls)).
Proof. exact BumpFacts.payload_order. Qed.
Print Assumptions C37_full_map.
(** A payload made from the caller's dictionary shares it if and only if the dictionary is not empty: what is added to
    the payload is then visible in the dictionary; an empty dictionary stays empty. *)
Theorem C37_shared_dictionary :
  forall (h : dicts) (a : nat), dict_at h a <> [] -> payload_init h (Some a) = (h, a).
Proof. exact BumpFacts.payload_shared. Qed.
Print Assumptions C37_shared_dictionary.
Theorem C37_empty_dictionary_not_shared :
  forall (h : dicts) (a : nat) (calls : list (pystr * nat)) (h' : dicts) (p : nat),
  dict_at h a = [] -> payload_init h (Some a) = (h', p) -> a < List.length h -> dict_at (adds h' p calls) a = [].
Proof. exact BumpFacts.payload_not_shared. Qed.
Print Assumptions C37_empty_dictionary_not_shared.
Example C37_sample : let (h, p) := payload_init [[($"x", 7)]] None in
  payload_get (adds h p [($"a", 1); ($"b", 2); ($"a", 3)]) p $"a" = Ok 3
  /\ payload_get (adds h p [($"a", 1); ($"b", 2); ($"a", 3)]) p $"c" = Raise (EKey $"c")
  /\ payload_get (adds h p [($"a", 1); ($"b", 2); ($"a", 3)]) 0 $"x" = Ok 7
  /\ LastAdded $"a" 3 [($"a", 1); ($"b", 2); ($"a", 3)].
Proof.
  repeat (split; [reflexivity|]). apply (last_added _ _ _ [($"a", 1); ($"b", 2)] []); [reflexivity|intros []].
Qed.
Example C37_sample_shared : dict_at [[($"x", 7)]; []] 0 <> [] /\ dict_at [[($"x", 7)]; []] 1 = [].
Proof. split; [discriminate|reflexivity]. Qed.

(** * C38: direction and end points of relationships *)

(** A relationship "A t B" with a type that keeps its direction. *)
Theorem C38_forward :
  forall (r : relationship) (ns : pystr) (i : nat) (t b : pystr),
  type3 (re_type r) = Some t -> ~ turned_around (re_type r) -> re_related r = NVal b ->
  exists x, bump_relationship r ns i = Some x /\ r3_id x = relationship_id ns i /\ r3_from x = here ns (re_id r)
            /\ r3_type x = t /\ r3_to x = [here ns b] /\ r3_comment x = re_comment r /\ r3_completeness x = None.
Proof. exact BumpFacts.bump_forward. Qed.
Print Assumptions C38_forward.
(** A relationship with a type that changes its direction, other than DEPENDENCY_OF. *)
Theorem C38_turned :
  forall (r : relationship) (ns : pystr) (i : nat) (t b : pystr),
  type3 (re_type r) = Some t -> turned_around (re_type r) -> re_type r <> RT_DEPENDENCY_OF -> re_related r = NVal b ->
  exists x, bump_relationship r ns i = Some x /\ r3_id x = relationship_id ns i /\ r3_from x = here ns b
            /\ r3_type x = t /\ r3_to x = [here ns (re_id r)] /\ r3_comment x = re_comment r /\ r3_completeness x = None.
Proof. exact BumpFacts.bump_turned. Qed.
Print Assumptions C38_turned.
(** NONE and NOASSERTION: no target, and the completeness says which of the two it was. *)
Theorem C38_no_target :
  forall (r : relationship) (ns : pystr) (i : nat) (t : pystr), type3 (re_type r) = Some t -> ~ turned_around (re_type r) ->
  re_related r = NNone \/ re_related r = NNoAssertion ->
  exists x, bump_relationship r ns i = Some x /\ r3_id x = relationship_id ns i /\ r3_from x = here ns (re_id r)
            /\ r3_type x = t /\ r3_to x = [] /\ r3_comment x = re_comment r
            /\ r3_completeness x = Some (match re_related r with NNone => $"COMPLETE" | _ => $"NOASSERTION" end).
Proof. exact BumpFacts.bump_no_target. Qed.
Print Assumptions C38_no_target.
(** A relationship disappears if its type has no counterpart, ... *)
Theorem C38_dropped_types :
  forall (r : relationship) (ns : pystr) (i : nat), type3 (re_type r) = None -> bump_relationship r ns i = None.
Proof. exact BumpFacts.bump_dropped. Qed.
Print Assumptions C38_dropped_types.
(** ... or if it would have to be turned around and has no target. *)
Theorem C38_dropped_turned :
  forall (r : relationship) (ns : pystr) (i : nat), turned_around (re_type r) ->
  re_related r = NNone \/ re_related r = NNoAssertion -> bump_relationship r ns i = None.
Proof. exact BumpFacts.bump_turned_no_target. Qed.
Print Assumptions C38_dropped_turned.
(** The end points of all relationships in the payload are ids that some relationship of the document mentions. *)
Theorem C38_end_points :
  forall (d : document) (st : bstate) (doc : nat), bump_spdx_document d = Ok (st, doc) ->
  (forall r e, In r (do_relationships d) -> In e (ends r) -> In e (ci_id (do_ci d) :: element_ids d) /\ ~ In #":" e) ->
  forall i m t, get_element st i = Ok (E3Relationship m) -> In t (r3_from m :: r3_to m) -> exists e, get_element st t = Ok e.
Proof. exact BumpMore.end_points_there. Qed.
Print Assumptions C38_end_points.
(** DEPENDENCY_OF: both ends are the first element. *)
Theorem C38_dependency_of :
  forall (a b : pystr) (c : option pystr) (ns : pystr) (i : nat),
  exists x, bump_relationship {| re_id := a; re_type := RT_DEPENDENCY_OF; re_related := NVal b; re_comment := c |} ns i = Some x
            /\ r3_from x = here ns a /\ r3_to x = [here ns a].
Proof. exact BumpFacts.bump_dependency_of. Qed.
Print Assumptions C38_dependency_of.
(** "A DEPENDENCY_OF B" becomes "A DEPENDS_ON A": nothing in the payload relates to B. *)
Theorem C38_dependency_of_refuted :
  exists d st doc a b, In (rel a RT_DEPENDENCY_OF b) (do_relationships d) /\ bump_spdx_document d = Ok (st, doc)
    /\ (exists i m, get_element st i = Ok (E3Relationship m) /\ r3_from m = here (ci_namespace (do_ci d)) a
                    /\ r3_to m = [here (ci_namespace (do_ci d)) a])
    /\ forall i m, get_element st i = Ok (E3Relationship m) ->
         r3_from m <> here (ci_namespace (do_ci d)) b /\ ~ In (here (ci_namespace (do_ci d)) b) (r3_to m).
Proof.
  set (d := plain_document [rel $"SPDXRef-Package-A" RT_DEPENDENCY_OF $"SPDXRef-Package-B"]).
  exists d, (bumped d), (bumped_doc d), $"SPDXRef-Package-A", $"SPDXRef-Package-B".
  split; [left; reflexivity|]. split; [apply bumped_is; vm_compute; reflexivity|]. split.
  - exists (relationship_id sample_ns 0). eexists. split; [vm_compute; reflexivity|]. split; reflexivity.
  - set (bad := here (ci_namespace (do_ci d)) $"SPDXRef-Package-B").
    assert (A : all_elements (bumped d) (fun _ e => match e with E3Relationship m => negb (str_in bad (r3_from m :: r3_to m)) | _ => true end) = true) by (vm_compute; reflexivity).
    intros i m G. apply (all_elements_get _ _ _ _ A) in G. cbv beta iota in G. clear A. apply negb_true_iff, PyFacts.str_in_false in G. cbn in G. tauto.
Qed.
Print Assumptions C38_dependency_of_refuted.
(** "A BUILD_DEPENDENCY_OF B" says that B depends on A; the payload says that A depends on B.  The same holds for the
    other types that name a dependency. *)
Theorem C38_direction_of_dependencies_refuted :
  forall (t : rel_type) (a b ns : pystr) (c : option pystr) (i : nat), names_a_dependency t -> t <> RT_DEPENDENCY_OF ->
  exists x, bump_relationship {| re_id := a; re_type := t; re_related := NVal b; re_comment := c |} ns i = Some x
    /\ r3_type x = $"DEPENDS_ON" /\ r3_from x = here ns a /\ r3_to x = [here ns b].
Proof.
  intros t a b ns c i H N. unfold names_a_dependency in H.
  destruct t; cbn in H; try (exfalso; intuition discriminate); try congruence; eexists; (split; [reflexivity|]); repeat split.
Qed.
Print Assumptions C38_direction_of_dependencies_refuted.
Example C38_sample :
  type3 RT_CONTAINS = Some $"CONTAINS" /\ ~ turned_around RT_CONTAINS /\ turned_around RT_CONTAINED_BY
  /\ type3 RT_CONTAINED_BY = Some $"CONTAINS" /\ RT_CONTAINED_BY <> RT_DEPENDENCY_OF /\ type3 RT_DATA_FILE_OF = None
  /\ names_a_dependency RT_BUILD_DEPENDENCY_OF.
Proof. unfold turned_around, names_a_dependency. cbn. intuition discriminate. Qed.
Example C38_sample_document : let d := plain_document [rel $"SPDXRef-DOCUMENT" RT_DESCRIBES $"SPDXRef-Package-A"; rel $"SPDXRef-File-1" RT_CONTAINED_BY $"SPDXRef-Package-A"] in
  (exists st doc, bump_spdx_document d = Ok (st, doc)) /\
  (forall r e, In r (do_relationships d) -> In e (ends r) -> In e (ci_id (do_ci d) :: element_ids d) /\ ~ In #":" e).
Proof.
  split; [eexists; eexists; apply bumped_is; vm_compute; reflexivity|].
  intros r e [<-|[<-|[]]] [<-|[<-|[]]]; (split; [vm_compute; tauto|]); apply PyFacts.has_char_false; reflexivity.
Qed.

(** * C39: merging relationships *)

(** A relationship whose origin and type no other relationship has is in the payload as it is. *)
Theorem C39_alone :
  forall (d : document) (st : bstate) (doc : nat), bump_spdx_document d = Ok (st, doc) ->
  forall (l1 : list rel3) (x : rel3) (l2 : list rel3), converted d = l1 ++ x :: l2 ->
  (forall y, In y (l1 ++ l2) -> ~ same_group x y) -> get_element st (r3_id x) = Ok (E3Relationship x).
Proof. exact BumpFinal.doc_alone. Qed.
Print Assumptions C39_alone.
(** A relationship with a comment is in the payload as it is, unless it is the last one of its group. *)
Theorem C39_comments_kept :
  forall (d : document) (st : bstate) (doc : nat), bump_spdx_document d = Ok (st, doc) ->
  forall (l1 : list rel3) (x : rel3) (l2 : list rel3), converted d = l1 ++ x :: l2 ->
  commented x -> (exists y, In y l2 /\ same_group x y) -> get_element st (r3_id x) = Ok (E3Relationship x).
Proof. exact BumpFinal.doc_comment_kept. Qed.
Print Assumptions C39_comments_kept.
(** It is also kept if it is the last one, provided that no relationship of the group without comment has a target. *)
Theorem C39_comments_kept_without_targets :
  forall (d : document) (st : bstate) (doc : nat), bump_spdx_document d = Ok (st, doc) ->
  forall (x : rel3), In x (converted d) -> commented x -> group_targets x (converted d) = [] ->
  get_element st (r3_id x) = Ok (E3Relationship x).
Proof. exact BumpFinal.doc_commented_no_targets. Qed.
Print Assumptions C39_comments_kept_without_targets.
(** Every target of a relationship without comment is a target of a relationship of the payload with the same origin
    and type. *)
Theorem C39_targets_kept :
  forall (d : document) (st : bstate) (doc : nat), bump_spdx_document d = Ok (st, doc) ->
  forall (x : rel3) (t : pystr), In x (converted d) -> ~ commented x -> In t (r3_to x) ->
  exists m, get_element st (r3_id m) = Ok (E3Relationship m) /\ same_group x m /\ In t (r3_to m).
Proof. exact BumpFinal.doc_target_kept. Qed.
Print Assumptions C39_targets_kept.
(** The last relationship of a group of several becomes the merged one: under its id, and under the id of the merged
    one, there is a relationship whose targets are exactly those of the members without comment, in order. *)
Theorem C39_merged :
  forall (d : document) (st : bstate) (doc : nat), bump_spdx_document d = Ok (st, doc) ->
  forall (l1 : list rel3) (x : rel3) (l2 : list rel3), converted d = l1 ++ x :: l2 ->
  (forall y, In y l2 -> ~ same_group x y) -> (exists y, In y l1 /\ same_group x y) ->
  group_targets x (converted d) <> [] ->
  exists m, get_element st (r3_id x) = Ok (E3Relationship m) /\ get_element st (r3_id m) = Ok (E3Relationship m)
            /\ same_group x m /\ r3_to m = group_targets x (converted d) /\ r3_comment m = None
            /\ r3_scope m = r3_scope x /\ r3_linkage m = r3_linkage x /\ r3_conditionality m = r3_conditionality x.
Proof. exact BumpFinal.doc_last_becomes. Qed.
Print Assumptions C39_merged.
(** Nothing is invented: origin, type and every target of a relationship of the payload are those of a relationship of
    the document. *)
Theorem C39_nothing_invented :
  forall (d : document) (st : bstate) (doc : nat), bump_spdx_document d = Ok (st, doc) ->
  forall (i : pystr) (m : rel3), get_element st i = Ok (E3Relationship m) ->
  (exists x, In x (converted d) /\ same_group x m) /\
  (forall t, In t (r3_to m) -> exists x, In x (converted d) /\ same_group x m /\ In t (r3_to x)).
Proof. exact BumpFinal.doc_nothing_invented. Qed.
Print Assumptions C39_nothing_invented.
(** Members of a group that has neither targets nor comments disappear. *)
Theorem C39_nothing_kept :
  forall (d : document) (st : bstate) (doc : nat), bump_spdx_document d = Ok (st, doc) ->
  forall (x : rel3), In x (converted d) -> ~ commented x -> (exists y, In y (converted d) /\ y <> x /\ same_group x y) ->
  group_targets x (converted d) = [] -> forall m, get_element st (r3_id x) <> Ok (E3Relationship m).
Proof. exact BumpFinal.doc_nothing_kept. Qed.
Print Assumptions C39_nothing_kept.
(** The last commented relationship of a group loses its comment and its target. *)
Definition C39_last_commented : document :=
  plain_document [rel $"SPDXRef-Package-A" RT_CONTAINS $"SPDXRef-File-1"; rel_why $"SPDXRef-Package-A" RT_CONTAINS $"SPDXRef-File-2"].
Theorem C39_last_comment_refuted :
  exists d st doc x, In x (converted d) /\ commented x /\ bump_spdx_document d = Ok (st, doc)
    /\ (forall i m, get_element st i = Ok (E3Relationship m) -> r3_comment m <> r3_comment x)
    /\ exists t, In t (r3_to x) /\ forall i m, get_element st i = Ok (E3Relationship m) -> ~ In t (r3_to m).
Proof.
  exists C39_last_commented, (bumped C39_last_commented), (bumped_doc C39_last_commented), (nth 1 (converted C39_last_commented) (hd (Build_rel3 [] [] [] [] None None false None None None) [])).
  split; [right; left; reflexivity|]. split; [do 2 eexists; reflexivity|]. split; [apply bumped_is; vm_compute; reflexivity|]. split.
  - assert (A : all_elements (bumped C39_last_commented) (fun _ e => match e with E3Relationship m => match r3_comment m with None => true | _ => false end | _ => true end) = true) by (vm_compute; reflexivity).
    intros i m G. apply (all_elements_get _ _ _ _ A) in G. cbv beta iota in G. clear A.
    match goal with |- _ <> r3_comment ?x => assert (Cx : r3_comment x = Some $"why") by (vm_compute; reflexivity); rewrite Cx end.
    destruct (r3_comment m); discriminate.
  - exists (here sample_ns $"SPDXRef-File-2"). split; [left; reflexivity|].
    assert (A : all_elements (bumped C39_last_commented) (fun _ e => match e with E3Relationship m => negb (str_in (here sample_ns $"SPDXRef-File-2") (r3_to m)) | _ => true end) = true) by (vm_compute; reflexivity).
    intros i m G. apply (all_elements_get _ _ _ _ A) in G. cbv beta iota in G. clear A. apply negb_true_iff, PyFacts.str_in_false in G. exact G.
Qed.
Print Assumptions C39_last_comment_refuted.
(** In that case an element of the payload is stored under an id that is not its own. *)
Theorem C39_own_id_refuted :
  exists d st doc i e, bump_spdx_document d = Ok (st, doc) /\ get_element st i = Ok e /\ e3_id e <> i.
Proof.
  exists C39_last_commented, (bumped C39_last_commented), (bumped_doc C39_last_commented), (relationship_id sample_ns 1). eexists.
  split; [apply bumped_is; vm_compute; reflexivity|]. split; [vm_compute; reflexivity|]. vm_compute. discriminate.
Qed.
Print Assumptions C39_own_id_refuted.
(** Two relationships to NONE and NOASSERTION disappear altogether. *)
Theorem C39_none_group_refuted :
  exists d st doc x, In x (converted d) /\ bump_spdx_document d = Ok (st, doc)
    /\ forall i m, get_element st i <> Ok (E3Relationship m).
Proof.
  set (d := plain_document [rel_no $"SPDXRef-Package-A" RT_DEPENDS_ON NNone; rel_no $"SPDXRef-Package-A" RT_DEPENDS_ON NNoAssertion]).
  exists d, (bumped d), (bumped_doc d), (hd (Build_rel3 [] [] [] [] None None false None None None) (converted d)).
  split; [left; reflexivity|]. split; [apply bumped_is; vm_compute; reflexivity|].
  assert (A : all_elements (bumped d) (fun _ e => match e with E3Relationship _ => false | _ => true end) = true) by (vm_compute; reflexivity).
  intros i m G. apply (all_elements_get _ _ _ _ A) in G. cbv beta iota in G. clear A. discriminate.
Qed.
Print Assumptions C39_none_group_refuted.
(** A group of three, with a comment in the middle, beside a relationship that is alone. *)
Definition C39_document : document :=
  plain_document [rel $"SPDXRef-Package-A" RT_CONTAINS $"SPDXRef-File-1"; rel_why $"SPDXRef-Package-A" RT_CONTAINS $"SPDXRef-File-2";
                  rel $"SPDXRef-DOCUMENT" RT_DESCRIBES $"SPDXRef-Package-A"; rel $"SPDXRef-Snippet-1" RT_CONTAINED_BY $"SPDXRef-Package-A"].
Example C39_sample_no_targets : let d := plain_document [rel_no $"SPDXRef-Package-A" RT_CONTAINS NNone; {| re_id := $"SPDXRef-Package-A"; re_type := RT_CONTAINS; re_related := NNoAssertion; re_comment := Some $"why" |}] in
  exists x1 x2, converted d = [x1; x2] /\ commented x2 /\ ~ commented x1 /\ same_group x1 x2 /\ x2 <> x1 /\ group_targets x2 (converted d) = [].
Proof.
  do 2 eexists. split; [reflexivity|]. split; [do 2 eexists; reflexivity|]. split; [intros (c & s & X); discriminate|]. split; [split; reflexivity|].
  split; [discriminate|]. vm_compute. reflexivity.
Qed.
Example C39_sample : (exists st doc, bump_spdx_document C39_document = Ok (st, doc))
  /\ exists x1 x2 x3 x4, converted C39_document = [x1; x2; x3; x4]
  /\ (forall y, In y ([x1; x2] ++ [x4]) -> ~ same_group x3 y)
  /\ commented x2 /\ same_group x2 x4 /\ ~ commented x1 /\ same_group x4 x1
  /\ group_targets x4 (converted C39_document) = [here sample_ns $"SPDXRef-File-1"; here sample_ns $"SPDXRef-Snippet-1"].
Proof.
  split; [eexists; eexists; apply bumped_is; vm_compute; reflexivity|]. do 4 eexists. split; [reflexivity|]. split.
  - intros y [<-|[<-|[<-|[]]]] [X _]; vm_compute in X; discriminate.
  - split; [do 2 eexists; reflexivity|]. split; [split; reflexivity|]. split; [intros (c & s & X); discriminate|]. split; [split; reflexivity|].
    vm_compute. reflexivity.
Qed.

(** * C40: checksums and license expressions *)

(** The algorithm of every checksum has a counterpart; the value is kept. *)
Theorem C40_checksums :
  forall (c : checksum), bump_checksum c = Ok {| h3_alg := hash_name (ck_alg c); h3_value := ck_value c |}
                         /\ In (hash_name (ck_alg c)) HashAlgorithm.
Proof. exact (fun c => conj (BumpFacts.bump_checksum_is c) (BumpFacts.hash_name_known (ck_alg c))). Qed.
Print Assumptions C40_checksums.
(** Different algorithms stay different. *)
Theorem C40_algorithms_distinct :
  forall (a b : checksum_alg), hash_name a = hash_name b -> a = b.
Proof. exact BumpFacts.hash_name_injective. Qed.
Print Assumptions C40_algorithms_distinct.
(** The SPDX 3 license has the structure of the expression: conjunctions, disjunctions, WITH, and for every symbol a
    listed license, or a custom license with name and text of the first extracted licensing info for it. *)
Theorem C40_licenses :
  forall (O : oracles) (infos : list extracted) (e : lexpr), Means O infos e (bump_license_expression O infos e).
Proof. exact BumpFacts.bump_license_means. Qed.
Print Assumptions C40_licenses.
(** Different expressions become different licenses. *)
Theorem C40_licenses_distinct :
  forall (O : oracles) (infos : list extracted) (e e' : lexpr),
  bump_license_expression O infos e = bump_license_expression O infos e' -> e = e'.
Proof. exact BumpFacts.bump_license_injective. Qed.
Print Assumptions C40_licenses_distinct.
Example C40_sample : bump_license_expression sample_oracles [sample_extracted] (LAnd [LSym $"MIT"; LOr [LSym $"LicenseRef-1"; LWith $"GPL-2.0" $"LicenseRef-x"]])
  = ConjunctiveLicenseSet [ListedLicense $"MIT" $"MIT" $"blank";
      DisjunctiveLicenseSet [CustomLicense $"LicenseRef-1" $"My License" $"license text";
        WithAdditionOperator (ListedLicense $"GPL-2.0" $"GPL-2.0" $"blank") (CustomLicenseAddition $"LicenseRef-x" [] [])]].
Proof. vm_compute. reflexivity. Qed.
Example C40_sample_hash : bump_checksum {| ck_alg := CA_BLAKE2B_256; ck_value := $"ab" |} = Ok {| h3_alg := $"BLAKE2B256"; h3_value := $"ab" |}
  /\ hash_name CA_ADLER32 = $"OTHER".
Proof. split; vm_compute; reflexivity. Qed.

(** * C52: packages, files, snippets and annotations *)

(** Every package, file and snippet is in the payload under its full id with its contents, if the full ids are different
    and the id is not one that the conversion makes up. *)
Theorem C52_packages :
  forall (d : document) (st : bstate) (doc : nat), bump_spdx_document d = Ok (st, doc) ->
  let ns := ci_namespace (do_ci d) in
  forall (ids : list pystr) (p : package) (i : pystr), FullIds d ids -> NoDup ids -> In p (do_packages d) ->
  get_full_element_spdx_id (pk_id p) ns (ci_refs (do_ci d)) = Ok i -> ~ made_up ns i ->
  exists x, get_element st i = Ok (E3Package x) /\ p3_id x = i /\ PackageSays ns p x /\ p3_concluded x = None /\ p3_declared x = None
    /\ (forall k, In k (p3_supplied x ++ p3_originated x) -> exists e, get_element st k = Ok e).
Proof. exact BumpFinal.package_there. Qed.
Print Assumptions C52_packages.
Theorem C52_files :
  forall (d : document) (st : bstate) (doc : nat), bump_spdx_document d = Ok (st, doc) ->
  let ns := ci_namespace (do_ci d) in
  forall (ids : list pystr) (f : file) (i : pystr), FullIds d ids -> NoDup ids -> In f (do_files d) ->
  get_full_element_spdx_id (fi_id f) ns (ci_refs (do_ci d)) = Ok i -> ~ made_up ns i ->
  exists x, get_element st i = Ok (E3File x) /\ f3_id x = i /\ FileSays f x.
Proof. exact BumpFinal.file_there. Qed.
Print Assumptions C52_files.
Theorem C52_snippets :
  forall (d : document) (st : bstate) (doc : nat), bump_spdx_document d = Ok (st, doc) ->
  let ns := ci_namespace (do_ci d) in
  forall (ids : list pystr) (s : snippet) (i : pystr), FullIds d ids -> NoDup ids -> In s (do_snippets d) ->
  get_full_element_spdx_id (sn_id s) ns (ci_refs (do_ci d)) = Ok i -> ~ made_up ns i ->
  exists x, get_element st i = Ok (E3Snippet x) /\ s3_id x = i /\ SnippetSays s x.
Proof. exact BumpFinal.snippet_there. Qed.
Print Assumptions C52_snippets.
(** Every annotation is in the payload, with its own creation info, whatever the ids of the other elements are. *)
Theorem C52_annotations :
  forall (d : document) (st : bstate) (doc : nat), bump_spdx_document d = Ok (st, doc) ->
  let ns := ci_namespace (do_ci d) in
  forall (j : nat) (a : annotation), nth_error (do_annotations d) j = Some a ->
  exists x, get_element st (annotation_id ns j) = Ok (E3Annotation x) /\ n3_id x = annotation_id ns j
    /\ n3_type x = annotation_type_name (an_type a) /\ n3_subject x = here ns (an_id a) /\ n3_statement x = an_comment a
    /\ nth_error (b_cis st) (n3_ci x) = Some (annotation_cinfo ns a (document_cinfo d))
    /\ (exists e, get_element st (actor_id ns (an_annotator a)) = Ok e).
Proof. exact BumpFinal.annotation_there. Qed.
Print Assumptions C52_annotations.
(** Nothing else is in the payload. *)
Theorem C52_nothing_else :
  forall (d : document) (st : bstate) (doc : nat), bump_spdx_document d = Ok (st, doc) ->
  forall (i : pystr) (e : element3), get_element st i = Ok e -> ComesFrom d i e.
Proof. exact BumpFinal.payload_origin. Qed.
Print Assumptions C52_nothing_else.
(** A package whose id the conversion makes up for a relationship is lost. *)
Theorem C52_made_up_id_refuted :
  exists d st doc p, In p (do_packages d) /\ bump_spdx_document d = Ok (st, doc)
    /\ NoDup (element_ids d) /\ (exists x, get_element st (here (ci_namespace (do_ci d)) (pk_id p)) = Ok (E3Relationship x)).
Proof.
  set (d0 := plain_document [rel $"SPDXRef-DOCUMENT" RT_DESCRIBES $"SPDXRef-Relationship-0"]).
  set (p := plain_package $"SPDXRef-Relationship-0").
  set (d := {| do_ci := do_ci d0; do_packages := [p]; do_files := []; do_snippets := []; do_annotations := []; do_relationships := do_relationships d0; do_extracted := [] |}).
  exists d, (bumped d), (bumped_doc d), p. split; [left; reflexivity|]. split; [apply bumped_is; vm_compute; reflexivity|].
  split; [constructor; [intros []|constructor]|]. eexists. vm_compute. reflexivity.
Qed.
Print Assumptions C52_made_up_id_refuted.
(** The license of a package is lost: no package of a payload has one. *)
Theorem C52_licenses_refuted :
  exists d st doc p, In p (do_packages d) /\ pk_concluded p = Some (NVal (LSym $"MIT")) /\ bump_spdx_document d = Ok (st, doc)
    /\ forall i x, get_element st i = Ok (E3Package x) -> p3_concluded x = None /\ p3_declared x = None.
Proof.
  set (d := plain_document []). exists d, (bumped d), (bumped_doc d), (plain_package $"SPDXRef-Package-A").
  split; [left; reflexivity|]. split; [reflexivity|]. split; [apply bumped_is; vm_compute; reflexivity|].
  assert (A : all_elements (bumped d) (fun _ e => match e with E3Package x => match p3_concluded x, p3_declared x with None, None => true | _, _ => false end | _ => true end) = true) by (vm_compute; reflexivity).
  intros i x G. apply (all_elements_get _ _ _ _ A) in G. cbv beta iota in G. clear A. destruct (p3_concluded x), (p3_declared x); try discriminate. auto.
Qed.
Print Assumptions C52_licenses_refuted.
Example C52_sample : exists ids, FullIds C39_document ids /\ NoDup ids /\ List.length ids = 5
  /\ forall i, In i ids -> ~ made_up (ci_namespace (do_ci C39_document)) i.
Proof.
  exists (map (here sample_ns) (element_ids C39_document)). split; [repeat constructor|]. split; [|split; [reflexivity|]].
  - repeat (apply NoDup_cons; [apply PyFacts.str_in_false; vm_compute; reflexivity|]); apply NoDup_nil.
  - intros i Hi M. destruct M as [[j E]|[j E]]; cbn in Hi; repeat (destruct Hi as [<-|Hi]; [vm_compute in E; discriminate|]); destruct Hi.
Qed.

(** * C53: the SpdxDocument *)

(** The document is in the payload with its name, comment, creation info, external document references and root
    elements, and its elements are exactly the ids of all other elements of the payload, each once. *)
Theorem C53_document :
  forall (d : document) (st : bstate) (doc : nat), bump_spdx_document d = Ok (st, doc) ->
  let ns := ci_namespace (do_ci d) in
  forall (ids : list pystr), FullIds d ids -> ~ In (document_id d) ids -> ~ made_up ns (document_id d) ->
  exists x, get_element st (document_id d) = Ok (E3Document x) /\ nth_error (b_objs st) doc = Some (E3Document x)
    /\ d3_id x = document_id d /\ d3_name x = ci_name (do_ci d) /\ d3_comment x = ci_doc_comment (do_ci d)
    /\ d3_root x = document_root d /\ d3_namespaces x = refs_namespaces (ci_refs (do_ci d))
    /\ d3_imports x = refs_imports (ci_refs (do_ci d)) ++ flat_map import_of (element_ids d)
    /\ nth_error (b_cis st) (d3_ci x) = Some (document_cinfo d)
    /\ NoDup (d3_element x) /\ (forall i, In i (d3_element x) <-> i <> document_id d /\ exists e, get_element st i = Ok e).
Proof. exact BumpFinal.document_there. Qed.
Print Assumptions C53_document.
(** Every element of the document can be found in the payload under its full id. *)
Theorem C53_elements_found :
  forall (d : document) (st : bstate) (doc : nat), bump_spdx_document d = Ok (st, doc) ->
  exists ids, FullIds d ids /\ forall i, In i ids -> exists e, get_element st i = Ok e.
Proof. exact BumpFinal.ids_there. Qed.
Print Assumptions C53_elements_found.
(** A relationship to an element of another document points to an id that is neither in the payload nor imported, also
    if the document is valid. *)
Theorem C53_external_elements_refuted :
  exists d st doc i m t x, validate_full_spdx_document sample_oracles d None = [] /\ bump_spdx_document d = Ok (st, doc)
    /\ get_element st i = Ok (E3Relationship m) /\ In t (r3_to m) /\ get_element st t = Raise (EKey t)
    /\ nth_error (b_objs st) doc = Some (E3Document x) /\ ~ In t (map em_id (d3_imports x)).
Proof.
  set (d := plain_document [rel $"SPDXRef-DOCUMENT" RT_DESCRIBES $"SPDXRef-Package-A"; rel $"SPDXRef-Package-B" RT_DEPENDS_ON $"DocumentRef-ext:SPDXRef-Package"]).
  exists d, (bumped d), (bumped_doc d), (relationship_id sample_ns 1). eexists. exists (here sample_ns $"DocumentRef-ext:SPDXRef-Package"). eexists.
  split; [vm_compute; reflexivity|]. split; [apply bumped_is; vm_compute; reflexivity|]. split; [vm_compute; reflexivity|].
  split; [left; reflexivity|]. split; [vm_compute; reflexivity|]. split; [vm_compute; reflexivity|].
  apply PyFacts.str_in_false. vm_compute. reflexivity.
Qed.
Print Assumptions C53_external_elements_refuted.
Example C53_sample : ~ In (document_id C39_document) (map (here sample_ns) (element_ids C39_document))
  /\ ~ made_up (ci_namespace (do_ci C39_document)) (document_id C39_document)
  /\ document_root C39_document = [here sample_ns $"SPDXRef-Package-A"].
Proof.
  split; [apply PyFacts.str_in_false; vm_compute; reflexivity|]. split; [|reflexivity].
  intros [[j E]|[j E]]; vm_compute in E; discriminate.
Qed.

(** * C54: actors *)

(** Every creator is in the payload under the id that the creation info lists; the first creator with an id is there
    with its kind, name and e-mail address. *)
Theorem C54_creators_found :
  forall (d : document) (st : bstate) (doc : nat), bump_spdx_document d = Ok (st, doc) ->
  let ns := ci_namespace (do_ci d) in
  forall (a : actor), In a (ci_creators (do_ci d)) -> exists e, get_element st (actor_id ns a) = Ok e.
Proof. exact BumpFinal.creator_there. Qed.
Print Assumptions C54_creators_found.
Theorem C54_first_creator :
  forall (d : document) (st : bstate) (doc : nat), bump_spdx_document d = Ok (st, doc) ->
  let ns := ci_namespace (do_ci d) in
  forall (ids : list pystr) (l1 : list actor) (a : actor) (l2 : list actor),
  FullIds d ids -> ~ In (actor_id ns a) ids -> actor_id ns a <> document_id d ->
  ci_creators (do_ci d) = l1 ++ a :: l2 -> (forall b, In b l1 -> actor_id ns b <> actor_id ns a) ->
  exists x, get_element st (actor_id ns a) = Ok (E3Actor x) /\ ActorSays a (Some 0) x.
Proof. exact BumpFinal.first_creator. Qed.
Print Assumptions C54_first_creator.
(** A creator with the same id as an earlier one is lost, also if it is an organization and the other one a person. *)
Theorem C54_same_id_refuted :
  exists d st doc b, In b (ci_creators (do_ci d)) /\ bump_spdx_document d = Ok (st, doc)
    /\ forall i x, get_element st i = Ok (E3Actor x) -> a3_kind x <> ac_type b.
Proof.
  set (c := sample_ci $"SPDX-2.3").
  set (b := {| ac_type := AT_ORGANIZATION; ac_name := $"JaneDoe"; ac_email := Some $"jane@example.com" |}).
  set (d := {| do_ci := {| ci_version := ci_version c; ci_id := ci_id c; ci_name := ci_name c; ci_namespace := ci_namespace c;
                 ci_creators := [sample_person; b]; ci_created := ci_created c; ci_creator_comment := None; ci_data_license := ci_data_license c;
                 ci_refs := []; ci_list_version := None; ci_doc_comment := None |};
               do_packages := []; do_files := []; do_snippets := []; do_annotations := []; do_relationships := []; do_extracted := [] |}).
  exists d, (bumped d), (bumped_doc d), b. split; [right; left; reflexivity|]. split; [apply bumped_is; vm_compute; reflexivity|].
  assert (A : all_elements (bumped d) (fun _ e => match e with E3Actor x => match a3_kind x with AT_ORGANIZATION => false | _ => true end | _ => true end) = true) by (vm_compute; reflexivity).
  intros i x G. apply (all_elements_get _ _ _ _ A) in G. cbv beta iota in G. clear A. intro X. rewrite X in G. discriminate.
Qed.
Print Assumptions C54_same_id_refuted.
Example C54_sample : let ns := ci_namespace (do_ci C39_document) in
  ci_creators (do_ci C39_document) = [sample_person] ++ sample_tool :: []
  /\ (forall b, In b [sample_person] -> actor_id ns b <> actor_id ns sample_tool) /\ actor_id ns sample_tool <> document_id C39_document
  /\ ~ In (actor_id ns sample_tool) (map (here sample_ns) (element_ids C39_document)).
Proof.
  split; [reflexivity|]. split; [intros b [<-|[]]; vm_compute; discriminate|]. split; [vm_compute; discriminate|].
  apply PyFacts.str_in_false. vm_compute. reflexivity.
Qed.

(** * C55: when the conversion succeeds *)
Theorem C55_succeeds_iff :
  forall (d : document), (exists st doc, bump_spdx_document d = Ok (st, doc)) <-> Convertible d.
Proof. exact BumpFinal.bump_ok. Qed.
Print Assumptions C55_succeeds_iff.
(** Ids without a colon can always be resolved. *)
Theorem C55_internal_ids :
  forall (d : document), (forall i, In i (element_ids d) -> ~ In #":" i) ->
  (forall p, In p (do_packages d) -> pk_homepage p <> Some NNone /\ pk_homepage p <> Some NNoAssertion) ->
  exists st doc, bump_spdx_document d = Ok (st, doc).
Proof. exact BumpMore.internal_convertible. Qed.
Print Assumptions C55_internal_ids.
(** A valid document with a homepage of NONE cannot be converted: the constructor of the SPDX 3 package rejects it. *)
Theorem C55_valid_documents_refuted :
  exists d ms, validate_full_spdx_document sample_oracles d None = [] /\ bump_spdx_document d = Raise (EConstructor ms).
Proof. exists (sample_document $"SPDX-2.3"). eexists. split; vm_compute; reflexivity. Qed.
Print Assumptions C55_valid_documents_refuted.
Example C55_sample : (forall i, In i (element_ids C39_document) -> ~ In #":" i)
  /\ (forall p, In p (do_packages C39_document) -> pk_homepage p <> Some NNone /\ pk_homepage p <> Some NNoAssertion).
Proof.
  split.
  - intros i Hi. cbn in Hi. repeat (destruct Hi as [<-|Hi]; [apply PyFacts.has_char_false; reflexivity|]). destruct Hi.
  - intros p [<-|[<-|[]]]; split; discriminate.
Qed.
