(** Property theorems: the relationship graph (C33). *)
From Verif Require Import Py Data Oracles DocUtils DocUtilsSpec Graph GraphSpec Samples.
From Verif Require Validation GraphFacts.

(** ** C33 *)
Theorem C33_nodes :
  forall (d : document), let g := generate_relationship_graph_from_spdx d in
  NoDup (map fst (g_nodes g)) /\ forall k, In k (map fst (g_nodes g)) <-> GraphNode d k.
Proof. exact GraphFacts.graph_nodes. Qed.
Print Assumptions C33_nodes.
Theorem C33_edges :
  forall (d : document), let g := generate_relationship_graph_from_spdx d in
  NoDup (g_edges g) /\ forall u v, In (u, v) (g_edges g) <-> GraphEdge d u v.
Proof. exact GraphFacts.graph_edges. Qed.
Print Assumptions C33_edges.
(** One node for each origin and type, different from the nodes of the elements. *)
Theorem C33_type_nodes :
  forall (r1 r2 : relationship), NoUnderscore (re_id r1) -> NoUnderscore (re_id r2) ->
  (type_node r1 = type_node r2 <-> re_id r1 = re_id r2 /\ re_type r1 = re_type r2).
Proof. exact GraphFacts.type_nodes_differ. Qed.
Print Assumptions C33_type_nodes.
Theorem C33_type_nodes_are_no_elements : forall (r : relationship), ~ NoUnderscore (type_node r).
Proof. exact GraphFacts.type_node_underscore. Qed.
Print Assumptions C33_type_nodes_are_no_elements.
(** The nodes carry the elements they stand for; unknown ids carry None. *)
Theorem C33_document_node :
  forall (d : document), ~ In (document_id d) (map element_id (all_elements d)) ->
  exists a, assoc (document_id d) (g_nodes (generate_relationship_graph_from_spdx d)) = Some a /\ na_element a = Some (Some (GDocument (do_ci d))).
Proof. exact GraphFacts.graph_document. Qed.
Print Assumptions C33_document_node.
Theorem C33_element_nodes :
  forall (d : document) (e : element), NoDup (map element_id (all_elements d)) -> In e (all_elements d) ->
  exists a, assoc (element_id e) (g_nodes (generate_relationship_graph_from_spdx d)) = Some a /\ na_element a = Some (Some (GElement e)).
Proof. exact GraphFacts.graph_element. Qed.
Print Assumptions C33_element_nodes.
Theorem C33_unknown_nodes :
  forall (d : document) (k : pystr), NoUnderscore k -> k <> document_id d -> ~ In k (map element_id (all_elements d)) -> GraphNode d k ->
  exists a, assoc k (g_nodes (generate_relationship_graph_from_spdx d)) = Some a /\ na_element a = Some None.
Proof. exact GraphFacts.graph_unknown. Qed.
Print Assumptions C33_unknown_nodes.
(** The comment of a node for a type is that of the last relationship with this origin and type. *)
Theorem C33_comments :
  forall (d : document) l1 r l2, (forall x, In x (do_relationships d) -> NoUnderscore (re_id x)) -> do_relationships d = l1 ++ r :: l2 ->
  (forall x, In x l2 -> ~ (re_id x = re_id r /\ re_type x = re_type r)) ->
  exists a, assoc (type_node r) (g_nodes (generate_relationship_graph_from_spdx d)) = Some a /\ na_comment a = Some (re_comment r).
Proof. exact GraphFacts.graph_comment. Qed.
Print Assumptions C33_comments.
Theorem C33_coloring :
  forall (g : digraph), NoDup (map fst (g_nodes g)) ->
  map fst (g_nodes (color_nodes g)) = map fst (g_nodes g) /\ g_edges (color_nodes g) = g_edges g
  /\ forall k a, assoc k (g_nodes g) = Some a ->
     exists a', assoc k (g_nodes (color_nodes g)) = Some a' /\ na_element a' = na_element a /\ na_comment a' = na_comment a
       /\ (forall x y, k = x ++ [#"_"] ++ y -> ~ In #"_" x -> na_color a' = Some $"lightgreen" /\ na_label a' = Some y)
       /\ (~ In #"_" k -> na_label a' = na_label a
            /\ na_color a' = Some (if str_eqb k $"SPDXRef-DOCUMENT" then $"indianred2" else $"lightskyblue")).
Proof. exact GraphFacts.colored_nodes. Qed.
Print Assumptions C33_coloring.
Example C33_sample :
  let d := sample_document $"SPDX-2.3" in
  NoDup (map element_id (all_elements d)) /\ ~ In (document_id d) (map element_id (all_elements d))
  /\ forallb (fun r => negb (has_char #"_" (re_id r))) (do_relationships d) = true
  /\ List.length (g_nodes (generate_relationship_graph_from_spdx d)) = 10 /\ List.length (g_edges (generate_relationship_graph_from_spdx d)) = 6.
Proof.
  cbv zeta. split; [repeat constructor; cbn; intuition discriminate|]. split; [cbn; intuition discriminate|]. split; [vm_compute; reflexivity|].
  split; vm_compute; reflexivity.
Qed.
(** Not every comment of a valid document is in its graph. *)
Definition said (a : pystr) (t : rel_type) (b c : pystr) : relationship := {| re_id := a; re_type := t; re_related := NVal b; re_comment := Some c |}.
Theorem C33_comments_refuted :
  exists O d r, Validation.validate_full_spdx_document O d None = [] /\ In r (do_relationships d) /\ re_comment r <> None
    /\ forall k a, In (k, a) (g_nodes (generate_relationship_graph_from_spdx d)) -> na_comment a <> Some (re_comment r).
Proof.
  set (base := sample_document $"SPDX-2.3").
  set (r := said $"SPDXRef-DOCUMENT" RT_DESCRIBES $"SPDXRef-File-1" $"first").
  set (d := {| do_ci := do_ci base; do_packages := do_packages base; do_files := do_files base; do_snippets := do_snippets base;
               do_annotations := do_annotations base; do_relationships := [r; said $"SPDXRef-DOCUMENT" RT_DESCRIBES $"SPDXRef-File-2" $"second"];
               do_extracted := do_extracted base |}).
  exists sample_oracles, d, r. split; [vm_compute; reflexivity|]. split; [left; reflexivity|]. split; [discriminate|].
  intros k a H K.
  assert (T : existsb (fun ka => match na_comment (snd ka) with Some (Some c) => str_eqb c $"first" | _ => false end)
                (g_nodes (generate_relationship_graph_from_spdx d)) = false) by (vm_compute; reflexivity).
  apply Bool.not_true_iff_false in T. apply T. apply existsb_exists. exists (k, a). split; [exact H|]. cbn [snd]. rewrite K. reflexivity.
Qed.
Print Assumptions C33_comments_refuted.
