(** The relationship graph: spdx/graph_generation.py.

    A networkx.DiGraph is an insertion-ordered dict of nodes with their attributes and a set of edges without repetition.
    Not modelled: the drawing by pygraphviz (lines 20-21), which is an effect outside the repository. *)
From Verif Require Import Py Data DocUtils.

(** the objects that appear as attribute "element" *)
Inductive gelement := GDocument (c : creation_info) | GElement (e : element).

(** The attributes that the code uses; None: the node has no such attribute. *)
Record nattr := { na_element : option (option gelement); na_comment : option (option pystr);
                  na_color : option pystr; na_label : option pystr }.
Definition no_attr : nattr := {| na_element := None; na_comment := None; na_color := None; na_label := None |}.
Definition set_element (e : option gelement) (a : nattr) : nattr :=
  {| na_element := Some e; na_comment := na_comment a; na_color := na_color a; na_label := na_label a |}.
Definition set_comment (c : option pystr) (a : nattr) : nattr :=
  {| na_element := na_element a; na_comment := Some c; na_color := na_color a; na_label := na_label a |}.
Definition set_color (c : pystr) (a : nattr) : nattr :=
  {| na_element := na_element a; na_comment := na_comment a; na_color := Some c; na_label := na_label a |}.
Definition set_label (l : pystr) (a : nattr) : nattr :=
  {| na_element := na_element a; na_comment := na_comment a; na_color := na_color a; na_label := Some l |}.

Record digraph := { g_nodes : list (pystr * nattr); g_edges : list (pystr * pystr) }.

(** DiGraph.add_node(k, **attr): creates the node or updates its attributes *)
Definition add_node (k : pystr) (upd : nattr -> nattr) (g : digraph) : digraph :=
  let old := match assoc k (g_nodes g) with Some a => a | None => no_attr end in
  {| g_nodes := dict_set k (upd old) (g_nodes g); g_edges := g_edges g |}.
(** k in graph.nodes() *)
Definition has_node (k : pystr) (g : digraph) : bool := match assoc k (g_nodes g) with Some _ => true | None => false end.

Definition edge_eqb (a b : pystr * pystr) : bool := str_eqb (fst a) (fst b) && str_eqb (snd a) (snd b).
(** DiGraph.add_edge(u, v): adds missing end points and the edge *)
Definition add_edge (u v : pystr) (g : digraph) : digraph :=
  let g := if has_node u g then g else add_node u (fun a => a) g in
  let g := if has_node v g then g else add_node v (fun a => a) g in
  {| g_nodes := g_nodes g;
     g_edges := if existsb (edge_eqb (u, v)) (g_edges g) then g_edges g else g_edges g ++ [(u, v)] |}.

(** graph_generation.py:35-37  setdefault(..., []).append(...) *)
Definition group_by_origin (rs : list relationship) : list (pystr * list relationship) :=
  fold_left (fun acc r =>
    let old := match assoc (re_id r) acc with Some l => l | None => [] end in dict_set (re_id r) (old ++ [r]) acc) rs [].

(** str(relationship.related_spdx_element_id) *)
Definition str_of_related (x : nn pystr) : pystr :=
  match x with NVal s => s | NNoAssertion => $"NOASSERTION" | NNone => $"NONE" end.

(** graph_generation.py:45 *)
Definition relationship_node_key (r : relationship) : pystr := re_id r ++ $"_" ++ rel_type_name (re_type r).

(** graph_generation.py:44-58, the inner loop *)
Definition add_relationship (g : digraph) (r : relationship) : digraph :=
  let key := relationship_node_key r in
  let g := add_node key (set_comment (re_comment r)) g in
  let g := add_edge (re_id r) key g in
  let related := str_of_related (re_related r) in
  let g := if has_node related g then g else add_node related (set_element None) g in
  add_edge key related g.

(** graph_generation.py:39-58, the outer loop *)
Definition add_group (g : digraph) (group : pystr * list relationship) : digraph :=
  let g := if has_node (fst group) g then g else add_node (fst group) (set_element None) g in
  fold_left add_relationship (snd group) g.

(** graph_generation.py:25-60 *)
Definition generate_relationship_graph_from_spdx (d : document) : digraph :=
  let g := {| g_nodes := []; g_edges := [] |} in
  let g := add_node (ci_id (do_ci d)) (set_element (Some (GDocument (do_ci d)))) g in
  let g := fold_left (fun g kv => add_node (fst kv) (set_element (Some (GElement (snd kv)))) g) (get_contained_spdx_elements d) g in
  fold_left add_group (group_by_origin (do_relationships d)) g.

(** node.split("_", 1)[-1] for a text that contains "_" *)
Fixpoint after_underscore (s : pystr) : pystr :=
  match s with [] => [] | c :: s' => if (c =? #"_")%N then s' else after_underscore s' end.

(** graph_generation.py:63-73  _color_nodes: the update of one node, by its name *)
Definition color_node (k : pystr) (a : nattr) : nattr :=
  if has_char #"_" k then set_label (after_underscore k) (set_color $"lightgreen" a)
  else if str_eqb k $"SPDXRef-DOCUMENT" then set_color $"indianred2" a
  else set_color $"lightskyblue" a.
Definition color_nodes (g : digraph) : digraph :=
  fold_left (fun g k => add_node k (color_node k) g) (map fst (g_nodes g)) g.
