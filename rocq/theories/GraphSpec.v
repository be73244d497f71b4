(** Specifications: the nodes and edges of the relationship graph of a document. *)
From Verif Require Import Py Data DocUtils DocUtilsSpec.

(** the name under which the target of a relationship appears *)
Definition target_name (r : relationship) : pystr :=
  match re_related r with NVal x => x | NNone => $"NONE" | NNoAssertion => $"NOASSERTION" end.
(** the name of the node for the relationships of one origin and one type *)
Definition type_node (r : relationship) : pystr := re_id r ++ $"_" ++ rel_type_name (re_type r).

Definition document_id (d : document) : pystr := ci_id (do_ci d).
Definition GraphNode (d : document) (k : pystr) : Prop :=
  k = document_id d \/ In k (map element_id (all_elements d))
  \/ exists r, In r (do_relationships d) /\ (k = re_id r \/ k = type_node r \/ k = target_name r).
Definition GraphEdge (d : document) (u v : pystr) : Prop :=
  exists r, In r (do_relationships d) /\ ((u = re_id r /\ v = type_node r) \/ (u = type_node r /\ v = target_name r)).
(** ids as the validation demands them do not contain this character *)
Definition NoUnderscore (s : pystr) : Prop := ~ In #"_" s.
