(** Facts about the relationship graph. *)
From Verif Require Import Py Data DocUtils DocUtilsSpec Graph GraphSpec.
From Verif Require Import PyFacts DocUtilsFacts.

(** ** Dictionaries *)
Lemma keys_set {A} k (v : A) l x : In x (map fst (dict_set k v l)) <-> x = k \/ In x (map fst l).
Proof.
  induction l as [|[k' v'] l IH]; cbn; [intuition|]. destruct (str_eqb k k') eqn:E; cbn.
  - apply str_eqb_eq in E. subst. intuition.
  - rewrite IH. intuition.
Qed.
Lemma nodup_set {A} k (v : A) l : NoDup (map fst l) -> NoDup (map fst (dict_set k v l)).
Proof.
  induction l as [|[k' v'] l IH]; cbn; intro H; [repeat constructor; intros []|]. inversion H; subst. destruct (str_eqb k k') eqn:E; cbn.
  - constructor; auto.
  - constructor; auto. rewrite keys_set. apply str_eqb_neq in E. intuition.
Qed.
Lemma set_present {A} k (v : A) l : In k (map fst l) -> map fst (dict_set k v l) = map fst l.
Proof.
  induction l as [|[k' v'] l IH]; cbn; [intros []|]. destruct (str_eqb k k') eqn:E; cbn; [reflexivity|]. apply str_eqb_neq in E. intros [H|H]; [congruence|].
  f_equal. auto.
Qed.
Lemma has_node_In k g : has_node k g = true <-> In k (map fst (g_nodes g)).
Proof.
  unfold has_node. destruct (assoc k (g_nodes g)) eqn:E.
  - split; auto. intros _. apply assoc_In in E. apply in_map_iff. exists (k, n). auto.
  - apply assoc_None in E. split; [discriminate|contradiction].
Qed.

Definition attr (k : pystr) (g : digraph) : option nattr := assoc k (g_nodes g).
Definition keys (g : digraph) : list pystr := map fst (g_nodes g).

Lemma add_node_keys k u g x : In x (keys (add_node k u g)) <-> x = k \/ In x (keys g).
Proof. apply keys_set. Qed.
Lemma add_node_attr_same k u g : attr k (add_node k u g) = Some (u (match attr k g with Some a => a | None => no_attr end)).
Proof. apply assoc_dict_set_same. Qed.
Lemma add_node_attr_other k k' u g : k <> k' -> attr k (add_node k' u g) = attr k g.
Proof. apply assoc_dict_set_other. Qed.
Lemma edge_eqb_eq a b : edge_eqb a b = true <-> a = b.
Proof.
  unfold edge_eqb. rewrite andb_true_iff, !str_eqb_eq. destruct a, b. cbn. split; [intros [-> ->]; reflexivity|]. intro H. injection H. auto.
Qed.
(** an edge between known nodes *)
Lemma add_edge_known u v g : In u (keys g) -> In v (keys g) ->
  add_edge u v g = {| g_nodes := g_nodes g; g_edges := if existsb (edge_eqb (u, v)) (g_edges g) then g_edges g else g_edges g ++ [(u, v)] |}.
Proof. intros Hu Hv. unfold add_edge. rewrite (proj2 (has_node_In u g) Hu), (proj2 (has_node_In v g) Hv). reflexivity. Qed.
Lemma add_edge_edges u v g : In u (keys g) -> In v (keys g) -> forall e, In e (g_edges (add_edge u v g)) <-> e = (u, v) \/ In e (g_edges g).
Proof.
  intros Hu Hv e. rewrite add_edge_known by assumption. cbn. destruct (existsb _ _) eqn:E.
  - apply existsb_exists in E as (x & Hx & Ex). apply edge_eqb_eq in Ex. subst x. split; [auto|]. intros [->|]; auto.
  - rewrite in_app_iff. cbn. intuition.
Qed.
Lemma add_edge_nodup u v g : In u (keys g) -> In v (keys g) -> NoDup (g_edges g) -> NoDup (g_edges (add_edge u v g)).
Proof.
  intros Hu Hv N. rewrite add_edge_known by assumption. cbn. destruct (existsb _ _) eqn:E; auto.
  assert (K : ~ In (u, v) (g_edges g)).
  { intro K. rewrite (proj2 (existsb_exists _ _)) in E; [discriminate|]. exists (u, v). split; [exact K|]. apply edge_eqb_eq. reflexivity. }
  rewrite <- (rev_involutive (g_edges g ++ _)). apply NoDup_rev. rewrite rev_app_distr. cbn. constructor; [rewrite <- in_rev; exact K|apply NoDup_rev; exact N].
Qed.

(** ** One relationship *)
Definition ensure (k : pystr) (g : digraph) : digraph := if has_node k g then g else add_node k (set_element None) g.
Lemma ensure_keys k g x : In x (keys (ensure k g)) <-> x = k \/ In x (keys g).
Proof.
  unfold ensure. destruct (has_node k g) eqn:E; [|apply add_node_keys]. apply has_node_In in E. unfold keys. split; auto. intros [->|]; auto.
Qed.
Lemma ensure_here k g : In k (keys g) -> ensure k g = g.
Proof. intro H. unfold ensure. rewrite (proj2 (has_node_In k g) H). reflexivity. Qed.
Lemma ensure_attr_other k k' g : k <> k' -> attr k (ensure k' g) = attr k g.
Proof. intro H. unfold ensure. destruct (has_node k' g); auto. apply add_node_attr_other. exact H. Qed.
Lemma ensure_attr k k' g a : attr k g = Some a -> attr k (ensure k' g) = Some a.
Proof.
  intro H. unfold ensure. destruct (has_node k' g) eqn:E; auto. unfold has_node in E. rewrite add_node_attr_other; auto. intros ->. unfold attr in H. rewrite H in E. discriminate.
Qed.
Lemma ensure_new k g : attr k g = None -> attr k (ensure k g) = Some (set_element None no_attr).
Proof.
  intro H. unfold ensure, has_node. unfold attr in H. rewrite H. rewrite add_node_attr_same. unfold attr. rewrite H. reflexivity.
Qed.
Lemma ensure_edges k g : g_edges (ensure k g) = g_edges g.
Proof. unfold ensure. destruct (has_node k g); reflexivity. Qed.
Lemma ensure_nodup k g : NoDup (keys g) -> NoDup (keys (ensure k g)).
Proof. intro H. unfold ensure. destruct (has_node k g); auto. apply nodup_set. exact H. Qed.

Lemma node_key r : relationship_node_key r = type_node r.
Proof. reflexivity. Qed.
Lemma related_name r : str_of_related (re_related r) = target_name r.
Proof. unfold target_name. destruct (re_related r); reflexivity. Qed.

(** the whole step for a relationship *)
Definition step (g : digraph) (r : relationship) : digraph := add_relationship (ensure (re_id r) g) r.

Definition nodes_only (g : digraph) (r : relationship) : digraph :=
  ensure (target_name r) (add_node (type_node r) (set_comment (re_comment r)) (ensure (re_id r) g)).
Lemma step_nodes g r : g_nodes (step g r) = g_nodes (nodes_only g r).
Proof.
  unfold step, add_relationship, nodes_only. rewrite node_key, related_name. cbv zeta. set (g1 := ensure (re_id r) g).
  set (g2 := add_node (type_node r) (set_comment (re_comment r)) g1).
  assert (H1 : In (re_id r) (keys g2)) by (apply add_node_keys; right; apply ensure_keys; auto).
  assert (H2 : In (type_node r) (keys g2)) by (apply add_node_keys; auto).
  assert (E3 : g_nodes (add_edge (re_id r) (type_node r) g2) = g_nodes g2) by (rewrite add_edge_known by assumption; reflexivity).
  set (g3 := add_edge (re_id r) (type_node r) g2) in *. fold (ensure (target_name r) g3).
  assert (H4 : In (type_node r) (keys (ensure (target_name r) g3))) by (apply ensure_keys; right; unfold keys; rewrite E3; exact H2).
  assert (H5 : In (target_name r) (keys (ensure (target_name r) g3))) by (apply ensure_keys; auto).
  rewrite add_edge_known by assumption. cbn [g_nodes]. unfold ensure, has_node, add_node. cbn [g_nodes]. rewrite E3.
  destruct (assoc (target_name r) (g_nodes g2)); cbn [g_nodes]; rewrite ?E3; reflexivity.
Qed.
Lemma step_keys g r x : In x (keys (step g r)) <-> x = re_id r \/ x = type_node r \/ x = target_name r \/ In x (keys g).
Proof.
  unfold keys. rewrite step_nodes. fold (keys (nodes_only g r)). unfold nodes_only. rewrite ensure_keys, add_node_keys, ensure_keys. intuition.
Qed.
Lemma step_nodup g r : NoDup (keys g) -> NoDup (keys (step g r)).
Proof. intro H. unfold keys. rewrite step_nodes. apply ensure_nodup. apply nodup_set. apply ensure_nodup. exact H. Qed.
Lemma step_edges g r e : In e (g_edges (step g r)) <-> e = (re_id r, type_node r) \/ e = (type_node r, target_name r) \/ In e (g_edges g).
Proof.
  unfold step, add_relationship. rewrite node_key, related_name. cbv zeta. set (g1 := ensure (re_id r) g).
  set (g2 := add_node (type_node r) (set_comment (re_comment r)) g1).
  assert (H1 : In (re_id r) (keys g2)) by (apply add_node_keys; right; apply ensure_keys; auto).
  assert (H2 : In (type_node r) (keys g2)) by (apply add_node_keys; auto).
  assert (E3 : g_nodes (add_edge (re_id r) (type_node r) g2) = g_nodes g2) by (rewrite add_edge_known by assumption; reflexivity).
  pose proof (add_edge_edges _ _ g2 H1 H2) as E4. set (g3 := add_edge (re_id r) (type_node r) g2) in *. fold (ensure (target_name r) g3).
  assert (H4 : In (type_node r) (keys (ensure (target_name r) g3))) by (apply ensure_keys; right; unfold keys; rewrite E3; exact H2).
  assert (H5 : In (target_name r) (keys (ensure (target_name r) g3))) by (apply ensure_keys; auto).
  rewrite add_edge_edges by assumption. rewrite ensure_edges, E4. unfold g2. cbn [add_node g_edges]. unfold g1. rewrite ensure_edges. intuition.
Qed.
Lemma step_edges_nodup g r : NoDup (g_edges g) -> NoDup (g_edges (step g r)).
Proof.
  intro N. unfold step, add_relationship. rewrite node_key, related_name. cbv zeta. set (g1 := ensure (re_id r) g).
  set (g2 := add_node (type_node r) (set_comment (re_comment r)) g1).
  assert (H1 : In (re_id r) (keys g2)) by (apply add_node_keys; right; apply ensure_keys; auto).
  assert (H2 : In (type_node r) (keys g2)) by (apply add_node_keys; auto).
  assert (E3 : g_nodes (add_edge (re_id r) (type_node r) g2) = g_nodes g2) by (rewrite add_edge_known by assumption; reflexivity).
  assert (N2 : NoDup (g_edges g2)) by (unfold g2; cbn [add_node g_edges]; unfold g1; rewrite ensure_edges; exact N).
  pose proof (add_edge_nodup _ _ g2 H1 H2 N2) as E4. set (g3 := add_edge (re_id r) (type_node r) g2) in *. fold (ensure (target_name r) g3).
  assert (H4 : In (type_node r) (keys (ensure (target_name r) g3))) by (apply ensure_keys; right; unfold keys; rewrite E3; exact H2).
  assert (H5 : In (target_name r) (keys (ensure (target_name r) g3))) by (apply ensure_keys; auto).
  apply add_edge_nodup; try assumption. rewrite ensure_edges. exact E4.
Qed.
Lemma step_attr g r k : attr k (step g r) = attr k (nodes_only g r).
Proof. unfold attr. rewrite step_nodes. reflexivity. Qed.
(** attribute "element" *)
Definition element_attr (k : pystr) (g : digraph) : option (option (option gelement)) := option_map na_element (attr k g).
Lemma step_element_kept g r k x : element_attr k g = Some x -> element_attr k (step g r) = Some x.
Proof.
  unfold element_attr. intro H. destruct (attr k g) as [a|] eqn:E; [|discriminate]. cbn in H. rewrite step_attr. unfold nodes_only.
  pose proof (ensure_attr k (re_id r) g a E) as E1. destruct (list_eq_dec N.eq_dec k (type_node r)) as [->|Hk].
  - rewrite (ensure_attr _ _ _ (set_comment (re_comment r) a)); [exact H|]. rewrite add_node_attr_same, E1. reflexivity.
  - rewrite (ensure_attr _ _ _ a); [exact H|]. rewrite add_node_attr_other by exact Hk. exact E1.
Qed.
Lemma attr_None k g : attr k g = None <-> ~ In k (keys g).
Proof. apply assoc_None. Qed.
Lemma step_element_new g r k : ~ In k (keys g) -> k <> type_node r -> In k (keys (step g r)) -> element_attr k (step g r) = Some (Some None).
Proof.
  intros H Hk Hin. apply attr_None in H. unfold element_attr. rewrite step_attr. unfold nodes_only. rewrite step_keys in Hin.
  destruct (list_eq_dec N.eq_dec k (re_id r)) as [->|H1].
  - rewrite (ensure_attr _ _ _ (set_element None no_attr)); [reflexivity|]. rewrite add_node_attr_other by exact Hk. apply ensure_new. exact H.
  - destruct (list_eq_dec N.eq_dec k (target_name r)) as [->|H2].
    + rewrite ensure_new; [reflexivity|]. rewrite add_node_attr_other by exact Hk. rewrite ensure_attr_other by exact H1. exact H.
    + apply attr_None in H. tauto.
Qed.
(** attribute "comment" *)
Definition comment_attr (k : pystr) (g : digraph) : option (option (option pystr)) := option_map na_comment (attr k g).
Lemma step_comment_here g r : comment_attr (type_node r) (step g r) = Some (Some (re_comment r)).
Proof.
  unfold comment_attr. rewrite step_attr. unfold nodes_only.
  erewrite ensure_attr by (apply add_node_attr_same). reflexivity.
Qed.
Lemma step_comment_other g r k : In k (keys g) -> k <> type_node r -> comment_attr k (step g r) = comment_attr k g.
Proof.
  intros H Hk. unfold comment_attr. rewrite step_attr. unfold nodes_only. destruct (attr k g) as [a|] eqn:E; [|apply attr_None in E; contradiction].
  rewrite (ensure_attr _ _ _ a); [reflexivity|]. rewrite add_node_attr_other by exact Hk. apply ensure_attr. exact E.
Qed.

(** ** The loop over the groups is a loop over the relationships *)
Definition flat (gs : list (pystr * list relationship)) : list relationship := flat_map snd gs.
Lemma group_steps k rs g : rs <> [] -> (forall r, In r rs -> re_id r = k) -> add_group g (k, rs) = fold_left step rs g.
Proof.
  intros N H. unfold add_group. cbn [fst snd]. fold (ensure k g). destruct rs as [|r rs]; [contradiction|]. cbn [fold_left].
  assert (Hr : re_id r = k) by (apply H; left; reflexivity).
  assert (Eq : add_relationship (ensure k g) r = step g r) by (unfold step; rewrite Hr; reflexivity). rewrite Eq.
  assert (K : In k (keys (step g r))) by (apply step_keys; auto). revert K. generalize (step g r). clear Eq. 
  assert (H' : forall r', In r' rs -> re_id r' = k) by (intros r' Hr'; apply H; right; exact Hr'). clear - H'. induction rs as [|r' rs IH]; intros g K; [reflexivity|].
  cbn [fold_left]. assert (Hr : re_id r' = k) by (apply H'; left; reflexivity). assert (Eq : add_relationship g r' = step g r').
  { unfold step. rewrite ensure_here by (rewrite Hr; exact K). reflexivity. }
  rewrite Eq. apply IH; [intros x Hx; apply H'; right; exact Hx|]. apply step_keys. auto.
Qed.
Definition GoodGroups (gs : list (pystr * list relationship)) : Prop :=
  Forall (fun g => snd g <> [] /\ forall r, In r (snd g) -> re_id r = fst g) gs.
Lemma groups_steps gs g : GoodGroups gs -> fold_left add_group gs g = fold_left step (flat gs) g.
Proof.
  intro H. revert g. induction H as [|[k rs] gs [N Hk] HF IH]; intro g; [reflexivity|]. cbn [fold_left flat flat_map]. rewrite fold_left_app.
  cbn [snd] in *. rewrite group_steps by assumption. apply IH.
Qed.

Definition grouping (acc : list (pystr * list relationship)) (r : relationship) : list (pystr * list relationship) :=
  let old := match assoc (re_id r) acc with Some l => l | None => [] end in dict_set (re_id r) (old ++ [r]) acc.
Lemma group_fold rs : group_by_origin rs = fold_left grouping rs [].
Proof. reflexivity. Qed.
Lemma grouping_assoc_same acc r : assoc (re_id r) (grouping acc r) = Some (match assoc (re_id r) acc with Some l => l | None => [] end ++ [r]).
Proof. apply assoc_dict_set_same. Qed.
Lemma grouping_assoc_other acc r k : k <> re_id r -> assoc k (grouping acc r) = assoc k acc.
Proof. apply assoc_dict_set_other. Qed.
Definition origin_is (k : pystr) (r : relationship) : bool := str_eqb (re_id r) k.
Lemma groups_assoc rs acc k :
  assoc k (fold_left grouping rs acc) =
  match assoc k acc, filter (origin_is k) rs with None, [] => None | Some l, l' => Some (l ++ l') | None, l' => Some l' end.
Proof.
  revert acc. induction rs as [|r rs IH]; intro acc; cbn [fold_left filter].
  - destruct (assoc k acc); [rewrite app_nil_r|]; reflexivity.
  - rewrite IH. change (origin_is k r) with (str_eqb (re_id r) k). destruct (str_eqb (re_id r) k) eqn:E.
    + apply str_eqb_eq in E. subst k. rewrite grouping_assoc_same. destruct (assoc (re_id r) acc); [rewrite <- app_assoc|]; reflexivity.
    + apply str_eqb_neq in E. rewrite grouping_assoc_other by congruence. reflexivity.
Qed.
Lemma groups_nodup rs acc : NoDup (map fst acc) -> NoDup (map fst (fold_left grouping rs acc)).
Proof. revert acc. induction rs as [|r rs IH]; intros acc H; [exact H|]. cbn [fold_left]. apply IH. apply nodup_set. exact H. Qed.
Lemma assoc_of_In {A} k (v : A) l : NoDup (map fst l) -> In (k, v) l -> assoc k l = Some v.
Proof.
  induction l as [|[k' v'] l IH]; cbn; intros N H; [contradiction|]. inversion N; subst. destruct H as [H|H].
  - injection H as -> ->. rewrite str_eqb_refl. reflexivity.
  - destruct (str_eqb k k') eqn:E; [|auto]. apply str_eqb_eq in E. subst. exfalso. apply H2. apply in_map_iff. exists (k', v). auto.
Qed.
Lemma group_is rs k l : In (k, l) (group_by_origin rs) -> l = filter (origin_is k) rs /\ l <> [].
Proof.
  intro H. rewrite group_fold in H. apply assoc_of_In in H; [|apply groups_nodup; constructor]. rewrite groups_assoc in H. cbn [assoc] in H.
  destruct (filter (origin_is k) rs); [discriminate|]. injection H as <-. split; [reflexivity|discriminate].
Qed.
Lemma groups_good rs : GoodGroups (group_by_origin rs).
Proof.
  apply Forall_forall. intros [k l] H. apply group_is in H as [-> N]. split; [exact N|]. cbn. intros r Hr. apply filter_In in Hr as [_ Hr]. apply str_eqb_eq. exact Hr.
Qed.
Lemma group_of rs r : In r rs -> In (re_id r, filter (origin_is (re_id r)) rs) (group_by_origin rs).
Proof.
  intro H. apply assoc_In. rewrite group_fold, groups_assoc. cbn [assoc].
  assert (K : In r (filter (origin_is (re_id r)) rs)) by (apply filter_In; split; [exact H|apply str_eqb_refl]).
  destruct (filter (origin_is (re_id r)) rs); [destruct K|reflexivity].
Qed.
Lemma flat_In rs r : In r (flat (group_by_origin rs)) <-> In r rs.
Proof.
  unfold flat. rewrite in_flat_map. split.
  - intros ([k l] & H1 & H2). apply group_is in H1 as [-> _]. cbn in H2. apply filter_In in H2. tauto.
  - intro H. exists (re_id r, filter (origin_is (re_id r)) rs). split; [apply group_of; exact H|]. cbn. apply filter_In. split; [exact H|apply str_eqb_refl].
Qed.
(** relationships of one origin keep their order *)
Lemma filter_filter {A} (f g : A -> bool) l : filter f (filter g l) = filter (fun x => g x && f x) l.
Proof. induction l as [|x l IH]; [reflexivity|]. cbn. destruct (g x); cbn; rewrite IH; destruct (f x); reflexivity. Qed.
Lemma filter_none {A} (f : A -> bool) l : (forall x, In x l -> f x = false) -> filter f l = [].
Proof. induction l as [|x l IH]; intro H; [reflexivity|]. cbn. rewrite (H x) by (left; reflexivity). apply IH. intros y Hy. apply H. right. exact Hy. Qed.
Lemma filter_all {A} (f : A -> bool) l : (forall x, In x l -> f x = true) -> filter f l = l.
Proof. induction l as [|x l IH]; intro H; [reflexivity|]. cbn. rewrite (H x) by (left; reflexivity). f_equal. apply IH. intros y Hy. apply H. right. exact Hy. Qed.
Lemma flat_origin_gen k gs : NoDup (map fst gs) -> GoodGroups gs ->
  filter (origin_is k) (flat gs) = match assoc k gs with Some l => l | None => [] end.
Proof.
  induction gs as [|[x l] gs IH]; intros N H; [reflexivity|]. cbn [flat flat_map snd assoc]. rewrite filter_app. fold (flat gs).
  inversion N as [|? ? H1 H2]; subst. inversion H as [|? ? [_ H3] H4]; subst. cbn [fst snd] in *. rewrite IH by assumption. destruct (str_eqb k x) eqn:E.
  - apply str_eqb_eq in E. subst x. apply assoc_None in H1. rewrite H1, app_nil_r. apply filter_all. intros r Hr. apply str_eqb_eq. apply H3. exact Hr.
  - apply str_eqb_neq in E. rewrite filter_none; [reflexivity|]. intros r Hr. apply str_eqb_neq. rewrite (H3 r Hr). congruence.
Qed.
Lemma flat_origin rs k : filter (origin_is k) (flat (group_by_origin rs)) = filter (origin_is k) rs.
Proof.
  rewrite flat_origin_gen; [|rewrite group_fold; apply groups_nodup; constructor|apply groups_good].
  rewrite group_fold, groups_assoc. cbn [assoc]. destruct (filter (origin_is k) rs); reflexivity.
Qed.

(** ** Loops *)
Lemma steps_keys rs g x : In x (keys (fold_left step rs g)) <->
  In x (keys g) \/ exists r, In r rs /\ (x = re_id r \/ x = type_node r \/ x = target_name r).
Proof.
  revert g. induction rs as [|r rs IH]; intro g; cbn [fold_left].
  - split; [auto|]. intros [H|(r & [] & _)]. exact H.
  - rewrite IH, step_keys. split.
    + intros [[->|[->|[->|H]]]|(r' & H & K)]; [right; exists r; split; [left|]; auto..|auto|right; exists r'; split; [right|]; auto].
    + intros [H|(r' & [<-|H] & K)]; [tauto|tauto|right; exists r'; auto].
Qed.
Lemma steps_edges rs g e : In e (g_edges (fold_left step rs g)) <->
  In e (g_edges g) \/ exists r, In r rs /\ (e = (re_id r, type_node r) \/ e = (type_node r, target_name r)).
Proof.
  revert g. induction rs as [|r rs IH]; intro g; cbn [fold_left].
  - split; [auto|]. intros [H|(r & [] & _)]. exact H.
  - rewrite IH, step_edges. split.
    + intros [[->|[->|H]]|(r' & H & K)]; [right; exists r; split; [left|]; auto..|auto|right; exists r'; split; [right|]; auto].
    + intros [H|(r' & [<-|H] & K)]; [tauto|tauto|right; exists r'; auto].
Qed.
Lemma steps_nodup rs g : NoDup (keys g) -> NoDup (keys (fold_left step rs g)).
Proof. revert g. induction rs as [|r rs IH]; intros g H; [exact H|]. cbn [fold_left]. apply IH, step_nodup, H. Qed.
Lemma steps_edges_nodup rs g : NoDup (g_edges g) -> NoDup (g_edges (fold_left step rs g)).
Proof. revert g. induction rs as [|r rs IH]; intros g H; [exact H|]. cbn [fold_left]. apply IH, step_edges_nodup, H. Qed.
Lemma steps_element_kept rs g k x : element_attr k g = Some x -> element_attr k (fold_left step rs g) = Some x.
Proof. revert g. induction rs as [|r rs IH]; intros g H; [exact H|]. cbn [fold_left]. apply IH, step_element_kept, H. Qed.
Lemma steps_element_new rs g k : ~ In k (keys g) -> (forall r, In r rs -> k <> type_node r) -> In k (keys (fold_left step rs g)) ->
  element_attr k (fold_left step rs g) = Some (Some None).
Proof.
  revert g. induction rs as [|r rs IH]; intros g H Hk Hin; [contradiction|]. cbn [fold_left] in *.
  assert (Hr : k <> type_node r) by (apply Hk; left; reflexivity).
  destruct (in_dec (list_eq_dec N.eq_dec) k (keys (step g r))) as [I|I].
  - apply steps_element_kept. apply step_element_new; assumption.
  - apply IH; auto. intros r' H'. apply Hk. right. exact H'.
Qed.
Lemma steps_comment_other rs g k : In k (keys g) -> (forall r, In r rs -> k <> type_node r) -> comment_attr k (fold_left step rs g) = comment_attr k g.
Proof.
  revert g. induction rs as [|r rs IH]; intros g H Hk; [reflexivity|]. cbn [fold_left].
  assert (Hr : k <> type_node r) by (apply Hk; left; reflexivity).
  rewrite IH; [apply step_comment_other; assumption|apply step_keys; auto|intros r' H'; apply Hk; right; exact H'].
Qed.
(** the last relationship of a type node decides *)
Lemma steps_comment_last a r b g : (forall r', In r' b -> type_node r' <> type_node r) ->
  comment_attr (type_node r) (fold_left step (a ++ r :: b) g) = Some (Some (re_comment r)).
Proof.
  intro H. rewrite fold_left_app. cbn [fold_left]. rewrite steps_comment_other; [apply step_comment_here|apply step_keys; auto|].
  intros r' Hr' E. apply (H r' Hr'). symmetry. exact E.
Qed.

(** ** The nodes of the elements *)
Definition put (g : digraph) (kv : pystr * element) : digraph := add_node (fst kv) (set_element (Some (GElement (snd kv)))) g.
Definition start (d : document) : digraph :=
  fold_left put (get_contained_spdx_elements d)
    (add_node (ci_id (do_ci d)) (set_element (Some (GDocument (do_ci d)))) {| g_nodes := []; g_edges := [] |}).
Lemma graph_steps d : generate_relationship_graph_from_spdx d = fold_left step (flat (group_by_origin (do_relationships d))) (start d).
Proof. rewrite <- groups_steps by apply groups_good. reflexivity. Qed.
Lemma puts_keys l g x : In x (keys (fold_left put l g)) <-> In x (map fst l) \/ In x (keys g).
Proof.
  revert g. induction l as [|kv l IH]; intro g; cbn [fold_left map]; [cbn; tauto|]. rewrite IH. unfold put at 1. rewrite add_node_keys. cbn. intuition.
Qed.
Lemma puts_nodup l g : NoDup (keys g) -> NoDup (keys (fold_left put l g)).
Proof. revert g. induction l as [|kv l IH]; intros g H; [exact H|]. cbn [fold_left]. apply IH. apply nodup_set. exact H. Qed.
Lemma puts_edges l g : g_edges (fold_left put l g) = g_edges g.
Proof. revert g. induction l as [|kv l IH]; intro g; [reflexivity|]. cbn [fold_left]. rewrite IH. reflexivity. Qed.
Lemma put_element g kv k : element_attr k (put g kv) = if str_eqb k (fst kv) then Some (Some (Some (GElement (snd kv)))) else element_attr k g.
Proof.
  unfold element_attr, put. destruct (str_eqb k (fst kv)) eqn:E.
  - apply str_eqb_eq in E. subst k. rewrite add_node_attr_same. reflexivity.
  - apply str_eqb_neq in E. rewrite add_node_attr_other by exact E. reflexivity.
Qed.
Lemma puts_element l g k : NoDup (map fst l) ->
  element_attr k (fold_left put l g) = match assoc k l with Some e => Some (Some (Some (GElement e))) | None => element_attr k g end.
Proof.
  revert g. induction l as [|[k' e'] l IH]; intros g N; [reflexivity|]. inversion N as [|? ? H1 H2]; subst. cbn [fold_left]. rewrite IH by exact H2.
  cbn [assoc]. rewrite put_element. cbn [fst snd]. destruct (str_eqb k k') eqn:E; [|reflexivity]. apply str_eqb_eq in E. subst. apply assoc_None in H1. rewrite H1. reflexivity.
Qed.
Lemma update_nodup {A} kvs (l : list (pystr * A)) : NoDup (map fst l) -> NoDup (map fst (dict_update l kvs)).
Proof. unfold dict_update. revert l. induction kvs as [|kv kvs IH]; intros l H; [exact H|]. cbn [fold_left]. apply IH, nodup_set, H. Qed.
Lemma update_keys {A} kvs (l : list (pystr * A)) x : In x (map fst (dict_update l kvs)) <-> In x (map fst kvs) \/ In x (map fst l).
Proof.
  unfold dict_update. revert l. induction kvs as [|kv kvs IH]; intro l; cbn [fold_left map]; [cbn; tauto|]. rewrite IH, keys_set. cbn. intuition.
Qed.
Lemma contained_nodup d : NoDup (map fst (get_contained_spdx_elements d)).
Proof. unfold get_contained_spdx_elements. cbv zeta. do 3 apply update_nodup. constructor. Qed.
Lemma contained_keys d x : In x (map fst (get_contained_spdx_elements d)) <-> In x (map element_id (all_elements d)).
Proof.
  unfold get_contained_spdx_elements, all_elements. cbv zeta. rewrite !update_keys, !map_map, !map_app, !in_app_iff, !map_map. cbn [fst map element_id]. cbn [In]. intuition.
Qed.
Lemma start_keys d x : In x (keys (start d)) <-> x = document_id d \/ In x (map element_id (all_elements d)).
Proof. unfold start. rewrite puts_keys, contained_keys, add_node_keys. cbn. unfold document_id. intuition. Qed.
Lemma start_nodup d : NoDup (keys (start d)).
Proof. apply puts_nodup. cbn. repeat constructor. intros []. Qed.

(** ** The graph *)
Lemma graph_nodes d : let g := generate_relationship_graph_from_spdx d in
  NoDup (map fst (g_nodes g)) /\ forall k, In k (map fst (g_nodes g)) <-> GraphNode d k.
Proof.
  cbv zeta. rewrite graph_steps. split; [apply steps_nodup, start_nodup|]. intro k. fold (keys (fold_left step (flat (group_by_origin (do_relationships d))) (start d))).
  rewrite steps_keys, start_keys. unfold GraphNode. setoid_rewrite flat_In. tauto.
Qed.
Lemma graph_edges d : let g := generate_relationship_graph_from_spdx d in
  NoDup (g_edges g) /\ forall u v, In (u, v) (g_edges g) <-> GraphEdge d u v.
Proof.
  cbv zeta. rewrite graph_steps. split.
  - apply steps_edges_nodup. unfold start. rewrite puts_edges. constructor.
  - intros u v. rewrite steps_edges. unfold start at 1. rewrite puts_edges. cbn [add_node g_edges]. unfold GraphEdge. setoid_rewrite flat_In. split.
    + intros [[]|(r & H & [K|K])]; injection K as -> ->; exists r; auto.
    + intros (r & H & [[-> ->]|[-> ->]]); right; exists r; auto.
Qed.

(** names of type nodes *)
Lemma split_underscore (a b x y : pystr) : NoUnderscore a -> NoUnderscore b -> a ++ #"_" :: x = b ++ #"_" :: y -> a = b /\ x = y.
Proof.
  revert b. induction a as [|c a IH]; intros [|c' b] Ha Hb E; cbn [app] in E.
  - injection E as E. auto.
  - injection E as E _. exfalso. apply Hb. left. symmetry. exact E.
  - injection E as E _. exfalso. apply Ha. left. exact E.
  - injection E as -> E. destruct (IH b) as [-> ->]; auto.
    + intro K. apply Ha. right. exact K.
    + intro K. apply Hb. right. exact K.
Qed.
Lemma rel_type_name_inj a b : rel_type_name a = rel_type_name b -> a = b.
Proof.
  intro H. assert (K : forall x, enum_lookup rel_type_all rel_type_name (rel_type_name x) = Some x) by (intro x; destruct x; reflexivity).
  pose proof (K a) as Ka. rewrite H, K in Ka. congruence.
Qed.
Lemma type_nodes_differ r1 r2 : NoUnderscore (re_id r1) -> NoUnderscore (re_id r2) ->
  (type_node r1 = type_node r2 <-> re_id r1 = re_id r2 /\ re_type r1 = re_type r2).
Proof.
  intros H1 H2. unfold type_node. split.
  - intro E. apply (split_underscore (re_id r1) (re_id r2) _ _ H1 H2) in E as [E1 E2]. split; [exact E1|apply rel_type_name_inj; exact E2].
  - intros [-> ->]. reflexivity.
Qed.
Lemma type_node_underscore r : ~ NoUnderscore (type_node r).
Proof. intro H. apply H. unfold type_node. apply in_or_app. right. left. reflexivity. Qed.

(** attributes *)
Lemma graph_document d : ~ In (document_id d) (map element_id (all_elements d)) ->
  exists a, assoc (document_id d) (g_nodes (generate_relationship_graph_from_spdx d)) = Some a /\ na_element a = Some (Some (GDocument (do_ci d))).
Proof.
  intro H. assert (E : element_attr (document_id d) (generate_relationship_graph_from_spdx d) = Some (Some (Some (GDocument (do_ci d))))).
  { rewrite graph_steps. apply steps_element_kept. unfold start. rewrite puts_element by apply contained_nodup.
    rewrite <- contained_keys in H. apply assoc_None in H. rewrite H. unfold element_attr. unfold document_id. rewrite add_node_attr_same. reflexivity. }
  unfold element_attr, attr in E. destruct (assoc _ _) as [a|]; [|discriminate]. exists a. split; [reflexivity|]. cbn in E. congruence.
Qed.
Lemma graph_element d e : NoDup (map element_id (all_elements d)) -> In e (all_elements d) ->
  exists a, assoc (element_id e) (g_nodes (generate_relationship_graph_from_spdx d)) = Some a /\ na_element a = Some (Some (GElement e)).
Proof.
  intros N H. assert (E : element_attr (element_id e) (generate_relationship_graph_from_spdx d) = Some (Some (Some (GElement e)))).
  { rewrite graph_steps. apply steps_element_kept. unfold start. rewrite puts_element by apply contained_nodup.
    change (assoc (element_id e) (get_contained_spdx_elements d)) with (get_element_from_spdx_id d (element_id e)).
    rewrite get_element_assoc. rewrite (assoc_of_In (element_id e) e); [reflexivity| |].
    - rewrite map_rev, map_map. cbn. apply NoDup_rev. exact N.
    - apply in_rev. rewrite rev_involutive. apply in_map_iff. exists e. auto. }
  unfold element_attr, attr in E. destruct (assoc _ _) as [a|]; [|discriminate]. exists a. split; [reflexivity|]. cbn in E. congruence.
Qed.
Lemma graph_unknown d k : NoUnderscore k -> k <> document_id d -> ~ In k (map element_id (all_elements d)) -> GraphNode d k ->
  exists a, assoc k (g_nodes (generate_relationship_graph_from_spdx d)) = Some a /\ na_element a = Some None.
Proof.
  intros Hu H1 H2 HN. assert (E : element_attr k (generate_relationship_graph_from_spdx d) = Some (Some None)).
  { apply graph_nodes in HN. rewrite graph_steps in *. apply steps_element_new; [rewrite start_keys; tauto| |exact HN].
    intros r _ ->. apply (type_node_underscore r Hu). }
  unfold element_attr, attr in E. destruct (assoc _ _) as [a|]; [|discriminate]. exists a. split; [reflexivity|]. cbn in E. congruence.
Qed.
Lemma last_split {A} (f : A -> bool) (l1 l2 : list A) x : f x = true -> (forall y, In y l2 -> f y = false) ->
  filter f (l1 ++ x :: l2) = filter f l1 ++ [x].
Proof. intros H1 H2. rewrite filter_app. cbn. rewrite H1, (filter_none f l2 H2). reflexivity. Qed.
Lemma last_split_inv {A} (f : A -> bool) l a x : filter f l = a ++ [x] -> exists l1 l2, l = l1 ++ x :: l2 /\ f x = true /\ forall y, In y l2 -> f y = false.
Proof.
  revert a. induction l as [|y l IH]; intros a H; [destruct a; discriminate|]. cbn in H. destruct (f y) eqn:E.
  - destruct a as [|z a].
    + cbn in H. injection H as -> H. exists [], l. split; [reflexivity|]. split; [exact E|]. intros y Hy.
      destruct (f y) eqn:Ey; [|reflexivity]. exfalso. assert (In y (filter f l)) as K by (apply filter_In; auto). rewrite H in K. destruct K.
    + cbn in H. injection H as -> H. apply IH in H as (l1 & l2 & -> & H). exists (z :: l1), l2. split; [reflexivity|exact H].
  - apply IH in H as (l1 & l2 & -> & H). exists (y :: l1), l2. split; [reflexivity|exact H].
Qed.
Lemma graph_comment d l1 r l2 : (forall x, In x (do_relationships d) -> NoUnderscore (re_id x)) -> do_relationships d = l1 ++ r :: l2 ->
  (forall x, In x l2 -> ~ (re_id x = re_id r /\ re_type x = re_type r)) ->
  exists a, assoc (type_node r) (g_nodes (generate_relationship_graph_from_spdx d)) = Some a /\ na_comment a = Some (re_comment r).
Proof.
  intros HU Hd H2. assert (E : comment_attr (type_node r) (generate_relationship_graph_from_spdx d) = Some (Some (re_comment r))).
  { rewrite graph_steps. set (rs := do_relationships d) in *. set (f := fun x => origin_is (re_id r) x && rel_type_eqb (re_type x) (re_type r)).
    assert (Fx : forall x, f x = true <-> re_id x = re_id r /\ re_type x = re_type r).
    { intro x. unfold f, origin_is. rewrite andb_true_iff, str_eqb_eq. unfold rel_type_eqb. destruct (rel_type_eq_dec _ _); split; intros [? ?]; split; auto; discriminate. }
    assert (E1 : filter f (flat (group_by_origin rs)) = filter f rs).
    { unfold f. rewrite <- !filter_filter. rewrite flat_origin. reflexivity. }
    assert (E2 : filter f rs = filter f l1 ++ [r]).
    { rewrite Hd. apply last_split; [apply Fx; auto|]. intros y Hy. destruct (f y) eqn:Ey; [|reflexivity]. apply Fx in Ey. exfalso. apply (H2 y Hy Ey). }
    rewrite E2 in E1. apply last_split_inv in E1 as (a & b & Eab & _ & Hb). rewrite Eab. apply steps_comment_last.
    intros r' Hr' K. apply type_nodes_differ in K.
    - apply Fx in K. rewrite (Hb r' Hr') in K. discriminate.
    - apply HU. apply (flat_In rs r'). rewrite Eab. apply in_or_app. right. right. exact Hr'.
    - apply HU. rewrite Hd. apply in_or_app. right. left. reflexivity. }
  unfold comment_attr, attr in E. destruct (assoc _ _) as [a|]; [|discriminate]. exists a. split; [reflexivity|]. cbn in E. congruence.
Qed.

(** ** Colors *)
Definition paint (g : digraph) (k : pystr) : digraph := add_node k (color_node k) g.
Lemma paints ks g : (forall k, In k ks -> In k (keys g)) -> NoDup ks ->
  keys (fold_left paint ks g) = keys g /\ g_edges (fold_left paint ks g) = g_edges g
  /\ forall k, attr k (fold_left paint ks g) = if in_dec (list_eq_dec N.eq_dec) k ks then option_map (color_node k) (attr k g) else attr k g.
Proof.
  revert g. induction ks as [|x ks IH]; intros g H N; [auto|]. inversion N as [|? ? N1 N2]; subst. cbn [fold_left].
  assert (Kx : keys (paint g x) = keys g) by (apply set_present; apply H; left; reflexivity).
  destruct (IH (paint g x)) as (H1 & H2 & H3); [intros k Hk; rewrite Kx; apply H; right; exact Hk|exact N2|].
  rewrite H1, H2, Kx. split; [reflexivity|]. split; [reflexivity|]. intro k. rewrite H3.
  destruct (in_dec (list_eq_dec N.eq_dec) k ks) as [I|I]; destruct (in_dec (list_eq_dec N.eq_dec) k (x :: ks)) as [J|J]; try (exfalso; cbn in J; tauto).
  - unfold paint. rewrite add_node_attr_other; [reflexivity|]. intros ->. contradiction.
  - destruct J as [<-|J]; [|contradiction]. unfold paint. rewrite add_node_attr_same.
    assert (K : In x (keys g)) by (apply H; left; reflexivity). destruct (attr x g) eqn:E; [reflexivity|]. apply attr_None in E. contradiction.
  - unfold paint. rewrite add_node_attr_other; [reflexivity|]. intros ->. apply J. left. reflexivity.
Qed.
Lemma colored g : NoDup (map fst (g_nodes g)) ->
  map fst (g_nodes (color_nodes g)) = map fst (g_nodes g) /\ g_edges (color_nodes g) = g_edges g
  /\ forall k, assoc k (g_nodes (color_nodes g)) = option_map (color_node k) (assoc k (g_nodes g)).
Proof.
  intro N. destruct (paints (keys g) g (fun k H => H) N) as (H1 & H2 & H3). split; [exact H1|]. split; [exact H2|]. intro k.
  change (attr k (fold_left paint (keys g) g) = option_map (color_node k) (attr k g)). rewrite H3. destruct (in_dec (list_eq_dec N.eq_dec) _ _) as [I|I]; [reflexivity|].
  apply attr_None in I. rewrite I. reflexivity.
Qed.
Lemma after_first x y : ~ In #"_" x -> after_underscore (x ++ [#"_"] ++ y) = y.
Proof.
  induction x as [|c x IH]; intro H; [reflexivity|]. cbn [app after_underscore]. destruct (N.eqb_spec c #"_") as [->|Hc]; [exfalso; apply H; left; reflexivity|].
  apply IH. intro K. apply H. right. exact K.
Qed.
Lemma colored_nodes g : NoDup (map fst (g_nodes g)) ->
  map fst (g_nodes (color_nodes g)) = map fst (g_nodes g) /\ g_edges (color_nodes g) = g_edges g
  /\ forall k a, assoc k (g_nodes g) = Some a ->
     exists a', assoc k (g_nodes (color_nodes g)) = Some a' /\ na_element a' = na_element a /\ na_comment a' = na_comment a
       /\ (forall x y, k = x ++ [#"_"] ++ y -> ~ In #"_" x -> na_color a' = Some $"lightgreen" /\ na_label a' = Some y)
       /\ (~ In #"_" k -> na_label a' = na_label a
            /\ na_color a' = Some (if str_eqb k $"SPDXRef-DOCUMENT" then $"indianred2" else $"lightskyblue")).
Proof.
  intro N. destruct (colored g N) as (H1 & H2 & H3). split; [exact H1|]. split; [exact H2|]. intros k a Ha.
  exists (color_node k a). rewrite H3, Ha. split; [reflexivity|].
  assert (E1 : forall b : bool, na_element (color_node k a) = na_element a /\ na_comment (color_node k a) = na_comment a).
  { intros _. unfold color_node. destruct (has_char _ k); [split; reflexivity|]. destruct (str_eqb k _); split; reflexivity. }
  destruct (E1 true) as [E2 E3]. split; [exact E2|]. split; [exact E3|]. split.
  - intros x y E Hx. assert (Hc : has_char #"_" k = true) by (apply has_char_In; rewrite E; apply in_or_app; right; left; reflexivity).
    unfold color_node. rewrite Hc. split; [reflexivity|]. cbn [na_label set_label]. rewrite E, after_first by exact Hx. reflexivity.
  - intro Hn. unfold color_node. rewrite (proj2 (has_char_false #"_" k) Hn). destruct (str_eqb k _); split; reflexivity.
Qed.
