(** The payload while it is being filled, and the merging of relationships. *)
From Verif Require Import Py Data Oracles DocUtils Payload Bump BumpSpec PyFacts BumpFacts.

Definition WF (st : bstate) : Prop := forall k a, assoc k (b_map st) = Some a -> a < List.length (b_objs st).

Lemma nth_error_snoc {A} (l : list A) x : nth_error (l ++ [x]) (List.length l) = Some x.
Proof. rewrite nth_error_app2, Nat.sub_diag by lia. reflexivity. Qed.

Lemma get_add_element st a e i : nth_error (b_objs st) a = Some e ->
  get_element (add_element st a) i = if str_eqb i (e3_id e) then Ok e else get_element st i.
Proof.
  intro H. unfold get_element, add_element. rewrite H. cbn [with_map b_map b_objs]. rewrite LoadingFacts.dict_set_assoc.
  destruct (str_eqb i (e3_id e)); [rewrite H; reflexivity|reflexivity].
Qed.
Lemma add_element_objs st a : b_objs (add_element st a) = b_objs st.
Proof. unfold add_element. destruct (nth_error (b_objs st) a); reflexivity. Qed.
Lemma add_element_cis st a : b_cis (add_element st a) = b_cis st.
Proof. unfold add_element. destruct (nth_error (b_objs st) a); reflexivity. Qed.
Lemma WF_add_element st a : WF st -> WF (add_element st a).
Proof.
  intros W k b H. rewrite add_element_objs. unfold add_element in H. destruct (nth_error (b_objs st) a) as [e|] eqn:E; [|exact (W _ _ H)].
  cbn [with_map b_map] in H. rewrite LoadingFacts.dict_set_assoc in H. destruct (str_eqb k (e3_id e)); [|exact (W _ _ H)].
  injection H as <-. apply nth_error_Some. congruence.
Qed.
Lemma get_new_object st e i st' a : new_object st e = (st', a) -> WF st -> get_element st' i = get_element st i.
Proof.
  intros E W. injection E as <- <-. unfold get_element. cbn [with_objs b_map b_objs].
  destruct (assoc i (b_map st)) as [a|] eqn:Ea; [|reflexivity]. rewrite nth_error_app1 by exact (W _ _ Ea). reflexivity.
Qed.
Lemma WF_new_object st e st' a : new_object st e = (st', a) -> WF st -> WF st'.
Proof.
  intros E W. injection E as <- <-. intros k b H. cbn [with_objs b_map b_objs] in *. rewrite app_length. cbn. specialize (W _ _ H). lia.
Qed.
Lemma get_add_new st e i : WF st -> get_element (add_new st e) i = if str_eqb i (e3_id e) then Ok e else get_element st i.
Proof.
  intro W. unfold add_new. destruct (new_object st e) as [st' a] eqn:E. rewrite (get_add_element st' a e).
  - rewrite (get_new_object _ _ i _ _ E W). reflexivity.
  - injection E as <- <-. apply nth_error_snoc.
Qed.
Lemma WF_add_new st e : WF st -> WF (add_new st e).
Proof. intro W. unfold add_new. destruct (new_object st e) as [st' a] eqn:E. apply WF_add_element. exact (WF_new_object _ _ _ _ E W). Qed.
Lemma add_new_objs st e : b_objs (add_new st e) = b_objs st ++ [e].
Proof. unfold add_new. cbn. rewrite add_element_objs. reflexivity. Qed.
Lemma add_new_cis st e : b_cis (add_new st e) = b_cis st.
Proof. unfold add_new. cbn. rewrite add_element_cis. reflexivity. Qed.
Lemma add_new_map st e : b_map (add_new st e) = dict_set (e3_id e) (List.length (b_objs st)) (b_map st).
Proof. unfold add_new. cbn. unfold add_element. cbn. rewrite nth_error_snoc. reflexivity. Qed.

(** * A group of relationships with their addresses *)
Definition bare (L : list (nat * rel3)) : list rel3 := filter (fun r => negb (truthy_opt (r3_comment r))) (map snd L).
Definition with_comment (L : list (nat * rel3)) : list (nat * rel3) := filter (fun p => truthy_opt (r3_comment (snd p))) L.
Definition targets (L : list (nat * rel3)) : list pystr := flat_map r3_to (bare L).
Definition completeness_from (c : option pystr) (L : list (nat * rel3)) : option pystr :=
  fold_left (fun c r => match c with Some _ => c | None => r3_completeness r end) (bare L) c.
Definition id_from (id : option pystr) (L : list (nat * rel3)) : option pystr :=
  fold_left (fun _ r => Some (r3_id r)) (bare L) id.
Definition entries (L : list (nat * rel3)) : list (pystr * nat) := map (fun p => (r3_id (snd p), fst p)) (with_comment L).
Definition At (st : bstate) (L : list (nat * rel3)) : Prop := forall a r, In (a, r) L -> rel_at st a = Some r.

Lemma At_ext st st' L : b_objs st = b_objs st' -> At st L -> At st' L.
Proof. intros E H a r Hin. unfold rel_at. rewrite <- E. exact (H a r Hin). Qed.
Lemma rel_at_nth st a r : rel_at st a = Some r <-> nth_error (b_objs st) a = Some (E3Relationship r).
Proof. unfold rel_at. destruct (nth_error (b_objs st) a) as [[]|]; split; intro H; try discriminate; injection H as <-; reflexivity. Qed.

Lemma with_map_eta st : with_map st (b_map st) = st.
Proof. destruct st; reflexivity. Qed.

Lemma merge_loop_is L : forall st to c id, At st L ->
  merge_loop (map fst L) st to c id =
  (with_map st (dict_update (b_map st) (entries L)), to ++ targets L, completeness_from c L, id_from id L).
Proof.
  induction L as [|[a r] L IH]; intros st to c id H.
  - cbn. rewrite with_map_eta, app_nil_r. reflexivity.
  - cbn [map fst merge_loop]. rewrite (H a r (or_introl eq_refl)).
    assert (H' : At st L) by (intros b x Hin; apply H; right; exact Hin).
    unfold targets, completeness_from, id_from, entries, bare, with_comment. cbn [map snd filter].
    destruct (truthy_opt (r3_comment r)) eqn:E; cbn [negb].
    + rewrite IH by (apply (At_ext st); [symmetry; apply add_element_objs|exact H']).
      pose proof (H a r (or_introl eq_refl)) as Ha. apply rel_at_nth in Ha.
      unfold add_element. rewrite Ha. reflexivity.
    + rewrite IH by exact H'. cbn [flat_map fold_left]. rewrite <- app_assoc. reflexivity.
Qed.

Definition find_commented (i : pystr) (L : list (nat * rel3)) : option (nat * rel3) :=
  find (fun p => truthy_opt (r3_comment (snd p)) && str_eqb i (r3_id (snd p))) L.
Definition ids (L : list (nat * rel3)) : list pystr := map (fun p => r3_id (snd p)) L.

Lemma find_commented_absent i L : ~ In i (ids L) -> find_commented i L = None.
Proof.
  intro H. unfold find_commented. destruct (find _ L) as [[a r]|] eqn:E; [|reflexivity].
  apply find_some in E as [Hin E]. apply andb_true_iff in E as [_ E]. apply str_eqb_eq in E. exfalso. apply H.
  apply in_map_iff. exists (a, r). split; [symmetry; exact E|exact Hin].
Qed.
Lemma entries_assoc L : forall m i, NoDup (ids L) ->
  assoc i (dict_update m (entries L)) = match find_commented i L with Some p => Some (fst p) | None => assoc i m end.
Proof.
  induction L as [|[a r] L IH]; intros m i N; [reflexivity|].
  inversion N as [|? ? N1 N2]; subst. unfold entries, find_commented, with_comment. cbn [filter find snd].
  destruct (truthy_opt (r3_comment r)); cbn [map snd fst andb].
  - change (dict_update m ((r3_id r, a) :: map (fun p => (r3_id (snd p), fst p)) (filter (fun p => truthy_opt (r3_comment (snd p))) L)))
      with (dict_update (dict_set (r3_id r) a m) (entries L)).
    rewrite IH by exact N2. destruct (str_eqb i (r3_id r)) eqn:E.
    + apply str_eqb_eq in E; subst. rewrite find_commented_absent by exact N1. rewrite assoc_dict_set_same. reflexivity.
    + fold (find_commented i L). destruct (find_commented i L); [reflexivity|].
      apply str_eqb_neq in E. apply assoc_dict_set_other. exact E.
  - exact (IH m i N2).
Qed.

(** the relationship that the merging of a group makes of its last member *)
Definition merged (L : list (nat * rel3)) (last : rel3) : rel3 :=
  assign_merged (id_from None L) (targets L) (completeness_from None L) last.

(** what is in the payload under an id after the merging *)
Definition merge_effect (L : list (nat * rel3)) (last : nat * rel3) (i : pystr) (old : result element3) : result element3 :=
  let plain := match find_commented i L with Some p => Ok (E3Relationship (snd p)) | None => old end in
  match targets L with
  | [] => plain
  | _ => let m := merged L (snd last) in
         if str_eqb i (r3_id m) then Ok (E3Relationship m)
         else match find_commented i L with
              | Some p => if Nat.eqb (fst p) (fst last) then Ok (E3Relationship m) else Ok (E3Relationship (snd p))
              | None => old
              end
  end.

Definition unknown (st : bstate) (L : list (nat * rel3)) : Prop := forall k a, assoc k (b_map st) = Some a -> ~ In a (map fst L).

Lemma merge_shape L0 last st : let L := L0 ++ [last] in At st L ->
  merge_relationships (map fst L) st =
  let st1 := with_map st (dict_update (b_map st) (entries L)) in
  match targets L with
  | [] => st1
  | _ => let st2 := with_objs st1 (set_nth (fst last) (E3Relationship (merged L (snd last))) (b_objs st)) in
         with_map st2 (dict_set (r3_id (merged L (snd last))) (fst last) (b_map st1))
  end.
Proof.
  intros L H. unfold merge_relationships. rewrite merge_loop_is by exact H. cbn [app].
  destruct (targets L) as [|t ts] eqn:Et; [reflexivity|].
  unfold L at 1. rewrite map_app, rev_app_distr. cbn [map rev app].
  assert (Hl : rel_at st (fst last) = Some (snd last)).
  { apply H. unfold L. apply in_app_iff. right. left. destruct last; reflexivity. }
  assert (Hl' : rel_at (with_map st (dict_update (b_map st) (entries L))) (fst last) = Some (snd last)) by exact Hl.
  rewrite Hl'. unfold add_element. cbn [with_objs b_objs b_map with_map].
  rewrite set_nth_nth, Nat.eqb_refl. apply rel_at_nth in Hl.
  assert (Lt : fst last < List.length (b_objs st)) by (apply nth_error_Some; congruence).
  apply Nat.ltb_lt in Lt. rewrite Lt. unfold merged. rewrite Et. reflexivity.
Qed.

Lemma merge_get L0 last st i : let L := L0 ++ [last] in
  At st L -> NoDup (map fst L) -> NoDup (ids L) -> unknown st L ->
  get_element (merge_relationships (map fst L) st) i = merge_effect L last i (get_element st i).
Proof.
  intros L H Na Ni U. pose proof (merge_shape L0 last st H) as S. fold L in S. rewrite S. clear S.
  assert (Hl : In last L) by (apply in_app_iff; right; left; reflexivity).
  unfold merge_effect. cbn zeta. destruct (targets L) as [|t ts] eqn:Et.
  - unfold get_element. cbn [with_map b_map b_objs]. rewrite entries_assoc by exact Ni.
    destruct (find_commented i L) as [[a r]|] eqn:E; [|reflexivity].
    unfold find_commented in E. apply find_some in E as [Hin _]. pose proof (H _ _ Hin) as Ha. apply rel_at_nth in Ha.
    cbn [fst snd]. rewrite Ha. reflexivity.
  - set (m := merged L (snd last)). unfold get_element. cbn [with_map with_objs b_map b_objs].
    rewrite LoadingFacts.dict_set_assoc, entries_assoc by exact Ni.
    assert (Lt : Nat.ltb (fst last) (List.length (b_objs st)) = true).
    { destruct last as [al rl]. pose proof (H _ _ Hl) as Ha. apply rel_at_nth in Ha. apply Nat.ltb_lt. apply nth_error_Some. cbn. congruence. }
    destruct (str_eqb i (r3_id m)) eqn:Em.
    + rewrite set_nth_nth, Nat.eqb_refl, Lt. reflexivity.
    + destruct (find_commented i L) as [[a r]|] eqn:E.
      * unfold find_commented in E. apply find_some in E as [Hin _]. pose proof (H _ _ Hin) as Ha. apply rel_at_nth in Ha.
        cbn [fst snd]. rewrite set_nth_nth. destruct (Nat.eqb a (fst last)) eqn:Ea; [rewrite Lt; reflexivity|]. rewrite Ha. reflexivity.
      * destruct (assoc i (b_map st)) as [a|] eqn:Ea; [|reflexivity]. rewrite set_nth_nth.
        destruct (Nat.eqb a (fst last)) eqn:El; [|reflexivity]. exfalso. apply Nat.eqb_eq in El. subst a.
        apply (U _ _ Ea). apply in_map. exact Hl.
Qed.

Lemma merge_objs L0 last st b : let L := L0 ++ [last] in
  At st L -> ~ In b (map fst L) -> nth_error (b_objs (merge_relationships (map fst L) st)) b = nth_error (b_objs st) b.
Proof.
  intros L H N. pose proof (merge_shape L0 last st H) as S. fold L in S. rewrite S. clear S. cbn zeta.
  destruct (targets L); [reflexivity|]. cbn [with_map with_objs b_objs]. rewrite set_nth_nth.
  destruct (Nat.eqb b (fst last)) eqn:E; [|reflexivity]. exfalso. apply N. apply Nat.eqb_eq in E. subst b.
  apply in_map, in_app_iff. right; left; reflexivity.
Qed.
Lemma merge_cis L0 last st : let L := L0 ++ [last] in At st L -> b_cis (merge_relationships (map fst L) st) = b_cis st.
Proof. intros L H. pose proof (merge_shape L0 last st H) as S. fold L in S. rewrite S. cbn zeta. destruct (targets L); reflexivity. Qed.
Lemma merge_length L0 last st : let L := L0 ++ [last] in At st L ->
  List.length (b_objs (merge_relationships (map fst L) st)) = List.length (b_objs st).
Proof.
  intros L H. pose proof (merge_shape L0 last st H) as S. fold L in S. rewrite S. cbn zeta. destruct (targets L); [reflexivity|].
  cbn [with_map with_objs b_objs]. apply set_nth_length.
Qed.
Lemma merge_map L0 last st k a : let L := L0 ++ [last] in At st L -> NoDup (ids L) ->
  assoc k (b_map (merge_relationships (map fst L) st)) = Some a -> assoc k (b_map st) = Some a \/ In a (map fst L).
Proof.
  intros L H N. pose proof (merge_shape L0 last st H) as S. fold L in S. rewrite S. clear S. cbn zeta.
  assert (E : assoc k (dict_update (b_map st) (entries L)) = Some a -> assoc k (b_map st) = Some a \/ In a (map fst L)).
  { rewrite entries_assoc by exact N. destruct (find_commented k L) as [p|] eqn:E; [|tauto]. intro Ha; injection Ha as <-.
    right. apply in_map. unfold find_commented in E. apply find_some in E. tauto. }
  destruct (targets L); [exact E|]. cbn [with_map with_objs b_map]. rewrite LoadingFacts.dict_set_assoc.
  destruct (str_eqb k _); [|exact E]. intro Ha; injection Ha as <-. right. apply in_map, in_app_iff. right; left; reflexivity.
Qed.

(** the id of the merged relationship is the one of a member without comment *)
Lemma id_from_spec L id : bare L <> [] -> exists b0 r, bare L = b0 ++ [r] /\ id_from id L = Some (r3_id r).
Proof.
  intro H. destruct (exists_last H) as (b0 & r & E). exists b0, r. split; [exact E|]. unfold id_from. rewrite E, fold_left_app. reflexivity.
Qed.
Lemma targets_bare L : targets L <> [] -> bare L <> [].
Proof. unfold targets. intros H E. rewrite E in H. apply H. reflexivity. Qed.
Lemma bare_in L r : In r (bare L) <-> (exists a, In (a, r) L) /\ truthy_opt (r3_comment r) = false.
Proof.
  unfold bare. rewrite filter_In, in_map_iff. split.
  - intros [([a x] & <- & Hin) E]. cbn in *. split; [exists a; exact Hin|]. destruct (truthy_opt _); [discriminate|reflexivity].
  - intros [[a Hin] E]. split; [exists (a, r); split; [reflexivity|exact Hin]|rewrite E; reflexivity].
Qed.
Lemma merged_id L last : targets L <> [] -> exists b0 r, bare L = b0 ++ [r] /\ r3_id (merged L last) = r3_id r.
Proof.
  intro H. destruct (id_from_spec L None (targets_bare L H)) as (b0 & r & E & Ei). exists b0, r. split; [exact E|].
  unfold merged, assign_merged. cbn. rewrite Ei. reflexivity.
Qed.
Lemma merged_id_in L last : targets L <> [] -> In (r3_id (merged L last)) (ids L).
Proof.
  intro H. destruct (merged_id L last H) as (b0 & r & E & ->).
  assert (Hr : In r (bare L)) by (rewrite E; apply in_app_iff; right; left; reflexivity).
  apply bare_in in Hr as [[a Hin] _]. apply in_map_iff. exists (a, r). auto.
Qed.
Lemma merge_effect_absent L last i old : ~ In i (ids L) -> merge_effect L last i old = old.
Proof.
  intro H. unfold merge_effect. rewrite (find_commented_absent i L H). destruct (targets L) as [|t ts] eqn:E; [reflexivity|].
  cbn zeta. destruct (str_eqb i (r3_id (merged L (snd last)))) eqn:Em; [|reflexivity]. apply str_eqb_eq in Em. exfalso. apply H.
  rewrite Em. apply merged_id_in. rewrite E. discriminate.
Qed.
