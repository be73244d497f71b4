(** What becomes of the relationships of a document. *)
From Verif Require Import Py Data Oracles DocUtils Payload Bump BumpSpec PyFacts BumpFacts BumpMerge BumpGroups.

Lemma relationship_id_inj ns i j : relationship_id ns i = relationship_id ns j -> i = j.
Proof. unfold relationship_id, here. intro H. do 3 apply app_inv_head in H. apply str_of_N_inj in H. apply Nat2N.inj. exact H. Qed.

Lemma converted_id ns rs : forall c x, In x (converted_from ns c rs) -> exists i, c <= i /\ r3_id x = relationship_id ns i.
Proof.
  induction rs as [|r rs IH]; intros c x H; [destruct H|]. cbn [converted_from] in H. apply in_app_iff in H as [H|H].
  - destruct (bump_relationship r ns c) as [y|] eqn:E; [|destruct H]. destruct H as [<-|[]]. exists c. split; [lia|exact (bump_id _ _ _ _ E)].
  - destruct (IH _ _ H) as (i & Hi & E). exists i. split; [lia|exact E].
Qed.
Lemma converted_nodup ns rs : forall c, NoDup (map r3_id (converted_from ns c rs)).
Proof.
  induction rs as [|r rs IH]; intro c; [constructor|]. cbn [converted_from].
  destruct (bump_relationship r ns c) as [y|] eqn:E; [|exact (IH (S c))]. cbn [app map]. constructor; [|exact (IH (S c))].
  intro H. apply in_map_iff in H as (x & Ex & Hx). destruct (converted_id _ _ _ _ Hx) as (i & Hi & Ei).
  rewrite (bump_id _ _ _ _ E), Ei in Ex. apply relationship_id_inj in Ex. lia.
Qed.

Lemma combine_seq_snd {A} (xs : list A) : forall base, map snd (combine (seq base (List.length xs)) xs) = xs.
Proof. induction xs as [|x xs IH]; intro base; [reflexivity|]. cbn. f_equal. apply IH. Qed.
Lemma combine_seq_fst {A} (xs : list A) : forall base, map fst (combine (seq base (List.length xs)) xs) = seq base (List.length xs).
Proof. induction xs as [|x xs IH]; intro base; [reflexivity|]. cbn. f_equal. apply IH. Qed.
Lemma combine_seq_nth {A} (xs : list A) : forall base a x, In (a, x) (combine (seq base (List.length xs)) xs) ->
  base <= a /\ nth_error xs (a - base) = Some x.
Proof.
  induction xs as [|y xs IH]; intros base a x H; [destruct H|]. cbn in H. destruct H as [H|H].
  - injection H as <- <-. rewrite Nat.sub_diag. split; [lia|reflexivity].
  - destruct (IH _ _ _ H) as [H1 H2]. split; [lia|]. replace (a - base) with (S (a - S base)) by lia. exact H2.
Qed.

Record Summary (st st' : bstate) (xs : list rel3) (P : list (nat * rel3)) : Prop := {
  su_values : map snd P = xs;
  su_ok : addr_ok P;
  su_other : forall i, ~ In i (map r3_id xs) -> get_element st' i = get_element st i;
  su_group : forall p, In p P -> get_element st' (r3_id (snd p)) =
               group_effect (filter (haskey (key (snd p))) P) (r3_id (snd p)) (get_element st (r3_id (snd p)));
  su_wf : WF st';
  su_cis : b_cis st' = b_cis st;
  su_objs : forall b e, nth_error (b_objs st) b = Some e -> nth_error (b_objs st') b = Some e;
  su_map : forall k b, b < List.length (b_objs st) -> assoc k (b_map st') = Some b -> assoc k (b_map st) = Some b
}.

Lemma bump_relationships_summary rs ns st : WF st -> exists P, Summary st (bump_relationships rs ns st) (converted_from ns 0 rs) P.
Proof.
  intro W. unfold bump_relationships. pose proof (generate_is rs ns 0 st []) as G. change (erase []) with (@nil ((pystr * pystr) * list nat)) in G.
  rewrite G. clear G. set (xs := converted_from ns 0 rs). set (base := List.length (b_objs st)).
  set (P := combine (seq base (List.length xs)) xs). set (st1 := with_objs st (b_objs st ++ map E3Relationship xs)).
  exists P.
  assert (Hv : map snd P = xs) by apply combine_seq_snd.
  assert (Hok : addr_ok P).
  { split; [unfold P; rewrite combine_seq_fst; apply seq_NoDup|]. unfold ids. rewrite <- (map_map snd r3_id), Hv. apply converted_nodup. }
  assert (Hat : forall a x, In (a, x) P -> rel_at st1 a = Some x).
  { intros a x H. destruct (combine_seq_nth xs base a x H) as [H1 H2]. apply rel_at_nth. unfold st1. cbn [with_objs b_objs].
    rewrite nth_error_app2 by exact H1. fold base. rewrite nth_error_map, H2. reflexivity. }
  assert (Hge : forall a, In a (map fst P) -> base <= a).
  { intros a H. apply in_map_iff in H as ([b x] & <- & H). apply (combine_seq_nth xs base b x H). }
  destruct (collect_grouped P) as [N F A].
  assert (S : forall k L, In (k, L) (collect P []) -> At st1 L /\ unknown st1 L).
  { intros k L H. destruct (F k L H) as [EL _]. split.
    - intros a x Hx. rewrite EL in Hx. apply filter_In in Hx as [Hx _]. exact (Hat a x Hx).
    - intros j b Hb Hin. cbn in Hb. pose proof (W _ _ Hb) as Hlt. fold base in Hlt.
      assert (In b (map fst P)). { apply in_map_iff in Hin as (p & E & Hp). rewrite EL in Hp. apply filter_In in Hp as [Hp _]. apply in_map_iff. exists p; auto. }
      specialize (Hge b H0). lia. }
  destruct (add_groups_is P Hok (collect P []) st1 N F S) as (R1 & R2 & R3 & R4 & R5).
  assert (Hget : forall i, get_element st1 i = get_element st i).
  { intro i. unfold get_element, st1. cbn [with_objs b_map b_objs]. destruct (assoc i (b_map st)) as [a|] eqn:E; [|reflexivity].
    rewrite nth_error_app1 by exact (W _ _ E). reflexivity. }
  constructor.
  - exact Hv.
  - exact Hok.
  - intros i Hi. rewrite R1, Hget. apply fold_effect_none. intros k L Hin Hi'. apply Hi. destruct (F k L Hin) as [EL _].
    apply in_map_iff in Hi' as (p & E & Hp). rewrite EL in Hp. apply filter_In in Hp as [Hp _]. rewrite <- Hv.
    apply in_map_iff. exists (snd p). split; [exact E|]. apply in_map. exact Hp.
  - intros p Hp. rewrite R1, Hget. pose proof (A p Hp) as HG. apply in_map_iff in HG as ([k L] & Ek & HG). cbn in Ek.
    destruct (F k L HG) as [EL _]. rewrite (fold_effect_one P _ k L _ _ Hok N F HG).
    + rewrite EL, Ek. reflexivity.
    + rewrite EL. apply in_map_iff. exists p. split; [reflexivity|]. apply filter_In. split; [exact Hp|]. apply haskey_true. congruence.
  - intros k b Hb. rewrite R3. unfold st1. cbn [with_objs b_objs]. rewrite app_length, map_length.
    destruct (R5 _ _ Hb) as [X|X]; [cbn in X; specialize (W _ _ X); lia|].
    unfold P in X. rewrite combine_seq_fst in X. apply in_seq in X. fold base. lia.
  - rewrite R2. reflexivity.
  - intros b e Hb. rewrite R4.
    + unfold st1. cbn [with_objs b_objs]. rewrite nth_error_app1; [exact Hb|]. apply nth_error_Some. congruence.
    + intro X. specialize (Hge b X). assert (b < base) by (apply nth_error_Some; congruence). lia.
  - intros k b Hlt Hb. destruct (R5 _ _ Hb) as [X|X]; [exact X|]. specialize (Hge b X). fold base in Hlt. lia.
Qed.

(** * Consequences, in terms of the values *)
Lemma same_group_key x y : same_group x y <-> key x = key y.
Proof. unfold same_group, key. split; [intros [-> ->]; reflexivity|]. intro H; injection H as -> ->. split; reflexivity. Qed.
Lemma commented_truthy x : commented x <-> truthy_opt (r3_comment x) = true.
Proof.
  unfold commented. destruct (r3_comment x) as [[|c s]|]; cbn; split; intro H; try discriminate; try reflexivity; try (destruct H as (? & ? & H); discriminate).
  exists c, s. reflexivity.
Qed.

Section Values.
  Variables (st st' : bstate) (xs : list rel3) (P : list (nat * rel3)).
  Hypothesis S : Summary st st' xs P.

  Lemma su_split l1 x l2 : xs = l1 ++ x :: l2 -> exists P1 a P2, P = P1 ++ (a, x) :: P2 /\ map snd P1 = l1 /\ map snd P2 = l2.
  Proof.
    intro E. pose proof (su_values _ _ _ _ S) as V. rewrite E in V. clear - V. revert l1 V.
    induction P as [|[a y] Q IH]; intros l1 V; [destruct l1; discriminate|]. destruct l1 as [|z l1]; cbn in V.
    - injection V as -> V. exists [], a, Q. auto.
    - injection V as -> V. destruct (IH _ V) as (P1 & b & P2 & -> & E1 & E2). exists ((a, z) :: P1), b, P2. cbn. rewrite E1. auto.
  Qed.
  Lemma filter_key_none k Q : (forall y, In y (map snd Q) -> key y <> k) -> filter (haskey k) Q = [].
  Proof. intro H. apply filter_none. intros p Hp. destruct (haskey k p) eqn:E; [|reflexivity]. apply haskey_true in E. exfalso. apply (H (snd p)); [apply in_map; exact Hp|exact E]. Qed.
  Lemma filter_key_in k Q p : In p (filter (haskey k) Q) -> In (snd p) (map snd Q) /\ key (snd p) = k.
  Proof. intro H. apply filter_In in H as [H E]. apply haskey_true in E. split; [apply in_map; exact H|exact E]. Qed.

  (** the group of a member *)
  Lemma su_group_split P1 a x P2 : P = P1 ++ (a, x) :: P2 ->
    filter (haskey (key x)) P = filter (haskey (key x)) P1 ++ (a, x) :: filter (haskey (key x)) P2.
  Proof. intros ->. rewrite filter_app. cbn [filter]. assert (haskey (key x) (a, x) = true) as -> by (apply haskey_true; reflexivity). reflexivity. Qed.

  Lemma alone_kept l1 x l2 : xs = l1 ++ x :: l2 -> (forall y, In y (l1 ++ l2) -> ~ same_group x y) ->
    get_element st' (r3_id x) = Ok (E3Relationship x).
  Proof.
    intros E H. destruct (su_split _ _ _ E) as (P1 & a & P2 & EP & E1 & E2).
    assert (Hin : In (a, x) P) by (rewrite EP; apply in_app_iff; right; left; reflexivity).
    pose proof (su_group _ _ _ _ S (a, x) Hin) as G. cbn [snd] in G. rewrite G. rewrite (su_group_split _ _ _ _ EP).
    rewrite !filter_key_none; [cbn; rewrite str_eqb_refl; reflexivity| |].
    - intros y Hy Hk. rewrite E2 in Hy. apply (H y); [apply in_app_iff; right; exact Hy|]. apply same_group_key. congruence.
    - intros y Hy Hk. rewrite E1 in Hy. apply (H y); [apply in_app_iff; left; exact Hy|]. apply same_group_key. congruence.
  Qed.

  Lemma find_commented_in L a x : NoDup (ids L) -> In (a, x) L -> truthy_opt (r3_comment x) = true -> find_commented (r3_id x) L = Some (a, x).
  Proof.
    intros N Hin T. unfold find_commented. destruct (find _ L) as [[b y]|] eqn:E.
    - apply find_some in E as [Hb E]. apply andb_true_iff in E as [_ E]. apply str_eqb_eq in E. cbn in E.
      rewrite (nodup_map_inj (fun p => r3_id (snd p)) L (a, x) (b, y) N Hin Hb E). reflexivity.
    - exfalso. apply (find_none _ _ E) in Hin. cbn in Hin. rewrite T, str_eqb_refl in Hin. discriminate.
  Qed.
  Lemma group_ids k : NoDup (ids (filter (haskey k) P)).
  Proof. unfold ids. apply nodup_map_filter. exact (proj2 (su_ok _ _ _ _ S)). Qed.
  Lemma group_addrs k : NoDup (map fst (filter (haskey k) P)).
  Proof. apply nodup_map_filter. exact (proj1 (su_ok _ _ _ _ S)). Qed.

  Lemma effect_big L p q i old : In p L -> In q L -> p <> q -> exists L0 last, L = L0 ++ [last] /\ group_effect L i old = merge_effect L last i old.
  Proof.
    intros Hp Hq N. destruct L as [|p1 [|p2 L]]; [destruct Hp|destruct Hp as [<-|[]], Hq as [<-|[]]; congruence|].
    destruct (exists_last (l := p1 :: p2 :: L)) as (L0 & last & E); [discriminate|]. exists L0, last. split; [exact E|].
    unfold group_effect. rewrite E at 2. rewrite last_last. reflexivity.
  Qed.
  Lemma effect_commented L L1 a x L2 old : L = L1 ++ (a, x) :: L2 -> L2 <> [] -> NoDup (ids L) -> NoDup (map fst L) ->
    truthy_opt (r3_comment x) = true -> group_effect L (r3_id x) old = Ok (E3Relationship x).
  Proof.
    intros EL Ne Ni Na T. destruct (exists_last Ne) as (L3 & last & E3).
    assert (Hin : In (a, x) L) by (rewrite EL; apply in_app_iff; right; left; reflexivity).
    assert (Hlast : In last L) by (rewrite EL, E3; apply in_app_iff; right; right; apply in_app_iff; right; left; reflexivity).
    assert (Na' : a <> fst last).
    { intro X. rewrite EL, E3 in Na. rewrite map_app in Na. cbn [map fst] in Na. apply NoDup_remove_2 in Na. apply Na.
      apply in_app_iff; right. rewrite X. apply in_map. apply in_app_iff; right; left; reflexivity. }
    assert (Nd : (a, x) <> last) by (intros <-; apply Na'; reflexivity).
    destruct (effect_big L (a, x) last (r3_id x) old Hin Hlast Nd) as (L0 & last' & E & ->).
    assert (last' = last). { rewrite E in EL. rewrite E3 in EL. rewrite app_comm_cons in EL. rewrite app_assoc in EL. apply app_inj_tail in EL. tauto. }
    subst last'. unfold merge_effect. rewrite (find_commented_in L a x Ni Hin T). cbn [snd fst].
    destruct (targets L) as [|t ts] eqn:Et; [reflexivity|]. cbn zeta.
    apply Nat.eqb_neq in Na'. rewrite Na'. destruct (str_eqb (r3_id x) (r3_id (merged L (snd last)))) eqn:Em; [|reflexivity].
    exfalso. apply str_eqb_eq in Em. destruct (merged_id L (snd last)) as (b0 & r & Eb & Er); [rewrite Et; discriminate|].
    assert (Hr : In r (bare L)) by (rewrite Eb; apply in_app_iff; right; left; reflexivity).
    apply bare_in in Hr as [[b Hb] Tb]. assert ((a, x) = (b, r)) as X.
    { apply (nodup_map_inj (fun p => r3_id (snd p)) L); [exact Ni| | |]; try assumption. cbn. congruence. }
    injection X as <- <-. congruence.
  Qed.

  Lemma comment_kept l1 x l2 : xs = l1 ++ x :: l2 -> commented x -> (exists y, In y l2 /\ same_group x y) ->
    get_element st' (r3_id x) = Ok (E3Relationship x).
  Proof.
    intros E C (y & Hy & Hg). destruct (su_split _ _ _ E) as (P1 & a & P2 & EP & E1 & E2).
    assert (Hin : In (a, x) P) by (rewrite EP; apply in_app_iff; right; left; reflexivity).
    pose proof (su_group _ _ _ _ S (a, x) Hin) as G. cbn [snd] in G. rewrite G.
    eapply effect_commented; [apply (su_group_split _ _ _ _ EP)| |apply group_ids|apply group_addrs|apply commented_truthy; exact C].
    rewrite <- E2 in Hy. apply in_map_iff in Hy as (p & <- & Hp). intro X.
    assert (In p (filter (haskey (key x)) P2)); [|rewrite X in H; destruct H].
    apply filter_In. split; [exact Hp|]. apply haskey_true. symmetry. apply same_group_key. exact Hg.
  Qed.

  Lemma targets_in L t : In t (targets L) <-> exists a x, In (a, x) L /\ truthy_opt (r3_comment x) = false /\ In t (r3_to x).
  Proof.
    unfold targets. rewrite in_flat_map. split.
    - intros (x & Hx & Ht). apply bare_in in Hx as [[a Ha] T]. exists a, x. auto.
    - intros (a & x & Ha & T & Ht). exists x. split; [apply bare_in; split; [exists a; exact Ha|exact T]|exact Ht].
  Qed.
  Lemma member_get p k : In p P -> key (snd p) = k ->
    get_element st' (r3_id (snd p)) = group_effect (filter (haskey k) P) (r3_id (snd p)) (get_element st (r3_id (snd p))).
  Proof. intros H <-. exact (su_group _ _ _ _ S p H). Qed.
  Lemma in_value x : In x xs -> exists a, In (a, x) P /\ In (a, x) (filter (haskey (key x)) P).
  Proof.
    intro Hx. rewrite <- (su_values _ _ _ _ S) in Hx. apply in_map_iff in Hx as ([a x'] & Ex & Hin). cbn in Ex. subst x'.
    exists a. split; [exact Hin|]. apply filter_In. split; [exact Hin|apply haskey_true; reflexivity].
  Qed.
  Lemma value_in a x : In (a, x) P -> In x xs.
  Proof. intro H. rewrite <- (su_values _ _ _ _ S). apply in_map_iff. exists (a, x). auto. Qed.
  Lemma merged_group L last : same_group (merged L last) last.
  Proof. split; reflexivity. Qed.

  Lemma merged_there k L0 last : let L := filter (haskey k) P in L = L0 ++ [last] -> L0 <> [] -> targets L <> [] ->
    get_element st' (r3_id (merged L (snd last))) = Ok (E3Relationship (merged L (snd last))).
  Proof.
    intros L EL Ne NeT. destruct (merged_id L (snd last) NeT) as (b0 & r & Eb & Er).
    assert (Hr : In r (bare L)) by (rewrite Eb; apply in_app_iff; right; left; reflexivity).
    apply bare_in in Hr as [[b Hb] Tb]. pose proof (filter_key_in _ _ _ Hb) as [_ Kr]. cbn in Kr.
    assert (HP : In (b, r) P) by (apply filter_In in Hb; tauto).
    pose proof (member_get (b, r) k HP Kr) as G. cbn [snd] in G. rewrite <- Er in G. rewrite G. fold L.
    destruct L0 as [|p0 L0]; [congruence|].
    assert (D : p0 <> last).
    { intros ->. pose proof (group_addrs k) as N. fold L in N. rewrite EL in N. cbn in N. inversion N as [|? ? N1 _]; subst. apply N1.
      rewrite map_app. apply in_app_iff; right; left; reflexivity. }
    destruct (effect_big L p0 last (r3_id (merged L (snd last))) (get_element st (r3_id (merged L (snd last))))) as (L1 & last' & E & ->); [rewrite EL; left; reflexivity|rewrite EL; apply in_app_iff; right; left; reflexivity|exact D|].
    assert (last' = last) by (rewrite EL in E; apply app_inj_tail in E; symmetry; tauto). subst last'.
    unfold merge_effect. destruct (targets L); [congruence|]. cbn zeta. rewrite str_eqb_refl. reflexivity.
  Qed.

  Lemma target_kept x t : In x xs -> ~ commented x -> In t (r3_to x) ->
    exists m, get_element st' (r3_id m) = Ok (E3Relationship m) /\ same_group x m /\ In t (r3_to m).
  Proof.
    intros Hx C Ht. rewrite commented_truthy in C. apply not_true_is_false in C.
    destruct (in_value x Hx) as (a & Hin & HL). set (L := filter (haskey (key x)) P) in *.
    assert (HtL : In t (targets L)) by (apply targets_in; exists a, x; auto).
    assert (NeT : targets L <> []) by (intro X; rewrite X in HtL; destruct HtL).
    assert (NeL : L <> []) by (intro X; rewrite X in HL; destruct HL).
    destruct (exists_last NeL) as (L0 & last & EL). destruct L0 as [|p0 L0].
    - exists x. split; [|split; [split; reflexivity|exact Ht]].
      pose proof (member_get (a, x) (key x) Hin eq_refl) as G. cbn [snd] in G. rewrite G. fold L. rewrite EL in HL |- *.
      destruct HL as [->|[]]. cbn. rewrite str_eqb_refl. reflexivity.
    - exists (merged L (snd last)). split; [apply (merged_there (key x) (p0 :: L0) last EL); [discriminate|exact NeT]|].
      split; [|exact HtL]. assert (Hl : In last L) by (rewrite EL; apply in_app_iff; right; left; reflexivity).
      pose proof (filter_key_in _ _ _ Hl) as [_ K]. apply same_group_key. change (key x = key (snd last)). congruence.
  Qed.

  Lemma group_targets_is x : group_targets x xs = targets (filter (haskey (key x)) P).
  Proof.
    unfold group_targets, targets, bare. rewrite <- (su_values _ _ _ _ S). f_equal. clear S. induction P as [|p Q IH]; [reflexivity|].
    cbn [map filter]. unfold haskey at 1. unfold key at 1 2. cbn [fst snd].
    destruct (str_eqb (r3_from x) (r3_from (snd p)) && str_eqb (r3_type x) (r3_type (snd p))) eqn:E; cbn [andb].
    - cbn [map filter]. destruct (negb (truthy_opt (r3_comment (snd p)))); [f_equal|]; exact IH.
    - exact IH.
  Qed.

  (** the last relationship of a group with several *)
  Lemma last_becomes l1 x l2 : xs = l1 ++ x :: l2 -> (forall y, In y l2 -> ~ same_group x y) -> (exists y, In y l1 /\ same_group x y) ->
    group_targets x xs <> [] ->
    exists m, get_element st' (r3_id x) = Ok (E3Relationship m) /\ get_element st' (r3_id m) = Ok (E3Relationship m)
              /\ same_group x m /\ r3_to m = group_targets x xs /\ r3_comment m = None
              /\ r3_scope m = r3_scope x /\ r3_linkage m = r3_linkage x /\ r3_conditionality m = r3_conditionality x.
  Proof.
    intros E Hl2 (y & Hy & Hg) NeT. rewrite group_targets_is in *. destruct (su_split _ _ _ E) as (P1 & a & P2 & EP & E1 & E2).
    assert (Hin : In (a, x) P) by (rewrite EP; apply in_app_iff; right; left; reflexivity).
    pose proof (su_group_split _ _ _ _ EP) as EL. rewrite (filter_key_none (key x) P2) in EL.
    2: { intros z Hz Hk. rewrite E2 in Hz. apply (Hl2 z Hz). apply same_group_key. congruence. }
    set (L := filter (haskey (key x)) P) in *. set (L0 := filter (haskey (key x)) P1) in *.
    assert (Ne0 : L0 <> []).
    { rewrite <- E1 in Hy. apply in_map_iff in Hy as (p & <- & Hp). intro X. assert (In p L0); [|rewrite X in H; destruct H].
      apply filter_In. split; [exact Hp|]. apply haskey_true. symmetry. apply same_group_key. exact Hg. }
    exists (merged L x). pose proof (merged_there (key x) L0 (a, x) EL Ne0 NeT) as M. cbn [snd] in M. fold L in M.
    split; [|split; [exact M|repeat split]].
    pose proof (member_get (a, x) (key x) Hin eq_refl) as G. cbn [snd] in G. rewrite G. fold L.
    destruct L0 as [|p0 L0]; [congruence|].
    assert (D : p0 <> (a, x)).
    { intros ->. pose proof (group_addrs (key x)) as N. fold L in N. rewrite EL in N. cbn in N. inversion N as [|? ? N1 _]; subst. apply N1.
      rewrite map_app. apply in_app_iff; right; left; reflexivity. }
    destruct (effect_big L p0 (a, x) (r3_id x) (get_element st (r3_id x))) as (L1 & last' & EL' & ->); [rewrite EL; left; reflexivity|rewrite EL; apply in_app_iff; right; left; reflexivity|exact D|].
    assert (last' = (a, x)) by (rewrite EL in EL'; apply app_inj_tail in EL'; symmetry; tauto). subst last'.
    unfold merge_effect. destruct (targets L) as [|t0 ts] eqn:Et; [congruence|]. cbn zeta. cbn [snd fst].
    destruct (str_eqb (r3_id x) (r3_id (merged L x))) eqn:Em; [reflexivity|].
    destruct (truthy_opt (r3_comment x)) eqn:T.
    - rewrite (find_commented_in L a x (group_ids (key x))); [cbn; rewrite Nat.eqb_refl; reflexivity|rewrite EL; apply in_app_iff; right; left; reflexivity|exact T].
    - exfalso. apply str_eqb_neq in Em. apply Em. unfold merged, assign_merged. cbn [r3_id].
      unfold id_from, bare. rewrite EL, map_app, filter_app. cbn [map snd filter]. rewrite T. cbn [negb].
      rewrite fold_left_app. reflexivity.
  Qed.

  (** a group without any target keeps only what is commented *)
  Lemma nothing_kept x : In x xs -> ~ commented x -> (exists y, In y xs /\ y <> x /\ same_group x y) -> group_targets x xs = [] ->
    get_element st' (r3_id x) = get_element st (r3_id x).
  Proof.
    intros Hx C (y & Hy & Nxy & Hg) T. rewrite group_targets_is in T. rewrite commented_truthy in C. apply not_true_is_false in C.
    destruct (in_value x Hx) as (a & Hin & HL). destruct (in_value y Hy) as (b & Hinb & HLb).
    assert (Ek : key y = key x) by (symmetry; apply same_group_key; exact Hg). rewrite Ek in HLb.
    pose proof (member_get (a, x) (key x) Hin eq_refl) as G. cbn [snd] in G. rewrite G.
    set (L := filter (haskey (key x)) P) in *.
    destruct (effect_big L (a, x) (b, y) (r3_id x) (get_element st (r3_id x)) HL HLb) as (L0 & last & EL & ->); [congruence|].
    unfold merge_effect. rewrite T. cbn zeta.
    destruct (find_commented (r3_id x) L) as [[c z]|] eqn:F; [|reflexivity]. exfalso. apply find_some in F as [Hz F]. cbn in F.
    apply andb_true_iff in F as [F1 F2]. apply str_eqb_eq in F2.
    assert ((a, x) = (c, z)) as X by (apply (nodup_map_inj (fun p => r3_id (snd p)) L); [apply group_ids| | |]; assumption).
    injection X as <- <-. congruence.
  Qed.

  Lemma commented_no_targets x : In x xs -> commented x -> group_targets x xs = [] -> get_element st' (r3_id x) = Ok (E3Relationship x).
  Proof.
    intros Hx C T. rewrite group_targets_is in T. apply commented_truthy in C.
    destruct (in_value x Hx) as (a & Hin & HL).
    pose proof (member_get (a, x) (key x) Hin eq_refl) as G. cbn [snd] in G. rewrite G. clear G.
    pose proof (find_commented_in (filter (haskey (key x)) P) a x (group_ids (key x)) HL C) as F.
    set (L := filter (haskey (key x)) P) in *. destruct L as [|p1 [|p2 L']]; [destruct HL| |].
    - destruct HL as [->|[]]. cbn. rewrite str_eqb_refl. reflexivity.
    - unfold group_effect, merge_effect. rewrite T, F. reflexivity.
  Qed.

  (** nothing is invented *)
  Lemma nothing_invented i m : get_element st' i = Ok (E3Relationship m) -> (forall r, get_element st i <> Ok (E3Relationship r)) ->
    (exists x, In x xs /\ same_group x m) /\ (forall t, In t (r3_to m) -> exists x, In x xs /\ same_group x m /\ In t (r3_to x)).
  Proof.
    intros H Old. destruct (in_dec char_list_eq_dec i (map r3_id xs)) as [Hi|Hi].
    2: { rewrite (su_other _ _ _ _ S i Hi) in H. exfalso. exact (Old m H). }
    apply in_map_iff in Hi as (x & <- & Hx). destruct (in_value x Hx) as (a & Hin & HL).
    pose proof (member_get (a, x) (key x) Hin eq_refl) as G. cbn [snd] in G. rewrite G in H. clear G.
    set (L := filter (haskey (key x)) P) in *.
    assert (Mem : forall p, In p L -> In (snd p) xs /\ key (snd p) = key x).
    { intros p Hp. pose proof (filter_key_in _ _ _ Hp) as [H1 H2]. rewrite (su_values _ _ _ _ S) in H1. auto. }
    assert (Member : forall p, In p L -> m = snd p -> (exists x, In x xs /\ same_group x m) /\ (forall t, In t (r3_to m) -> exists x, In x xs /\ same_group x m /\ In t (r3_to x))).
    { intros p Hp ->. destruct (Mem p Hp) as [M1 M2]. split; [exists (snd p); split; [exact M1|split; reflexivity]|].
      intros t Ht. exists (snd p). split; [exact M1|]. split; [split; reflexivity|exact Ht]. }
    assert (Merged : forall last, In last L -> m = merged L (snd last) -> (exists x, In x xs /\ same_group x m) /\ (forall t, In t (r3_to m) -> exists x, In x xs /\ same_group x m /\ In t (r3_to x))).
    { intros last Hl ->. destruct (Mem last Hl) as [M1 M2]. split; [exists (snd last); split; [exact M1|split; reflexivity]|].
      intros t Ht. change (In t (targets L)) in Ht. apply targets_in in Ht as (b & y & Hy & _ & Ht). destruct (Mem _ Hy) as [Y1 Y2]. cbn in Y1, Y2.
      exists y. split; [exact Y1|]. split; [|exact Ht]. apply same_group_key. change (key y = key (snd last)). congruence. }
    destruct L as [|p1 [|p2 L']] eqn:EL; [destruct HL| |].
    - cbn in H. destruct (str_eqb (r3_id x) (r3_id (snd p1))); [|exfalso; exact (Old m H)]. injection H as <-. apply (Member p1); [left; reflexivity|reflexivity].
    - rewrite <- EL in *. destruct (exists_last (l := L)) as (L0 & last & El); [rewrite EL; discriminate|].
      assert (Hl : In last L) by (rewrite El; apply in_app_iff; right; left; reflexivity).
      assert (E : group_effect L (r3_id x) (get_element st (r3_id x)) = merge_effect L last (r3_id x) (get_element st (r3_id x))).
      { unfold group_effect. rewrite EL at 1. rewrite El at 2. rewrite last_last. reflexivity. }
      rewrite E in H. clear E. unfold merge_effect in H. cbn zeta in H.
      assert (Fc : forall q, find_commented (r3_id x) L = Some q -> In q L) by (intros q Hq; apply find_some in Hq; tauto).
      destruct (targets L).
      + destruct (find_commented (r3_id x) L) as [q|] eqn:F; [|exfalso; exact (Old m H)]. injection H as <-. apply (Member q); [apply Fc; reflexivity|reflexivity].
      + destruct (str_eqb (r3_id x) (r3_id (merged L (snd last)))); [injection H as <-; apply (Merged last Hl eq_refl)|].
        destruct (find_commented (r3_id x) L) as [q|] eqn:F; [|exfalso; exact (Old m H)].
        destruct (Nat.eqb (fst q) (fst last)); injection H as <-; [apply (Merged last Hl eq_refl)|apply (Member q); [apply Fc; reflexivity|reflexivity]].
  Qed.
End Values.
