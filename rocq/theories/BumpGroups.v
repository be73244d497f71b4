(** The groups that bump_relationships makes, and what it leaves in the payload. *)
From Verif Require Import Py Data Oracles DocUtils Payload Bump BumpSpec PyFacts BumpFacts BumpMerge.

Definition key (x : rel3) : pystr * pystr := (r3_from x, r3_type x).
Definition erase (G : groups (nat * rel3)) : groups nat := map (fun g => (fst g, map fst (snd g))) G.
Definition collect (P : list (nat * rel3)) (G : groups (nat * rel3)) : groups (nat * rel3) :=
  fold_left (fun G p => group_append (key (snd p)) p G) P G.
Definition haskey (k : pystr * pystr) (p : nat * rel3) : bool :=
  str_eqb (fst k) (r3_from (snd p)) && str_eqb (snd k) (r3_type (snd p)).

Lemma haskey_true k p : haskey k p = true <-> key (snd p) = k.
Proof.
  unfold haskey, key. rewrite andb_true_iff, !str_eqb_eq. destruct k as [k1 k2]; cbn. split; [intros [-> ->]; reflexivity|].
  intro H; injection H as -> ->. split; reflexivity.
Qed.
Lemma key_eqb (k k' : pystr * pystr) : str_eqb (fst k) (fst k') && str_eqb (snd k) (snd k') = true <-> k = k'.
Proof.
  rewrite andb_true_iff, !str_eqb_eq. destruct k, k'; cbn. split; [intros [-> ->]; reflexivity|]. intro H; injection H as -> ->. split; reflexivity.
Qed.

Lemma erase_append k p G : group_append k (fst p) (erase G) = erase (group_append k p G).
Proof.
  induction G as [|[k' L] G IH]; [reflexivity|]. cbn [erase map fst snd group_append].
  destruct (str_eqb (fst k') (fst k) && str_eqb (snd k') (snd k)).
  - cbn [erase map fst snd]. rewrite map_app. reflexivity.
  - cbn [erase map fst snd]. f_equal. exact IH.
Qed.

Lemma generate_is rs : forall ns c st G,
  generate_relationships rs ns c st (erase G) =
  (with_objs st (b_objs st ++ map E3Relationship (converted_from ns c rs)),
   erase (collect (combine (seq (List.length (b_objs st)) (List.length (converted_from ns c rs))) (converted_from ns c rs)) G)).
Proof.
  induction rs as [|r rs IH]; intros ns c st G.
  - cbn. rewrite app_nil_r. destruct st; reflexivity.
  - cbn [generate_relationships converted_from]. destruct (bump_relationship r ns c) as [x|]; [|cbn [app]; apply IH].
    cbn [new_object app map List.length seq combine collect fold_left snd].
    change (List.length (b_objs st)) with (fst (List.length (b_objs st), x)) at 1.
    rewrite erase_append, IH. cbn [with_objs b_objs b_cis b_map]. rewrite app_length, <- app_assoc. cbn [List.length app].
    rewrite Nat.add_1_r. reflexivity.
Qed.

(** * The shape of the groups *)

Lemma append_in {A} k (a : A) G k' L' : NoDup (map fst G) -> In (k', L') (group_append k a G) ->
  (k' <> k /\ In (k', L') G) \/ (k' = k /\ ((exists L, In (k, L) G /\ L' = L ++ [a]) \/ (~ In k (map fst G) /\ L' = [a]))).
Proof.
  induction G as [|[k0 L0] G IH]; intros N H.
  - destruct H as [H|[]]. injection H as <- <-. right. split; [reflexivity|]. right. split; [intros []|reflexivity].
  - cbn [group_append] in H. inversion N as [|? ? N1 N2]; subst.
    destruct (str_eqb (fst k0) (fst k) && str_eqb (snd k0) (snd k)) eqn:E.
    + apply key_eqb in E. subst k0. destruct H as [H|H].
      * injection H as <- <-. right. split; [reflexivity|]. left. exists L0. split; [left; reflexivity|reflexivity].
      * left. split; [|right; exact H]. intros ->. apply N1. apply in_map_iff. exists (k, L'). auto.
    + assert (Nk : k0 <> k) by (intro X; apply key_eqb in X; congruence).
      destruct H as [H|H].
      * injection H as <- <-. left. split; [exact Nk|left; reflexivity].
      * destruct (IH N2 H) as [[H1 H2]|[H1 [(L & H2 & H3)|[H2 H3]]]].
        -- left. split; [exact H1|right; exact H2].
        -- right. split; [exact H1|]. left. exists L. split; [right; exact H2|exact H3].
        -- right. split; [exact H1|]. right. split; [intros [X|X]; [exact (Nk X)|tauto]|exact H3].
Qed.
Lemma append_key_in {A} k (a : A) G k' : In k' (map fst (group_append k a G)) <-> k' = k \/ In k' (map fst G).
Proof.
  induction G as [|[k0 L0] G IH]; cbn [group_append map fst In]; [intuition congruence|].
  destruct (str_eqb (fst k0) (fst k) && str_eqb (snd k0) (snd k)) eqn:E; cbn [map fst In].
  - apply key_eqb in E. subst. intuition congruence.
  - rewrite IH. tauto.
Qed.
Lemma append_nodup {A} k (a : A) G : NoDup (map fst G) -> NoDup (map fst (group_append k a G)).
Proof.
  induction G as [|[k0 L0] G IH]; intro N; [constructor; [intros []|constructor]|]. inversion N as [|? ? N1 N2]; subst. cbn [group_append].
  destruct (str_eqb (fst k0) (fst k) && str_eqb (snd k0) (snd k)) eqn:E; cbn [map fst].
  - constructor; assumption.
  - constructor; [|exact (IH N2)]. intro H. apply append_key_in in H as [H|H]; [|tauto]. apply key_eqb in H. congruence.
Qed.

Lemma filter_none {A} (f : A -> bool) l : (forall x, In x l -> f x = false) -> filter f l = [].
Proof. induction l as [|x l IH]; intro H; [reflexivity|]. cbn. rewrite (H x (or_introl eq_refl)). apply IH. intros; apply H; right; assumption. Qed.

Record Grouped (P : list (nat * rel3)) (G : groups (nat * rel3)) : Prop := {
  gr_nodup : NoDup (map fst G);
  gr_filter : forall k L, In (k, L) G -> L = filter (haskey k) P /\ L <> [];
  gr_all : forall p, In p P -> In (key (snd p)) (map fst G)
}.
Lemma collect_grouped P : Grouped P (collect P []).
Proof.
  induction P as [|p P IH] using rev_ind.
  - constructor; [constructor|intros k L []|intros p []].
  - unfold collect in *. rewrite fold_left_app. cbn [fold_left]. set (G := fold_left (fun (G : groups (nat * rel3)) (p : nat * rel3) => group_append (key (snd p)) p G) P []) in *.
    destruct IH as [N F A]. constructor.
    + apply append_nodup. exact N.
    + intros k L H. apply append_in in H; [|exact N]. rewrite filter_app. cbn [filter].
      destruct H as [[H1 H2]|[H1 [(L0 & H2 & H3)|[H2 H3]]]].
      * destruct (F _ _ H2) as [F1 F2]. destruct (haskey k p) eqn:E; [apply haskey_true in E; congruence|].
        rewrite app_nil_r. split; assumption.
      * subst. destruct (F _ _ H2) as [F1 F2]. assert (haskey (key (snd p)) p = true) as -> by (apply haskey_true; reflexivity).
        split; [congruence|]. intro X. apply app_eq_nil in X as [_ X]. discriminate.
      * subst. assert (haskey (key (snd p)) p = true) as -> by (apply haskey_true; reflexivity).
        rewrite filter_none; [split; [reflexivity|discriminate]|]. intros q Hq. destruct (haskey (key (snd p)) q) eqn:E; [|reflexivity].
        apply haskey_true in E. exfalso. apply H2. rewrite <- E. exact (A q Hq).
    + intros q Hq. apply append_key_in. apply in_app_iff in Hq as [Hq|[<-|[]]]; [right; exact (A q Hq)|left; reflexivity].
Qed.

(** * What adding the groups leaves in the payload *)
Definition group_effect (L : list (nat * rel3)) (i : pystr) (old : result element3) : result element3 :=
  match L with
  | [] => old
  | [p] => if str_eqb i (r3_id (snd p)) then Ok (E3Relationship (snd p)) else old
  | p :: _ => merge_effect L (List.last L p) i old
  end.
Lemma group_effect_absent L i old : ~ In i (ids L) -> group_effect L i old = old.
Proof.
  intro H. unfold group_effect. destruct L as [|p [|q L]]; [reflexivity| |apply merge_effect_absent; exact H].
  destruct (str_eqb i (r3_id (snd p))) eqn:E; [|reflexivity]. apply str_eqb_eq in E. exfalso. apply H. left. symmetry. exact E.
Qed.

Definition addr_ok (P : list (nat * rel3)) : Prop := NoDup (map fst P) /\ NoDup (ids P).

Lemma nodup_map_filter {A B} (f : A -> B) g l : NoDup (map f l) -> NoDup (map f (filter g l)).
Proof.
  induction l as [|x l IH]; intro N; [constructor|]. inversion N as [|? ? N1 N2]; subst. cbn. destruct (g x); [|exact (IH N2)].
  cbn. constructor; [|exact (IH N2)]. intro H. apply N1. apply in_map_iff in H as (y & E & Hy). apply filter_In in Hy as [Hy _].
  apply in_map_iff. exists y. auto.
Qed.
Lemma nodup_fst_inj {A B} (P : list (A * B)) a x y : NoDup (map fst P) -> In (a, x) P -> In (a, y) P -> x = y.
Proof.
  induction P as [|[b z] P IH]; intros N Hx Hy; [destruct Hx|]. inversion N as [|? ? N1 N2]; subst. cbn in N1.
  destruct Hx as [Hx|Hx], Hy as [Hy|Hy]; try congruence.
  - injection Hx as <- <-. exfalso. apply N1. apply in_map_iff. exists (b, y). auto.
  - injection Hy as <- <-. exfalso. apply N1. apply in_map_iff. exists (b, x). auto.
  - exact (IH N2 Hx Hy).
Qed.
Lemma nodup_map_inj {A B} (f : A -> B) P a b : NoDup (map f P) -> In a P -> In b P -> f a = f b -> a = b.
Proof.
  induction P as [|c P IH]; intros N Ha Hb E; [destruct Ha|]. inversion N as [|? ? N1 N2]; subst.
  destruct Ha as [<-|Ha], Hb as [<-|Hb]; [reflexivity| | |exact (IH N2 Ha Hb E)].
  - exfalso. apply N1. rewrite E. apply in_map. exact Hb.
  - exfalso. apply N1. rewrite <- E. apply in_map. exact Ha.
Qed.

Lemma add_element_unknown st a (e : element3) k b : nth_error (b_objs st) a = Some e ->
  assoc k (b_map (add_element st a)) = Some b -> assoc k (b_map st) = Some b \/ b = a.
Proof.
  intro H. unfold add_element. rewrite H. cbn [with_map b_map]. rewrite LoadingFacts.dict_set_assoc.
  destruct (str_eqb k (e3_id e)); [intro E; injection E as <-; right; reflexivity|tauto].
Qed.

(** one group *)
Lemma one_group L st : At st L -> NoDup (map fst L) -> NoDup (ids L) -> unknown st L -> L <> [] ->
  let st' := match map fst L with [a] => add_element st a | l => merge_relationships l st end in
  (forall i, get_element st' i = group_effect L i (get_element st i)) /\
  (forall b, ~ In b (map fst L) -> nth_error (b_objs st') b = nth_error (b_objs st) b) /\
  (forall k b, assoc k (b_map st') = Some b -> assoc k (b_map st) = Some b \/ In b (map fst L)) /\
  b_cis st' = b_cis st /\ List.length (b_objs st') = List.length (b_objs st).
Proof.
  intros H Na Ni U Ne. destruct L as [|[a r] [|q L]]; [congruence| |].
  - cbn [map fst]. pose proof (H a r (or_introl eq_refl)) as Ha. apply rel_at_nth in Ha. cbn zeta.
    split; [|split; [|split; [|split]]].
    + intro i. rewrite (get_add_element _ _ _ _ Ha). reflexivity.
    + intros b _. rewrite add_element_objs. reflexivity.
    + intros k b Hk. destruct (add_element_unknown _ _ _ _ _ Ha Hk) as [X | ->]; [left; exact X|right; left; reflexivity].
    + apply add_element_cis.
    + rewrite add_element_objs. reflexivity.
  - set (L' := (a, r) :: q :: L) in *.
    assert (E : exists L0 last, L' = L0 ++ [last]) by (destruct (exists_last Ne) as (L0 & l & E); exists L0, l; exact E).
    destruct E as (L0 & last & E).
    replace (match map fst L' with [x] => add_element st x | l => merge_relationships l st end) with (merge_relationships (map fst L') st) by reflexivity.
    assert (Eg : forall i old, group_effect L' i old = merge_effect L' last i old).
    { intros i old. unfold group_effect. change (merge_effect L' (List.last L' (a, r)) i old = merge_effect L' last i old).
      rewrite E at 2. rewrite last_last. reflexivity. }
    cbn zeta. rewrite E in *. split; [|split; [|split; [|split]]].
    + intro i. rewrite Eg. apply merge_get; assumption.
    + intros b Hb. apply merge_objs; assumption.
    + intros k b Hk. apply (merge_map L0 last st); assumption.
    + apply merge_cis; assumption.
    + apply merge_length; assumption.
Qed.

Lemma add_groups_is P : addr_ok P -> forall G st, NoDup (map fst G) ->
  (forall k L, In (k, L) G -> L = filter (haskey k) P /\ L <> []) ->
  (forall k L, In (k, L) G -> At st L /\ unknown st L) ->
  let st' := add_groups (erase G) st in
  (forall i, get_element st' i = fold_left (fun old g => group_effect (snd g) i old) G (get_element st i)) /\
  b_cis st' = b_cis st /\ List.length (b_objs st') = List.length (b_objs st) /\
  (forall b, ~ In b (map fst P) -> nth_error (b_objs st') b = nth_error (b_objs st) b) /\
  (forall k b, assoc k (b_map st') = Some b -> assoc k (b_map st) = Some b \/ In b (map fst P)).
Proof.
  intros [Na Ni]. induction G as [|[k L] G IH]; intros st N F S; [cbn; repeat split; auto|].
  inversion N as [|? ? N1 N2]; subst. cbn [fst] in N1.
  destruct (F k L (or_introl eq_refl)) as [EL NeL]. destruct (S k L (or_introl eq_refl)) as [SA SU].
  assert (NaL : NoDup (map fst L)) by (rewrite EL; apply nodup_map_filter; exact Na).
  assert (NiL : NoDup (ids L)) by (rewrite EL; unfold ids; apply nodup_map_filter; exact Ni).
  pose proof (one_group L st SA NaL NiL SU NeL) as One. cbn zeta in One.
  set (st1 := match map fst L with [a] => add_element st a | l => merge_relationships l st end) in *.
  assert (Eadd : add_groups (erase ((k, L) :: G)) st = add_groups (erase G) st1).
  { cbn [erase map fst snd add_groups]. unfold st1. destruct (map fst L) as [|a [|b l]]; reflexivity. }
  destruct One as (O1 & O2 & O3 & O4 & O5).
  assert (LP : forall a, In a (map fst L) -> In a (map fst P)).
  { intros a Ha. apply in_map_iff in Ha as (p & E & Hp). rewrite EL in Hp. apply filter_In in Hp as [Hp _]. apply in_map_iff. exists p. auto. }
  assert (Disj : forall k' L', In (k', L') G -> forall a, In a (map fst L') -> ~ In a (map fst L)).
  { intros k' L' Hin a Ha Hb. destruct (F k' L' (or_intror Hin)) as [EL' _].
    apply in_map_iff in Ha as ([a1 x] & <- & Hx). apply in_map_iff in Hb as ([a2 y] & Ea & Hy). cbn in Ea. subst a2.
    rewrite EL' in Hx. rewrite EL in Hy. apply filter_In in Hx as [Hx Kx]. apply filter_In in Hy as [Hy Ky].
    cbn [fst] in Hy. assert (x = y) by exact (nodup_fst_inj P a1 x y Na Hx Hy). subst y.
    apply haskey_true in Kx. apply haskey_true in Ky. cbn in Kx, Ky. apply N1. rewrite <- Ky, Kx. apply in_map_iff. exists (k', L'). auto. }
  assert (S1 : forall k' L', In (k', L') G -> At st1 L' /\ unknown st1 L').
  { intros k' L' Hin. destruct (S k' L' (or_intror Hin)) as [A1 U1]. split.
    - intros a x Hx. apply rel_at_nth. rewrite O2; [apply rel_at_nth; exact (A1 a x Hx)|].
      apply (Disj k' L' Hin). apply in_map_iff. exists (a, x). auto.
    - intros j b Hb Hin'. destruct (O3 _ _ Hb) as [Hb'|Hb']; [exact (U1 _ _ Hb' Hin')|exact (Disj k' L' Hin b Hin' Hb')]. }
  destruct (IH st1 N2 (fun k' L' H => F k' L' (or_intror H)) S1) as (I1 & I2 & I3 & I4 & I5). cbn zeta. rewrite Eadd.
  split; [|split; [|split; [|split]]].
  - intro i. rewrite I1, O1. reflexivity.
  - congruence.
  - congruence.
  - intros b Hb. rewrite I4 by exact Hb. apply O2. intro X. apply Hb. apply LP. exact X.
  - intros j b Hb. destruct (I5 _ _ Hb) as [X|X]; [|right; exact X]. destruct (O3 _ _ X) as [Y|Y]; [left; exact Y|right; exact (LP _ Y)].
Qed.

(** the effect of all groups on one id is the effect of its group *)
Lemma fold_effect_none (G : groups (nat * rel3)) i old : (forall k L, In (k, L) G -> ~ In i (ids L)) ->
  fold_left (fun old g => group_effect (snd g) i old) G old = old.
Proof.
  revert old; induction G as [|[k L] G IH]; intros old H; [reflexivity|]. cbn [fold_left snd].
  rewrite group_effect_absent by exact (H k L (or_introl eq_refl)). apply IH. intros k' L' Hin. apply (H k' L'). right; exact Hin.
Qed.
Lemma fold_effect_one P (G : groups (nat * rel3)) k L i old : addr_ok P -> NoDup (map fst G) ->
  (forall k L, In (k, L) G -> L = filter (haskey k) P /\ L <> []) -> In (k, L) G -> In i (ids L) ->
  fold_left (fun old g => group_effect (snd g) i old) G old = group_effect L i old.
Proof.
  intros [Na Ni] N F Hin Hi. apply in_split in Hin as (G1 & G2 & ->).
  assert (Oth : forall k' L', In (k', L') (G1 ++ G2) -> ~ In i (ids L')).
  { intros k' L' Hin' Hi'. destruct (F k L) as [EL _]; [apply in_app_iff; right; left; reflexivity|].
    assert (Hin2 : In (k', L') (G1 ++ (k, L) :: G2)) by (apply in_app_iff; apply in_app_iff in Hin' as [|]; [left|right; right]; assumption).
    destruct (F k' L' Hin2) as [EL' _].
    apply in_map_iff in Hi as (p & Ep & Hp). apply in_map_iff in Hi' as (q & Eq & Hq).
    rewrite EL in Hp. rewrite EL' in Hq. apply filter_In in Hp as [Hp Kp]. apply filter_In in Hq as [Hq Kq].
    assert (p = q) by (apply (nodup_map_inj (fun p => r3_id (snd p)) P); [exact Ni| | |congruence]; assumption). subst q.
    apply haskey_true in Kp. apply haskey_true in Kq. assert (k = k') by congruence. subst k'.
    rewrite map_app in N. cbn [map fst] in N. apply NoDup_remove_2 in N. apply N. rewrite <- map_app.
    apply in_map_iff. exists (k, L'). split; [reflexivity|rewrite <- Kp; exact Hin']. }
  rewrite fold_left_app. cbn [fold_left snd].
  rewrite (fold_effect_none G1) by (intros k' L' H; apply (Oth k' L'); apply in_app_iff; left; exact H).
  apply fold_effect_none. intros k' L' H. apply (Oth k' L'). apply in_app_iff; right; exact H.
Qed.
