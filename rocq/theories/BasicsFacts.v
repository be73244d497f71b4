(** Facts about the small conversions. *)
From Verif Require Import Py PyFacts PyRe PyReFacts Data Basics ValidationSpec BasicsSpec.

(** ** Versions *)
Lemma DecimalOf_nonempty s n : DecimalOf s n -> s <> [].
Proof. destruct 1; [discriminate|]. intro K. apply app_eq_nil in K as [_ K]. discriminate. Qed.
Lemma dec_val_from_snoc acc s c d :
  digit_val c = Some d ->
  dec_val_from acc (s ++ [c]) = match dec_val_from acc s with Some n => Some (n * 10 + d)%N | None => None end.
Proof.
  intro Hc. revert acc; induction s as [|x s IH]; intro acc; cbn [app dec_val_from].
  - rewrite Hc. reflexivity.
  - destruct (digit_val x); auto.
Qed.
Lemma dec_val_snoc s c d : digit_val c = Some d -> s <> [] ->
  dec_val (s ++ [c]) = match dec_val s with Some n => Some (n * 10 + d)%N | None => None end.
Proof.
  intros Hc Hs. destruct s as [|x s]; [contradiction|]. unfold dec_val. cbn [app]. apply (dec_val_from_snoc 0 (x :: s)); auto.
Qed.
Lemma DecimalOf_dec_val s n : DecimalOf s n -> dec_val s = Some n.
Proof.
  induction 1 as [c d H|s n c d H IH Hc].
  - unfold dec_val. cbn [dec_val_from]. rewrite H. reflexivity.
  - rewrite (dec_val_snoc _ _ d); auto; [|eapply DecimalOf_nonempty; eauto]. rewrite IH. f_equal. lia.
Qed.
Lemma is_digit_spec c : is_digit c = true <-> exists d, digit_val c = Some d.
Proof. unfold is_digit. destruct (digit_val c); split; intro H; eauto; try discriminate. destruct H; discriminate. Qed.
Lemma digits_DecimalOf s : s <> [] -> forallb is_digit s = true -> exists n, DecimalOf s n.
Proof.
  induction s as [|c s IH] using rev_ind; intros Hs H; [contradiction|].
  rewrite forallb_app in H. apply andb_true_iff in H as [H1 H2]. cbn in H2. rewrite andb_true_r in H2.
  apply is_digit_spec in H2 as (d & Hd). destruct s as [|x s].
  - exists d. apply Dec_one; auto.
  - destruct IH as (n & Hn); auto; [discriminate|]. eexists. eapply Dec_snoc; eauto.
Qed.
Lemma DecimalOf_digits s n : DecimalOf s n -> forallb is_digit s = true.
Proof.
  induction 1 as [c d H|s n c d H IH Hc].
  - cbn. rewrite andb_true_r. apply is_digit_spec; eauto.
  - rewrite forallb_app, IH. cbn. rewrite andb_true_r. apply is_digit_spec; eauto.
Qed.
Lemma DecimalOf_iff s n : DecimalOf s n <-> dec_val s = Some n.
Proof.
  split; [apply DecimalOf_dec_val|]. intro H.
  assert (Hne : s <> []) by (destruct s; discriminate).
  assert (Hd : forallb is_digit s = true).
  { assert (K : forall s acc n, dec_val_from acc s = Some n -> forallb is_digit s = true).
    { clear. induction s as [|c s IH]; intros acc n H; auto. cbn [dec_val_from forallb] in *. unfold is_digit.
      destruct (digit_val c); [|discriminate]. eauto. }
    destruct s as [|c s]; [contradiction|]. eapply K. exact H. }
  destruct (digits_DecimalOf s Hne Hd) as (m & Hm). pose proof (DecimalOf_dec_val _ _ Hm). congruence.
Qed.

Lemma digit_not_dot c : is_digit c = true -> N.eqb #"." c = false.
Proof.
  intro H. destruct (N.eqb #"." c) eqn:E; auto. apply N.eqb_eq in E. subst. vm_compute in H. discriminate.
Qed.
Lemma digit_not_LF c : is_digit c = true -> N.eqb c LF = false.
Proof.
  intro H. destruct (N.eqb c LF) eqn:E; auto. apply N.eqb_eq in E. subst. vm_compute in H. discriminate.
Qed.

(** [version_re] as a deterministic scanner *)
Definition at_end (s : pystr) : bool := match s with [] => true | [c] => N.eqb c LF | _ => false end.
Lemma version_re_scan s :
  re_match version_re s =
  match takewhile is_digit s, dropwhile is_digit s with
  | (_ :: _) as a, x :: r =>
      if N.eqb #"." x then
        match takewhile is_digit r, dropwhile is_digit r with
        | (_ :: _) as b, e => if at_end e then Some [(2, b); (1, a)] else None
        | _, _ => None
        end
      else None
  | _, _ => None
  end.
Proof.
  unfold re_match, version_re, pcats, pplus. cbn [pm].
  destruct s as [|c s]; [reflexivity|]. cbn [takewhile dropwhile]. destruct (is_digit c) eqn:Ec; [|reflexivity].
  rewrite star_bt_max.
  2:{ intros x t Hx. rewrite digit_not_dot; auto. }
  destruct (dropwhile is_digit s) as [|x r] eqn:Ed; [reflexivity|].
  destruct (N.eqb #"." x) eqn:Ex; [|reflexivity].
  destruct r as [|e r]; [reflexivity|]. cbn [takewhile dropwhile]. destruct (is_digit e) eqn:Ee; [|reflexivity].
  rewrite star_bt_max.
  2:{ intros y t Hy. destruct t; auto. rewrite digit_not_LF; auto. }
  assert (Hs : c :: s = (c :: takewhile is_digit s) ++ x :: e :: r) by (cbn; rewrite <- Ed, <- takewhile_dropwhile; reflexivity).
  assert (Hr : e :: r = (e :: takewhile is_digit r) ++ dropwhile is_digit r) by (cbn; rewrite <- takewhile_dropwhile; reflexivity).
  pose proof (firstn_len_app (c :: takewhile is_digit s) (x :: e :: r)) as F1. rewrite <- Hs in F1.
  pose proof (firstn_len_app (e :: takewhile is_digit r) (dropwhile is_digit r)) as F2. rewrite <- Hr in F2.
  destruct (dropwhile is_digit r) as [|y [|z t]] eqn:Er; cbn [at_end]; auto.
  - rewrite F1, F2. reflexivity.
  - destruct (N.eqb y LF); auto. rewrite F1, F2. reflexivity.
Qed.
Lemma takewhile_app p a b : forallb p a = true -> (forall c t, b = c :: t -> p c = false) -> takewhile p (a ++ b) = a.
Proof.
  intros Ha Hb. induction a as [|c a IH]; cbn [app takewhile].
  - destruct b as [|c b]; auto. cbn. rewrite (Hb c b); auto.
  - cbn in Ha. apply andb_true_iff in Ha as [-> Ha]. f_equal. auto.
Qed.
Lemma dropwhile_app_stop p a b : forallb p a = true -> (forall c t, b = c :: t -> p c = false) -> dropwhile p (a ++ b) = b.
Proof. intros Ha Hb. rewrite dropwhile_app; auto. apply dropwhile_id. auto. Qed.

Theorem version_from_string_spec s v :
  version_from_string s = Ok v <-> modulo_final_LF (VersionText v) s.
Proof.
  unfold version_from_string. rewrite version_re_scan. split.
  - intro H. destruct (takewhile is_digit s) as [|c a] eqn:Ea; [discriminate|].
    destruct (dropwhile is_digit s) as [|x r] eqn:Ed; [discriminate|].
    destruct (N.eqb #"." x) eqn:Ex; [|discriminate]. apply N.eqb_eq in Ex.
    destruct (takewhile is_digit r) as [|e b] eqn:Eb; [discriminate|].
    destruct (at_end (dropwhile is_digit r)) eqn:Ee; [|discriminate].
    cbn [group find fst Nat.eqb] in H.
    destruct (dec_val (c :: a)) as [m|] eqn:Dm; [|discriminate]. destruct (dec_val (e :: b)) as [n|] eqn:Dn; [|discriminate].
    injection H as <-.
    assert (Hs : s = (c :: a) ++ $"." ++ (e :: b) ++ dropwhile is_digit r).
    { rewrite <- Eb, <- takewhile_dropwhile. change ($"." ++ r) with (#"." :: r). rewrite Ex, <- Ed, <- Ea, <- takewhile_dropwhile. reflexivity. }
    destruct (dropwhile is_digit r) as [|y [|z t]]; try discriminate.
    + left. exists (c :: a), (e :: b). rewrite app_nil_r in Hs. cbn [v_major v_minor]. rewrite !DecimalOf_iff. auto.
    + right. cbn in Ee. apply N.eqb_eq in Ee. subst y. exists ((c :: a) ++ $"." ++ (e :: b)). split.
      * rewrite Hs, <- !app_assoc. reflexivity.
      * exists (c :: a), (e :: b). cbn [v_major v_minor]. rewrite !DecimalOf_iff. auto.
  - intro H.
    assert (K : exists a b e, s = a ++ $"." ++ b ++ e /\ at_end e = true /\ DecimalOf a (v_major v) /\ DecimalOf b (v_minor v)
                              /\ (forall c t, e = c :: t -> is_digit c = false)).
    { destruct H as [(a & b & -> & Ha & Hb)|(t & -> & (a & b & -> & Ha & Hb))].
      - exists a, b, []. rewrite app_nil_r. repeat split; auto. intros; discriminate.
      - exists a, b, [LF]. rewrite <- !app_assoc. repeat split; auto. intros c t [= <- <-]. reflexivity. }
    destruct K as (a & b & e & -> & He & Ha & Hb & Hd).
    pose proof (DecimalOf_digits _ _ Ha) as Hda. pose proof (DecimalOf_digits _ _ Hb) as Hdb.
    pose proof (DecimalOf_nonempty _ _ Ha) as Hna. pose proof (DecimalOf_nonempty _ _ Hb) as Hnb.
    rewrite takewhile_app, dropwhile_app_stop; auto; try (intros c t [= <- <-]; reflexivity).
    destruct a as [|c a]; [contradiction|]. cbn [app lit list_ascii_of_string map].
    change (N.eqb #"." (N_of_ascii ".")) with true. cbv iota.
    rewrite takewhile_app, dropwhile_app_stop; auto. destruct b as [|x b]; [contradiction|]. rewrite He.
    cbn [group find fst Nat.eqb]. rewrite DecimalOf_iff in Ha, Hb. rewrite Ha, Hb. destruct v; reflexivity.
Qed.
Lemma str_of_N_DecimalOf n : DecimalOf (str_of_N n) n.
Proof. apply DecimalOf_iff, dec_val_str_of_N. Qed.
Theorem version_round_trip v : version_from_string (version_str v) = Ok v.
Proof.
  apply version_from_string_spec. left. exists (str_of_N (v_major v)), (str_of_N (v_minor v)).
  repeat split; apply str_of_N_DecimalOf.
Qed.
Theorem version_rejects s :
  (~ exists v, modulo_final_LF (VersionText v) s) ->
  version_from_string s = Raise (EValue (s ++ $" is not a valid version string")).
Proof.
  intro H. destruct (version_from_string s) as [v|e] eqn:E.
  { exfalso. apply H. exists v. apply version_from_string_spec; auto. }
  unfold version_from_string in E. rewrite version_re_scan in E.
  destruct (takewhile is_digit s) as [|c a] eqn:Ea; [congruence|].
  destruct (dropwhile is_digit s) as [|x r] eqn:Ed; [congruence|].
  destruct (N.eqb #"." x) eqn:Ex; [|congruence].
  destruct (takewhile is_digit r) as [|e' b] eqn:Eb; [congruence|].
  destruct (at_end (dropwhile is_digit r)) eqn:Ee; [|congruence].
  cbn [group find fst Nat.eqb] in E.
  assert (Ha : forallb is_digit (c :: a) = true) by (rewrite <- Ea; apply takewhile_all).
  assert (Hb : forallb is_digit (e' :: b) = true) by (rewrite <- Eb; apply takewhile_all).
  destruct (digits_DecimalOf (c :: a)) as (m & Hm); [discriminate|auto|].
  destruct (digits_DecimalOf (e' :: b)) as (n & Hn); [discriminate|auto|].
  rewrite DecimalOf_iff in Hm, Hn. rewrite Hm, Hn in E. discriminate.
Qed.
