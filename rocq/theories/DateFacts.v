(** Facts about the calendar and about timestamps. *)
From Verif Require Import Py PyFacts PyRe PyReFacts Data Basics ValidationSpec BasicsSpec BasicsFacts.
Open Scope Z_scope.

Lemma is_leap_spec y : is_leap y = true <-> leap y.
Proof.
  unfold is_leap, leap. rewrite andb_true_iff, orb_true_iff, negb_true_iff, !Z.eqb_eq, Z.eqb_neq.
  rewrite !Z.mod_divide by discriminate. tauto.
Qed.
Lemma is_leap_false y : is_leap y = false <-> ~ leap y.
Proof. rewrite <- is_leap_spec. destruct (is_leap y); intuition discriminate. Qed.
Lemma month_days_spec y m n : month_days y m n <-> 1 <= m <= 12 /\ n = days_in_month y m.
Proof.
  unfold month_days. split.
  - intros [[H ->]|[[H ->]|[(-> & H & ->)|(-> & H & ->)]]].
    + cbn in H. repeat (destruct H as [<-|H]); [..|contradiction]; split; reflexivity || lia.
    + cbn in H. repeat (destruct H as [<-|H]); [..|contradiction]; split; reflexivity || lia.
    + split; [lia|]. cbn. apply is_leap_spec in H. rewrite H. reflexivity.
    + split; [lia|]. cbn. apply is_leap_false in H. rewrite H. reflexivity.
  - intros [H ->]. assert (K : In m [1;2;3;4;5;6;7;8;9;10;11;12]) by (cbn; lia). cbn in K.
    repeat (destruct K as [<-|K]); [..|contradiction]; cbn [days_in_month];
      try (left; split; [cbn; tauto|reflexivity]); try (right; left; split; [cbn; tauto|reflexivity]).
    right; right. destruct (is_leap y) eqn:E; [left; apply is_leap_spec in E; auto|right; apply is_leap_false in E; auto].
Qed.
Definition ValidDate (a : date) : Prop :=
  let '(y, m, d) := a in 1 <= y /\ 1 <= m <= 12 /\ 1 <= d <= days_in_month y m.
Definition ordinal (a : date) : Z := let '(y, m, d) := a in ymd2ord y m d.

Lemma leap_year_step y : days_before_year (y + 1) = days_before_year y + 365 + (if is_leap y then 1 else 0).
Proof.
  unfold days_before_year, is_leap. cbv zeta. replace (y + 1 - 1) with y by lia.
  assert (D : forall k, 0 < k -> y / k = (y - 1) / k + (if y mod k =? 0 then 1 else 0)).
  { intros k Hk. pose proof (Z.div_mod y k ltac:(lia)) as E. pose proof (Z.mod_pos_bound y k Hk) as B.
    destruct (Z.eqb_spec (y mod k) 0) as [Hm|Hm].
    - replace ((y - 1) / k) with (y / k - 1); [lia|]. apply (Z.div_unique _ _ _ (k - 1)); lia.
    - replace ((y - 1) / k) with (y / k); [lia|]. apply (Z.div_unique _ _ _ (y mod k - 1)); lia. }
  rewrite (D 4), (D 100), (D 400) by lia.
  assert (M : y mod 400 = 0 -> y mod 100 = 0).
  { intro H. apply Z.mod_divide in H; [|lia]. apply Z.mod_divide; [lia|]. destruct H as [z ->]. exists (z * 4). lia. }
  assert (M4 : y mod 100 = 0 -> y mod 4 = 0).
  { intro H. apply Z.mod_divide in H; [|lia]. apply Z.mod_divide; [lia|]. destruct H as [z ->]. exists (z * 25). lia. }
  destruct (Z.eqb_spec (y mod 4) 0), (Z.eqb_spec (y mod 100) 0), (Z.eqb_spec (y mod 400) 0); cbn [negb andb orb]; lia.
Qed.
Lemma month_step y m : 1 <= m < 12 -> days_before_month y (m + 1) = days_before_month y m + days_in_month y m.
Proof.
  intro H. assert (K : In m [1;2;3;4;5;6;7;8;9;10;11]) by (cbn; lia). cbn in K.
  repeat (destruct K as [<-|K]); [..|contradiction]; unfold days_before_month; cbn; destruct (is_leap y); reflexivity.
Qed.
Lemma days_in_month_pos y m : 1 <= m <= 12 -> 28 <= days_in_month y m <= 31.
Proof.
  intro H. assert (K : In m [1;2;3;4;5;6;7;8;9;10;11;12]) by (cbn; lia). cbn in K.
  repeat (destruct K as [<-|K]); [..|contradiction]; cbn [days_in_month]; try lia. destruct (is_leap y); lia.
Qed.
Lemma tomorrow_ord a b : ValidDate a -> Tomorrow a b -> ValidDate b /\ ordinal b = ordinal a + 1.
Proof.
  intros Ha H. destruct H as [y m d n Hn Hd|y m d Hn Hm|y]; cbn [ValidDate ordinal] in *.
  - apply month_days_spec in Hn as [_ ->]. unfold ymd2ord. split; lia.
  - apply month_days_spec in Hn as [_ ->]. pose proof (days_in_month_pos y (m + 1)). split; [lia|].
    unfold ymd2ord. rewrite month_step by lia. lia.
  - split; [cbn; lia|]. unfold ymd2ord. rewrite leap_year_step. unfold days_before_month. cbn. destruct (is_leap y); lia.
Qed.
Lemma DayNumber_ord a n : DayNumber a n -> ValidDate a /\ n = ordinal a - 1.
Proof.
  induction 1 as [|a b n H [IH1 IH2] HT].
  - cbn. split; lia || reflexivity.
  - destruct (tomorrow_ord _ _ IH1 HT). split; auto. lia.
Qed.
Lemma DayNumber_month y m n d : DayNumber (y, m, 1) n -> 1 <= m <= 12 -> 1 <= d <= days_in_month y m -> DayNumber (y, m, d) (n + (d - 1)).
Proof.
  intros H Hm Hd0. assert (G : forall k, 1 <= Z.of_nat k + 1 <= days_in_month y m -> DayNumber (y, m, Z.of_nat k + 1) (n + (Z.of_nat k + 1 - 1))).
  2:{ specialize (G (Z.to_nat (d - 1))). replace (Z.of_nat (Z.to_nat (d - 1)) + 1) with d in G by lia. auto. }
  clear d Hd0. induction k as [|k IH]; intro Hd.
  - replace (n + (Z.of_nat 0 + 1 - 1)) with n by lia. exact H.
  - replace (n + (Z.of_nat (S k) + 1 - 1)) with ((n + (Z.of_nat k + 1 - 1)) + 1) by lia.
    eapply DN_next; [apply IH; lia|]. replace (Z.of_nat (S k) + 1) with ((Z.of_nat k + 1) + 1) by lia.
    apply (T_day _ _ _ (days_in_month y m)); [apply month_days_spec; auto|lia].
Qed.
Lemma DayNumber_months y n m : DayNumber (y, 1, 1) n -> 1 <= m <= 12 -> exists n', DayNumber (y, m, 1) n'.
Proof.
  intros H Hm0. assert (G : forall k, 1 <= Z.of_nat k + 1 <= 12 -> exists n', DayNumber (y, Z.of_nat k + 1, 1) n').
  2:{ specialize (G (Z.to_nat (m - 1))). replace (Z.of_nat (Z.to_nat (m - 1)) + 1) with m in G by lia. auto. }
  clear m Hm0. induction k as [|k IH]; intro Hm.
  - eauto.
  - destruct IH as (n' & IH); [lia|]. replace (Z.of_nat (S k) + 1) with ((Z.of_nat k + 1) + 1) by lia. eexists.
    eapply DN_next.
    + apply (DayNumber_month _ _ _ (days_in_month y (Z.of_nat k + 1)) IH); [lia|]. pose proof (days_in_month_pos y (Z.of_nat k + 1)). lia.
    + apply T_month; [apply month_days_spec; split; [lia|reflexivity]|lia].
Qed.
Lemma DayNumber_years y : 1 <= y -> exists n, DayNumber (y, 1, 1) n.
Proof.
  intro H. replace y with (Z.of_nat (Z.to_nat (y - 1)) + 1) by lia. clear H. induction (Z.to_nat (y - 1)) as [|k (n & IH)].
  - exists 0. apply DN_first.
  - replace (Z.of_nat (S k) + 1) with ((Z.of_nat k + 1) + 1) by lia.
    destruct (DayNumber_months _ _ 12 IH) as (n' & H'); [lia|]. eexists. eapply DN_next; [|apply T_year].
    apply (DayNumber_month _ _ _ 31 H'); cbn; lia.
Qed.
Theorem DayNumber_spec a n : DayNumber a n <-> ValidDate a /\ n = ordinal a - 1.
Proof.
  split; [apply DayNumber_ord|]. intros [H ->]. destruct a as [[y m] d]. cbn [ValidDate] in H. destruct H as (Hy & Hm & Hd).
  destruct (DayNumber_years y Hy) as (n & Hn). destruct (DayNumber_months _ _ m Hn Hm) as (n' & Hn').
  pose proof (DayNumber_month _ _ _ d Hn' Hm Hd) as H. pose proof (DayNumber_ord _ _ H) as [_ E]. rewrite <- E. exact H.
Qed.

(** ** Ordinals and dates determine each other *)
Definition upto (n : nat) : list Z := map (fun k => Z.of_nat k) (seq 0 n).
Lemma upto_In n z : 0 <= z < Z.of_nat n -> In z (upto n).
Proof. intro H. unfold upto. apply in_map_iff. exists (Z.to_nat z). split; [lia|]. apply in_seq. lia. Qed.
Lemma days_before_month_bound y m : 1 <= m <= 12 ->
  0 <= days_before_month y m /\ days_before_month y m + days_in_month y m <= 365 + (if is_leap y then 1 else 0).
Proof.
  intro H. assert (K : In m [1;2;3;4;5;6;7;8;9;10;11;12]) by (cbn; lia). cbn in K.
  repeat (destruct K as [<-|K]); [..|contradiction]; unfold days_before_month; cbn; destruct (is_leap y); lia.
Qed.
(** month and day from the day of the year (the last part of the algorithm); [y] is a year of the right kind *)
Definition month_day (y n : Z) : Z * Z :=
  let month := (n + 50) / 32 in
  let preceding := days_before_month y month in
  if n <? preceding then (month - 1, n - days_before_month y (month - 1) + 1) else (month, n - preceding + 1).
Definition md_ok (y m d : Z) : bool :=
  (days_in_month y (m + 1) <? d + 1)
  || (let '(m', d') := month_day y (days_before_month y (m + 1) + d) in (m' =? m + 1) && (d' =? d + 1)).
Lemma md_checked : forallb (fun y => forallb (fun m => forallb (md_ok y m) (upto 31)) (upto 12)) [1; 4] = true.
Proof. vm_compute. reflexivity. Qed.
Lemma month_day_kind y y' n : is_leap y = is_leap y' -> month_day y n = month_day y' n.
Proof. intro H. unfold month_day, days_before_month. rewrite H. reflexivity. Qed.
Lemma days_in_month_kind y y' m : is_leap y = is_leap y' -> days_in_month y m = days_in_month y' m.
Proof. intro H. unfold days_in_month. rewrite H. reflexivity. Qed.
Lemma days_before_month_kind y y' m : is_leap y = is_leap y' -> days_before_month y m = days_before_month y' m.
Proof. intro H. unfold days_before_month. rewrite H. reflexivity. Qed.
Lemma month_day_spec y m d : 1 <= m <= 12 -> 1 <= d <= days_in_month y m -> month_day y (days_before_month y m + d - 1) = (m, d).
Proof.
  intros Hm Hd. pose proof (days_in_month_pos y m Hm) as P. 
  set (y0 := if is_leap y then 4 else 1).
  assert (K : is_leap y = is_leap y0) by (unfold y0; destruct (is_leap y); reflexivity).
  rewrite (month_day_kind _ _ _ K), (days_before_month_kind _ _ _ K). rewrite (days_in_month_kind _ _ _ K) in Hd.
  assert (I : In y0 [1; 4]) by (unfold y0; destruct (is_leap y); cbn; auto). clearbody y0. clear K.
  pose proof md_checked as C. rewrite forallb_forall in C. specialize (C y0 I). cbv beta in C. rewrite forallb_forall in C.
  specialize (C (m - 1) (upto_In 12 (m - 1) ltac:(lia))). cbv beta in C. rewrite forallb_forall in C.
  pose proof (days_in_month_pos y0 m Hm) as P0.
  specialize (C (d - 1) (upto_In 31 (d - 1) ltac:(lia))). unfold md_ok in C.
  replace (m - 1 + 1) with m in C by lia. replace (d - 1 + 1) with d in C by lia.
  replace (days_before_month y0 m + (d - 1)) with (days_before_month y0 m + d - 1) in C by lia.
  apply orb_true_iff in C as [C|C]; [apply Z.ltb_lt in C; lia|].
  destruct (month_day y0 (days_before_month y0 m + d - 1)) as [m' d']. rewrite andb_true_iff, !Z.eqb_eq in C. destruct C as [-> ->]. reflexivity.
Qed.
(** the position of a day in the cycle of 400 years *)
Lemma ord2ymd_position a b c k : 0 <= a <= 3 -> 0 <= b <= 24 -> 0 <= c <= 3 -> 0 <= k ->
  k < 365 + (if (c =? 3) && (negb (b =? 24) || (a =? 3)) then 1 else 0) ->
  ord2ymd (36524 * a + 1461 * b + 365 * c + k + 1) =
  let y := 100 * a + 4 * b + c + 1 in
  if k =? 365 then (y, 12, 31)
  else let '(m, d) := month_day (if (c =? 3) && (negb (b =? 24) || (a =? 3)) then 4 else 1) k in (y, m, d).
Proof.
  intros Ha Hb Hc Hk Hl. unfold ord2ymd. cbv zeta.
  replace (36524 * a + 1461 * b + 365 * c + k + 1 - 1) with (36524 * a + 1461 * b + 365 * c + k) by lia.
  set (lp := (c =? 3) && (negb (b =? 24) || (a =? 3))) in *.
  assert (L : lp = true -> c = 3 /\ (b <> 24 \/ a = 3)).
  { unfold lp. intro H. apply andb_true_iff in H as [H1 H2]. apply Z.eqb_eq in H1. split; auto.
    apply orb_true_iff in H2 as [H2|H2]; [left; apply negb_true_iff, Z.eqb_neq in H2; auto|right; apply Z.eqb_eq; auto]. }
  assert (R : 0 <= 36524 * a + 1461 * b + 365 * c + k < 146097) by (destruct lp; [specialize (L eq_refl)|]; lia).
  rewrite (Z.div_small _ 146097), (Z.mod_small _ 146097) by lia.
  destruct (Z.eqb_spec k 365) as [->|Hk'].
  - assert (lp = true) by (destruct lp; auto; lia). specialize (L H). destruct L as [-> L].
    destruct (Z.eq_dec b 24) as [->|Hb'].
    + assert (a = 3) by lia. subst a. reflexivity.
    + assert (E1 : (36524 * a + 1461 * b + 365 * 3 + 365) / 36524 = a) by (symmetry; apply (Z.div_unique _ _ _ (1461 * b + 1460)); lia).
      assert (E2 : (36524 * a + 1461 * b + 365 * 3 + 365) mod 36524 = 1461 * b + 1460) by (symmetry; apply (Z.mod_unique _ _ a); lia).
      assert (E3 : (1461 * b + 1460) / 1461 = b) by (symmetry; apply (Z.div_unique _ _ _ 1460); lia).
      assert (E4 : (1461 * b + 1460) mod 1461 = 1460) by (symmetry; apply (Z.mod_unique _ _ b); lia).
      rewrite E1, E2, E3, E4. change (1460 / 365 =? 4) with true. cbn [orb]. change (1460 / 365) with 4. f_equal. f_equal. lia.
  - assert (E1 : (36524 * a + 1461 * b + 365 * c + k) / 36524 = a) by (symmetry; apply (Z.div_unique _ _ _ (1461 * b + 365 * c + k)); destruct lp; lia).
    assert (E2 : (36524 * a + 1461 * b + 365 * c + k) mod 36524 = 1461 * b + 365 * c + k) by (symmetry; apply (Z.mod_unique _ _ a); destruct lp; lia).
    assert (E3 : (1461 * b + 365 * c + k) / 1461 = b) by (symmetry; apply (Z.div_unique _ _ _ (365 * c + k)); destruct lp; lia).
    assert (E4 : (1461 * b + 365 * c + k) mod 1461 = 365 * c + k) by (symmetry; apply (Z.mod_unique _ _ b); destruct lp; lia).
    assert (E5 : (365 * c + k) / 365 = c) by (symmetry; apply (Z.div_unique _ _ _ k); destruct lp; lia).
    assert (E6 : (365 * c + k) mod 365 = k) by (symmetry; apply (Z.mod_unique _ _ c); destruct lp; lia).
    rewrite E1, E2, E3, E4, E5, E6.
    replace (c =? 4) with false by (symmetry; apply Z.eqb_neq; lia). replace (a =? 4) with false by (symmetry; apply Z.eqb_neq; lia). cbn [orb].
    fold lp. unfold month_day. cbv zeta. replace (0 * 400 + 1 + a * 100 + b * 4 + c) with (100 * a + 4 * b + c + 1) by lia.
    destruct (k <? days_before_month (if lp then 4 else 1) ((k + 50) / 32)); reflexivity.
Qed.
Lemma ord2ymd_cycle n k : ord2ymd (n + 146097 * k) = let '(y, m, d) := ord2ymd n in (y + 400 * k, m, d).
Proof.
  unfold ord2ymd. cbv zeta.
  replace (n + 146097 * k - 1) with ((n - 1) + k * 146097) by lia.
  rewrite Z.div_add, Z.mod_add by lia.
  set (r := (n - 1) mod 146097). set (q := (n - 1) / 146097). clearbody r q.
  destruct ((r mod 36524 mod 1461 / 365 =? 4) || (r / 36524 =? 4)).
  - f_equal. f_equal. lia.
  - destruct (_ <? _); f_equal; f_equal; lia.
Qed.
Lemma is_leap_cycle y k : is_leap (y + 400 * k) = is_leap y.
Proof.
  unfold is_leap. replace (y + 400 * k) with (y + (100 * k) * 4) at 1 by lia.
  replace (y + 400 * k) with (y + (4 * k) * 100) at 1 by lia. replace (y + 400 * k) with (y + k * 400) by lia.
  rewrite !Z.mod_add by lia. reflexivity.
Qed.
Lemma days_in_month_cycle y m k : days_in_month (y + 400 * k) m = days_in_month y m.
Proof. unfold days_in_month. rewrite is_leap_cycle. reflexivity. Qed.
Lemma ymd2ord_cycle y m d k : ymd2ord (y + 400 * k) m d = ymd2ord y m d + 146097 * k.
Proof.
  unfold ymd2ord, days_before_year, days_before_month. cbv zeta. rewrite is_leap_cycle.
  replace ((y + 400 * k - 1) / 4) with ((y - 1) / 4 + 100 * k).
  2:{ replace (y + 400 * k - 1) with ((y - 1) + (100 * k) * 4) by lia. rewrite Z.div_add by lia. reflexivity. }
  replace ((y + 400 * k - 1) / 100) with ((y - 1) / 100 + 4 * k).
  2:{ replace (y + 400 * k - 1) with ((y - 1) + (4 * k) * 100) by lia. rewrite Z.div_add by lia. reflexivity. }
  replace ((y + 400 * k - 1) / 400) with ((y - 1) / 400 + k).
  2:{ replace (y + 400 * k - 1) with ((y - 1) + k * 400) by lia. rewrite Z.div_add by lia. reflexivity. }
  lia.
Qed.
Lemma ord2ymd_ymd2ord y m d : 1 <= m <= 12 -> 1 <= d <= days_in_month y m -> ord2ymd (ymd2ord y m d) = (y, m, d).
Proof.
  intros Hm Hd. set (k := (y - 1) / 400). set (y0 := (y - 1) mod 400).
  assert (E : y = (y0 + 1) + 400 * k) by (unfold y0, k; pose proof (Z.div_mod (y - 1) 400); lia).
  pose proof (Z.mod_pos_bound (y - 1) 400 ltac:(lia)) as B. fold y0 in B. clearbody k y0. subst y.
  rewrite ymd2ord_cycle, ord2ymd_cycle. rewrite days_in_month_cycle in Hd.
  set (a := y0 / 100). set (b := y0 mod 100 / 4). set (c := y0 mod 4).
  assert (Ec : y0 mod 100 mod 4 = c) by (unfold c; rewrite <- Znumtheory.Zmod_div_mod; [reflexivity|lia|lia|exists 25; reflexivity]).
  pose proof (Z.mod_pos_bound y0 100 ltac:(lia)) as B1. pose proof (Z.mod_pos_bound y0 4 ltac:(lia)) as Bc. fold c in Bc.
  assert (Ba : 0 <= a <= 3) by (unfold a; split; [apply Z.div_pos; lia|assert (y0 / 100 < 4) by (apply Z.div_lt_upper_bound; lia); lia]).
  assert (Bb : 0 <= b <= 24) by (unfold b; split; [apply Z.div_pos; lia|assert (y0 mod 100 / 4 < 25) by (apply Z.div_lt_upper_bound; lia); lia]).
  assert (Ey : y0 = 100 * a + 4 * b + c).
  { pose proof (Z.div_mod y0 100 ltac:(lia)). pose proof (Z.div_mod (y0 mod 100) 4 ltac:(lia)). unfold a, b. lia. }
  clearbody a b c. clear Ec B1.
  assert (El : is_leap (y0 + 1) = (c =? 3) && (negb (b =? 24) || (a =? 3))).
  { unfold is_leap.
    replace ((y0 + 1) mod 4 =? 0) with (c =? 3).
    2:{ replace (y0 + 1) with ((c + 1) + (25 * a + b) * 4) by lia. rewrite Z.mod_add by lia.
        assert (K : In c [0;1;2;3]) by (cbn; lia). cbn in K. repeat (destruct K as [<-|K]; [reflexivity|]). destruct K. }
    destruct (Z.eqb_spec c 3) as [->|]; cbn [andb]; auto.
    replace ((y0 + 1) mod 100 =? 0) with (b =? 24).
    2:{ replace (y0 + 1) with ((4 * b + 4) + a * 100) by lia. rewrite Z.mod_add by lia. destruct (Z.eqb_spec b 24) as [->|]; [reflexivity|].
        rewrite Z.mod_small by lia. symmetry. apply Z.eqb_neq. lia. }
    destruct (Z.eqb_spec b 24) as [->|]; cbn [negb orb]; auto.
    replace (y0 + 1) with (100 * (a + 1)) by lia.
    assert (K : In a [0;1;2;3]) by (cbn; lia). cbn in K. repeat (destruct K as [<-|K]; [reflexivity|]). destruct K. }
  assert (Eo : ymd2ord (y0 + 1) m d = 36524 * a + 1461 * b + 365 * c + (days_before_month (y0 + 1) m + d - 1) + 1).
  { unfold ymd2ord, days_before_year. cbv zeta. replace (y0 + 1 - 1) with y0 by lia.
    assert (D4 : y0 / 4 = 25 * a + b) by (symmetry; apply (Z.div_unique _ _ _ c); lia).
    assert (D100 : y0 / 100 = a) by (symmetry; apply (Z.div_unique _ _ _ (4 * b + c)); lia).
    rewrite D4, D100, (Z.div_small y0 400) by lia. lia. }
  pose proof (days_before_month_bound (y0 + 1) m Hm) as [Bm1 Bm2]. rewrite El in Bm2.
  rewrite Eo, ord2ymd_position; auto; try lia. cbv zeta.
  pose proof (month_day_spec (y0 + 1) m d Hm Hd) as MD.
  destruct (Z.eqb_spec (days_before_month (y0 + 1) m + d - 1) 365) as [E|E].
  - assert (m = 12 /\ d = 31) as [-> ->].
    { rewrite E in MD. set (y1 := y0 + 1) in *. destruct (is_leap y1) eqn:E1.
      - rewrite (month_day_kind y1 4) in MD by (rewrite E1; reflexivity). vm_compute in MD. injection MD as <- <-. auto.
      - rewrite <- El in Bm2. lia. }
    f_equal. f_equal. lia.
  - rewrite <- El. rewrite (month_day_kind _ (if is_leap (y0 + 1) then 4 else 1)) in MD by (destruct (is_leap (y0 + 1)); reflexivity).
    rewrite MD. f_equal. f_equal. lia.
Qed.
(** the ordinals of valid dates leave no gap *)
Lemma ordinal_onto n : 1 <= n -> exists a, ValidDate a /\ ordinal a = n.
Proof.
  intro H. replace n with (Z.of_nat (Z.to_nat (n - 1)) + 1) by lia. clear H. induction (Z.to_nat (n - 1)) as [|k (a & Ha & E)].
  - exists (1, 1, 1). split; [cbn; lia|reflexivity].
  - destruct a as [[y m] d]. cbn [ValidDate] in Ha. destruct Ha as (Hy & Hm & Hd).
    assert (T : exists b, Tomorrow (y, m, d) b).
    { destruct (Z.eq_dec d (days_in_month y m)) as [Ed|Ed].
      - destruct (Z.eq_dec m 12) as [->|Em].
        + cbn in Ed. subst d. eexists. apply T_year.
        + eexists. apply T_month; [apply month_days_spec; split; [lia|exact Ed]|lia].
      - eexists. apply (T_day _ _ _ (days_in_month y m)); [apply month_days_spec; split; auto; lia|lia]. }
    destruct T as (b & T). exists b. apply tomorrow_ord in T as [T1 T2]; [|cbn; lia]. split; auto. lia.
Qed.
Lemma ord2ymd_valid n : 1 <= n -> ValidDate (ord2ymd n) /\ ordinal (ord2ymd n) = n.
Proof.
  intro H. destruct (ordinal_onto n H) as ([[y m] d] & Ha & <-). cbn [ordinal ValidDate] in *.
  rewrite ord2ymd_ymd2ord by lia. cbn. auto.
Qed.
Lemma days_before_year_le y y' : y <= y' -> days_before_year y <= days_before_year y'.
Proof.
  intro H. replace y' with (y + Z.of_nat (Z.to_nat (y' - y))) by lia. induction (Z.to_nat (y' - y)) as [|k IH].
  - replace (y + Z.of_nat 0) with y by lia. lia.
  - replace (y + Z.of_nat (S k)) with ((y + Z.of_nat k) + 1) by lia. rewrite leap_year_step. destruct (is_leap _); lia.
Qed.
Lemma ordinal_range y m d : ValidDate (y, m, d) -> 1 <= ordinal (y, m, d) /\ (y <= 9999 <-> ordinal (y, m, d) <= 3652059).
Proof.
  cbn [ValidDate ordinal]. intros (Hy & Hm & Hd). pose proof (days_before_month_bound y m Hm) as [B1 B2].
  pose proof (days_before_year_le 1 y Hy) as L1. change (days_before_year 1) with 0 in L1. unfold ymd2ord. split; [lia|]. split; intro H.
  - pose proof (days_before_year_le (y + 1) 10000 ltac:(lia)) as L2. rewrite leap_year_step in L2. change (days_before_year 10000) with 3652059 in L2. lia.
  - destruct (Z.le_gt_cases y 9999); auto. pose proof (days_before_year_le 10000 y ltac:(lia)) as L2.
    change (days_before_year 10000) with 3652059 in L2. lia.
Qed.

(** ** Instants *)
Lemma ValidDatetime_date d : ValidDatetime d -> ValidDate (dt_year d, dt_month d, dt_day d).
Proof. intros [Hy Hm (n & Hn & Hd) _ _ _ _]. apply month_days_spec in Hn as [_ ->]. cbn. lia. Qed.
Lemma ValidDatetime_iff d : ValidDatetime d <->
  ValidDate (dt_year d, dt_month d, dt_day d) /\ dt_year d <= 9999 /\ 0 <= dt_hour d <= 23 /\ 0 <= dt_min d <= 59 /\ 0 <= dt_sec d <= 59 /\ 0 <= dt_us d <= 999999.
Proof.
  split.
  - intro H. split; [apply ValidDatetime_date; auto|]. destruct H. lia.
  - intros (H & H1 & H2 & H3 & H4 & H5). cbn [ValidDate] in H. destruct H as (Hy & Hm & Hd). constructor; auto; try lia.
    exists (days_in_month (dt_year d) (dt_month d)). split; auto. apply month_days_spec. auto.
Qed.
Lemma Instant_local d t : ValidDatetime d ->
  (Instant d t <-> t = local_us d - match dt_off d with Some off => off | None => 0 end).
Proof.
  intro H. apply ValidDatetime_date in H. unfold Instant, local_us, US_PER_DAY, US_PER_SEC. split.
  - intros (n & Hn & ->). apply DayNumber_spec in Hn as [_ ->]. cbn [ordinal]. lia.
  - intros ->. eexists. split; [apply DayNumber_spec; split; [exact H|reflexivity]|]. cbn [ordinal]. lia.
Qed.
Lemma of_local_us_spec t :
  if (0 <=? t) && (t <? END_OF_TIME)
  then exists d, of_local_us t = Ok d /\ ValidDatetime d /\ dt_off d = None /\ local_us d = t
  else of_local_us t = Raise (EOverflow $"date value out of range").
Proof.
  unfold of_local_us. cbv zeta. unfold END_OF_TIME. change 86400000000 with US_PER_DAY.
  assert (HD : 0 < US_PER_DAY) by reflexivity. assert (HS : 0 < US_PER_SEC) by reflexivity.
  assert (E : (0 <=? t) && (t <? 3652059 * US_PER_DAY) = (0 <=? t / US_PER_DAY) && (t / US_PER_DAY <? 3652059)).
  { apply eq_true_iff_eq. rewrite !andb_true_iff, !Z.leb_le, !Z.ltb_lt. 
    assert (E : US_PER_DAY = 86400000000) by reflexivity.
    pose proof (Z.div_mod t US_PER_DAY ltac:(lia)). pose proof (Z.mod_pos_bound t US_PER_DAY HD). rewrite E in *. lia. }
  rewrite E. destruct ((0 <=? t / US_PER_DAY) && (t / US_PER_DAY <? 3652059)) eqn:Eb; [|reflexivity].
  apply andb_true_iff in Eb as [B1 B2]. apply Z.leb_le in B1. apply Z.ltb_lt in B2.
  pose proof (ord2ymd_valid (t / US_PER_DAY + 1) ltac:(lia)) as [V O].
  destruct (ord2ymd (t / US_PER_DAY + 1)) as [[y m] dd]. eexists. split; [reflexivity|].
  pose proof (proj2 (ordinal_range _ _ _ V)) as R.
  pose proof (Z.mod_pos_bound t US_PER_DAY HD) as Bus. set (us := t mod US_PER_DAY) in *.
  assert (Bs : 0 <= us / US_PER_SEC < 86400).
  { unfold US_PER_SEC, US_PER_DAY in *. split; [apply Z.div_pos; lia|apply Z.div_lt_upper_bound; lia]. }
  set (sec := us / US_PER_SEC) in *.
  assert (Bh : 0 <= sec / 3600 <= 23) by (split; [apply Z.div_pos; lia|assert (sec / 3600 < 24) by (apply Z.div_lt_upper_bound; lia); lia]).
  pose proof (Z.mod_pos_bound (sec / 60) 60 ltac:(lia)). pose proof (Z.mod_pos_bound sec 60 ltac:(lia)).
  pose proof (Z.mod_pos_bound us US_PER_SEC ltac:(lia)).
  split; [|split; [reflexivity|]].
  - apply ValidDatetime_iff. cbn [dt_year dt_month dt_day dt_hour dt_min dt_sec dt_us]. split; [exact V|].
    unfold US_PER_SEC in *. repeat split; try lia.
  - unfold local_us. cbn [dt_year dt_month dt_day dt_hour dt_min dt_sec dt_us]. cbn [ordinal] in O. rewrite O.
    assert (E1 : (sec / 3600 * 60 + (sec / 60) mod 60) * 60 + sec mod 60 = sec).
    { replace (sec / 3600) with (sec / 60 / 60) by (rewrite Z.div_div by lia; reflexivity).
      pose proof (Z.div_mod sec 60 ltac:(lia)). pose proof (Z.div_mod (sec / 60) 60 ltac:(lia)). lia. }
    rewrite E1. pose proof (Z.div_mod t US_PER_DAY ltac:(lia)) as X1. pose proof (Z.div_mod us US_PER_SEC ltac:(lia)) as X2.
    fold us in X1. fold sec in X2. lia.
Qed.
Lemma local_us_range d : ValidDatetime d -> 0 <= local_us d < END_OF_TIME.
Proof.
  intro H. pose proof (ValidDatetime_date _ H) as V. apply ordinal_range in V as [V1 V2]. cbn [ordinal] in *.
  destruct H. unfold local_us, END_OF_TIME, US_PER_DAY, US_PER_SEC. lia.
Qed.
Lemma local_us_inj a b : ValidDatetime a -> ValidDatetime b -> local_us a = local_us b ->
  (dt_year a, dt_month a, dt_day a, dt_hour a, dt_min a, dt_sec a, dt_us a) = (dt_year b, dt_month b, dt_day b, dt_hour b, dt_min b, dt_sec b, dt_us b).
Proof.
  intros Ha Hb E.
  assert (D : ymd2ord (dt_year a) (dt_month a) (dt_day a) = ymd2ord (dt_year b) (dt_month b) (dt_day b)
              /\ dt_hour a = dt_hour b /\ dt_min a = dt_min b /\ dt_sec a = dt_sec b /\ dt_us a = dt_us b).
  { destruct Ha, Hb. unfold local_us, US_PER_DAY, US_PER_SEC in E. lia. }
  destruct D as (D & -> & -> & -> & ->). apply ValidDatetime_date in Ha, Hb. cbn [ValidDate] in Ha, Hb.
  apply (f_equal ord2ymd) in D. rewrite !ord2ymd_ymd2ord in D by lia. injection D as -> -> ->. reflexivity.
Qed.
