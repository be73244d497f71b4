(** Facts about reading and writing timestamps. *)
From Verif Require Import Py PyFacts PyRe PyReFacts Data Basics ValidationSpec BasicsSpec BasicsFacts DateFacts.
Open Scope Z_scope.

(** ** Zero-padded numerals *)
Lemma digit09_not_space c : is_digit09 c = true -> is_space c = false.
Proof.
  intro H. apply is_digit09_spec in H. assert (K : In (Z.of_N c - 48) (upto 10)) by (apply upto_In; lia).
  replace c with (Z.to_N (Z.of_N c - 48) + 48)%N by lia. generalize dependent (Z.of_N c - 48). intros z K.
  cbn in K. repeat (destruct K as [<-|K]; [reflexivity|]). destruct K.
Qed.
Definition four_ok (y : Z) : bool :=
  match pad 4 y with
  | [a; b; c; d] => is_digit09 a && is_digit09 b && is_digit09 c && is_digit09 d
      && match dec_val [a; b; c; d] with Some v => N.eqb v (Z.to_N y) | None => false end
  | _ => false
  end.
Definition four_row (a : Z) : bool := forallb (fun b => four_ok (a * 100 + b)) (upto 100).
Lemma four_checked : forallb four_row (upto 100) = true.
Proof. vm_cast_no_check (eq_refl true). Qed.
Lemma pad4 y : 0 <= y <= 9999 -> exists a b c d, pad 4 y = [a; b; c; d] /\ is_digit09 a = true /\ is_digit09 b = true
  /\ is_digit09 c = true /\ is_digit09 d = true /\ dec_val (pad 4 y) = Some (Z.to_N y).
Proof.
  intro H. assert (F : four_ok y = true).
  { pose proof (Z.div_mod y 100 ltac:(lia)) as E. pose proof (Z.mod_pos_bound y 100 ltac:(lia)) as B.
    assert (B' : 0 <= y / 100 < 100) by (split; [apply Z.div_pos; lia|apply Z.div_lt_upper_bound; lia]).
    pose proof (proj1 (forallb_forall four_row (upto 100)) four_checked (y / 100) (upto_In 100 _ B')) as F. unfold four_row in F.
    pose proof (proj1 (forallb_forall _ (upto 100)) F (y mod 100) (upto_In 100 _ B)) as F2. cbv beta in F2.
    replace (y / 100 * 100 + y mod 100) with y in F2 by lia. exact F2. }
  unfold four_ok in F. destruct (pad 4 y) as [|a [|b [|c [|d [|]]]]]; try discriminate.
  rewrite !andb_true_iff in F. destruct F as ((((F1 & F2) & F3) & F4) & F5).
  destruct (dec_val [a; b; c; d]) as [v|] eqn:E; [|discriminate]. apply N.eqb_eq in F5. subst v.
  exists a, b, c, d. auto 10.
Qed.
Definition two_ok (z : Z) : bool :=
  match pad 2 z with
  | [a; b] => match dec_val (strip [a; b]) with Some v => N.eqb v (Z.to_N z) | None => false end
  | _ => false
  end.
Lemma two_checked : forallb two_ok (upto 100) = true.
Proof. vm_compute. reflexivity. Qed.
Lemma pad2 z : 0 <= z <= 99 -> exists a b, pad 2 z = [a; b] /\ dec_val (strip (pad 2 z)) = Some (Z.to_N z).
Proof.
  intro H. assert (F : two_ok z = true).
  { apply (proj1 (forallb_forall two_ok (upto 100)) two_checked z). apply upto_In. change (Z.of_nat 100) with 100. lia. }
  unfold two_ok in F. destruct (pad 2 z) as [|a [|b [|]]]; try discriminate.
  destruct (dec_val (strip [a; b])) as [v|] eqn:E; [|discriminate]. apply N.eqb_eq in F. subst v. eauto.
Qed.

(** A pattern reads a two-character numeral as its first choice. *)
Definition reads (p : prx) (w : pystr) : Prop :=
  forall n rest g k r, k rest ((n, w) :: g) = Some r -> pm (PGroup n p) (w ++ rest) g k = Some r.
Lemma firstn_two {A} (a b : A) l : firstn (S (S (List.length l)) - List.length l) (a :: b :: l) = [a; b].
Proof. replace (S (S (List.length l)) - List.length l)%nat with 2%nat by lia. reflexivity. Qed.

(** an alternative: a literal and a class, two classes, or one class *)
Inductive alt := ALit (c : char) (q : char -> bool) | ATwo (p q : char -> bool) | AOne (p : char -> bool).
Definition alt_prx (x : alt) : prx :=
  match x with ALit c q => PCat (plit [c]) (PSet q) | ATwo p q => PCat (PSet p) (PSet q) | AOne p => PSet p end.
Fixpoint two_first (l : list alt) (a b : char) : bool :=
  match l with
  | [] => false
  | ALit c q :: l' => if N.eqb c a && q b then true else two_first l' a b
  | ATwo p q :: l' => if p a && q b then true else two_first l' a b
  | AOne p :: l' => if p a then false else two_first l' a b
  end.
Lemma palts_cons r r' l s g k : pm (palts (r :: r' :: l)) s g k = match pm r s g k with Some x => Some x | None => pm (palts (r' :: l)) s g k end.
Proof. reflexivity. Qed.
Lemma palts_two l a b rest g k r : two_first l a b = true -> k rest g = Some r -> pm (palts (map alt_prx l)) (a :: b :: rest) g k = Some r.
Proof.
  intros H Hk. induction l as [|x l IH]; [discriminate|]. cbn [map].
  assert (S : pm (alt_prx x) (a :: b :: rest) g k = Some r \/ (pm (alt_prx x) (a :: b :: rest) g k = None /\ two_first l a b = true)).
  { destruct x as [c q|p q|p]; cbn [two_first alt_prx plit pm] in *.
    - destruct (N.eqb c a); cbn [andb] in H; auto. destruct (q b); auto.
    - destruct (p a); cbn [andb] in H; auto. destruct (q b); auto.
    - destruct (p a); [discriminate|auto]. }
  destruct l as [|x' l].
  - destruct S as [S|[_ S]]; [exact S|discriminate].
  - cbn [map]. rewrite palts_cons. destruct S as [->|[-> S]]; [reflexivity|]. apply IH. exact S.
Qed.
Definition reads_ok (l : list alt) (z : Z) : bool := match pad 2 z with [a; b] => two_first l a b | _ => false end.
Lemma reads_ok_reads l z : reads_ok l z = true -> reads (palts (map alt_prx l)) (pad 2 z).
Proof.
  unfold reads_ok. destruct (pad 2 z) as [|a [|b [|]]]; try discriminate. intros H n rest g k r Hk. cbn [app].
  change (pm (PGroup n (palts (map alt_prx l))) (a :: b :: rest) g k)
    with (pm (palts (map alt_prx l)) (a :: b :: rest) g (fun s' g' => k s' ((n, firstn (List.length (a :: b :: rest) - List.length s') (a :: b :: rest)) :: g'))).
  apply palts_two; auto. cbn [List.length]. rewrite firstn_two. exact Hk.
Qed.
Lemma reads_range l lo hi : forallb (fun z => (z <? lo) || reads_ok l z) (upto hi) = true ->
  forall z, 0 <= lo <= z -> z < Z.of_nat hi -> reads (palts (map alt_prx l)) (pad 2 z).
Proof.
  intros H z Hz Hz'. rewrite forallb_forall in H. specialize (H z (upto_In hi z ltac:(lia))). cbv beta in H.
  apply orb_true_iff in H as [H|H]; [apply Z.ltb_lt in H; lia|]. apply reads_ok_reads. exact H.
Qed.
Definition month_l := [ALit #"1" (range_c #"0" #"2"); ALit #"0" (range_c #"1" #"9"); AOne (range_c #"1" #"9")].
Definition day_l := [ALit #"3" (range_c #"0" #"1"); ATwo (range_c #"1" #"2") is_digit; ALit #"0" (range_c #"1" #"9");
                     AOne (range_c #"1" #"9"); ALit #" " (range_c #"1" #"9")].
Definition hour_l := [ALit #"2" (range_c #"0" #"3"); ATwo (range_c #"0" #"1") is_digit; AOne is_digit].
Definition min_l := [ATwo (range_c #"0" #"5") is_digit; AOne is_digit].
Definition sec_l := [ALit #"6" (range_c #"0" #"1"); ATwo (range_c #"0" #"5") is_digit; AOne is_digit].
Lemma strptime_re_eq : strptime_re =
  pcats [PGroup 1 (pcats [pd; pd; pd; pd]); plit $"-"; PGroup 2 (palts (map alt_prx month_l)); plit $"-";
         PGroup 3 (palts (map alt_prx day_l)); pci #"T"; PGroup 4 (palts (map alt_prx hour_l)); plit $":";
         PGroup 5 (palts (map alt_prx min_l)); plit $":"; PGroup 6 (palts (map alt_prx sec_l)); pci #"Z"].
Proof. reflexivity. Qed.
Lemma reads_month z : 1 <= z <= 12 -> reads (palts (map alt_prx month_l)) (pad 2 z).
Proof. intro H. apply (reads_range month_l 1 13); [vm_compute; reflexivity|lia|lia]. Qed.
Lemma reads_day z : 1 <= z <= 31 -> reads (palts (map alt_prx day_l)) (pad 2 z).
Proof. intro H. apply (reads_range day_l 1 32); [vm_compute; reflexivity|lia|lia]. Qed.
Lemma reads_hour z : 0 <= z <= 23 -> reads (palts (map alt_prx hour_l)) (pad 2 z).
Proof. intro H. apply (reads_range hour_l 0 24); [vm_compute; reflexivity|lia|lia]. Qed.
Lemma reads_min z : 0 <= z <= 59 -> reads (palts (map alt_prx min_l)) (pad 2 z).
Proof. intro H. apply (reads_range min_l 0 60); [vm_compute; reflexivity|lia|lia]. Qed.
Lemma reads_sec z : 0 <= z <= 59 -> reads (palts (map alt_prx sec_l)) (pad 2 z).
Proof. intro H. apply (reads_range sec_l 0 60); [vm_compute; reflexivity|lia|lia]. Qed.
Lemma reads_year y : 0 <= y <= 9999 -> reads (pcats [pd; pd; pd; pd]) (pad 4 y).
Proof.
  intro H. destruct (pad4 y H) as (a & b & c & d & -> & Ha & Hb & Hc & Hd & _). intros n rest g k r Hk.
  assert (D : forall x, is_digit09 x = true -> is_digit x = true) by (intros x Hx; unfold is_digit; rewrite digit_val_09; auto).
  apply D in Ha, Hb, Hc, Hd. cbn [app pm pcats pd]. rewrite Ha, Hb, Hc, Hd. cbn [List.length].
  replace (S (S (S (S (List.length rest)))) - List.length rest)%nat with 4%nat by lia. exact Hk.
Qed.

Lemma strptime_isoformat d : ValidDatetime d ->
  strptime (isoformat d ++ $"Z") =
  Ok {| dt_year := dt_year d; dt_month := dt_month d; dt_day := dt_day d; dt_hour := dt_hour d; dt_min := dt_min d; dt_sec := dt_sec d;
        dt_us := 0; dt_off := None |}.
Proof.
  intro V. pose proof (proj1 (ValidDatetime_iff d) V) as ((Hy & Hm & Hd) & Hy' & Hh & Hmi & Hs & _).
  pose proof (days_in_month_pos (dt_year d) (dt_month d) Hm) as Hdm.
  assert (M : re_match_rest strptime_re (isoformat d ++ $"Z") =
    Some ([], [(6%nat, pad 2 (dt_sec d)); (5%nat, pad 2 (dt_min d)); (4%nat, pad 2 (dt_hour d)); (3%nat, pad 2 (dt_day d)); (2%nat, pad 2 (dt_month d)); (1%nat, pad 4 (dt_year d))])).
  { unfold re_match_rest, isoformat. rewrite strptime_re_eq, <- !app_assoc.
    rewrite pcats_cons, pm_pcat. apply reads_year; [lia|].
    rewrite pcats_cons, pm_pcat, pm_plit, startswith_app. change (List.length $"-") with 1%nat. cbn [skipn app].
    change ($"-" ++ ?x) with (#"-" :: x). cbn [skipn].
    rewrite pcats_cons, pm_pcat. apply reads_month; [lia|].
    rewrite pcats_cons, pm_pcat, pm_plit, startswith_app. change (List.length $"-") with 1%nat. change ($"-" ++ ?x) with (#"-" :: x). cbn [skipn].
    rewrite pcats_cons, pm_pcat. apply reads_day; [lia|].
    rewrite pcats_cons, pm_pcat. unfold pci at 1. cbn [pm]. change ($"T" ++ ?x) with (#"T" :: x). change (upc #"T" =? #"T")%N with true. cbv iota.
    rewrite pcats_cons, pm_pcat. apply reads_hour; [lia|].
    rewrite pcats_cons, pm_pcat, pm_plit, startswith_app. change (List.length $":") with 1%nat. change ($":" ++ ?x) with (#":" :: x). cbn [skipn].
    rewrite pcats_cons, pm_pcat. apply reads_min; [lia|].
    rewrite pcats_cons, pm_pcat, pm_plit, startswith_app. change (List.length $":") with 1%nat. change ($":" ++ ?x) with (#":" :: x). cbn [skipn].
    rewrite pcats_cons, pm_pcat. apply reads_sec; [lia|]. reflexivity. }
  unfold strptime. rewrite M. unfold group_int. cbn [group find fst Nat.eqb].
  assert (Y : strip (pad 4 (dt_year d)) = pad 4 (dt_year d) /\ dec_val (pad 4 (dt_year d)) = Some (Z.to_N (dt_year d))).
  { destruct (pad4 (dt_year d)) as (a & b & c & e & E & Ha & Hb & Hc & He & Hv); [lia|]. split; auto. rewrite E. apply strip_id. split.
    - intros x s' Ex. injection Ex as -> _. apply digit09_not_space; auto.
    - intros x s' Ex. assert (x = e). { change [a; b; c; e] with ([a; b; c] ++ [e]) in Ex. apply app_inj_tail in Ex as [_ Ex]. auto. }
      subst x. apply digit09_not_space; auto. }
  destruct Y as [-> ->].
  destruct (pad2 (dt_month d)) as (? & ? & _ & ->); [lia|]. destruct (pad2 (dt_day d)) as (? & ? & _ & ->); [lia|].
  destruct (pad2 (dt_hour d)) as (? & ? & _ & ->); [lia|]. destruct (pad2 (dt_min d)) as (? & ? & _ & ->); [lia|].
  destruct (pad2 (dt_sec d)) as (? & ? & _ & ->); [lia|]. rewrite !Z2N.id by lia.
  replace (1 <=? dt_year d) with true by (symmetry; apply Z.leb_le; lia).
  replace (dt_day d <=? days_in_month (dt_year d) (dt_month d)) with true by (symmetry; apply Z.leb_le; lia).
  replace (dt_sec d <=? 59) with true by (symmetry; apply Z.leb_le; lia). reflexivity.
Qed.

Definition whole_seconds (d : datetime) : datetime :=
  {| dt_year := dt_year d; dt_month := dt_month d; dt_day := dt_day d; dt_hour := dt_hour d; dt_min := dt_min d; dt_sec := dt_sec d;
     dt_us := 0; dt_off := None |}.
Lemma whole_valid d : ValidDatetime d -> ValidDatetime (whole_seconds d).
Proof. intro V. apply ValidDatetime_iff in V. apply ValidDatetime_iff. cbn in *. lia. Qed.
Lemma whole_us d : ValidDatetime d -> local_us (whole_seconds d) = local_us d / 1000000 * 1000000.
Proof.
  intro V. destruct V. unfold local_us. cbn [whole_seconds dt_year dt_month dt_day dt_hour dt_min dt_sec dt_us].
  set (o := ymd2ord (dt_year d) (dt_month d) (dt_day d)). clearbody o. unfold US_PER_SEC, US_PER_DAY.
  replace (((o - 1) * 86400000000 + ((dt_hour d * 60 + dt_min d) * 60 + dt_sec d) * 1000000 + dt_us d) / 1000000)
    with ((o - 1) * 86400 + ((dt_hour d * 60 + dt_min d) * 60 + dt_sec d)); [lia|].
  apply (Z.div_unique _ _ _ (dt_us d)); lia.
Qed.
Theorem stamp_naive d : ValidDatetime d -> dt_off d = None ->
  exists s, datetime_to_iso_string d = Ok s /\ datetime_from_str s = Ok (whole_seconds d).
Proof.
  intros V H. unfold datetime_to_iso_string. rewrite H. cbn [bind]. eexists. split; [reflexivity|].
  unfold datetime_from_str. apply strptime_isoformat. exact V.
Qed.
Theorem stamp_instant d t : ValidDatetime d -> Instant d t -> 0 <= t < END_OF_TIME ->
  exists s d', datetime_to_iso_string d = Ok s /\ datetime_from_str s = Ok d'
    /\ ValidDatetime d' /\ dt_off d' = None /\ Instant d' (t / 1000000 * 1000000).
Proof.
  intros V HI Ht. pose proof (proj1 (Instant_local d t V) HI) as E.
  assert (K : exists d0, match dt_off d with None => Ok d | Some off => of_local_us (local_us d - off) end = Ok d0
                /\ ValidDatetime d0 /\ local_us d0 = t).
  { destruct (dt_off d) as [off|].
    - pose proof (of_local_us_spec t) as S. replace ((0 <=? t) && (t <? END_OF_TIME)) with true in S.
      + destruct S as (d0 & S1 & S2 & _ & S3). exists d0. rewrite <- E. auto.
      + symmetry. apply andb_true_iff. rewrite Z.leb_le, Z.ltb_lt. lia.
    - exists d. split; auto. split; auto. lia. }
  destruct K as (d0 & K & V0 & U0). unfold datetime_to_iso_string. rewrite K. cbn [bind].
  exists (isoformat d0 ++ $"Z"), (whole_seconds d0). split; [reflexivity|]. split; [apply strptime_isoformat; auto|].
  split; [apply whole_valid; auto|]. split; [reflexivity|]. apply Instant_local; [apply whole_valid; auto|].
  rewrite whole_us by auto. rewrite U0. cbn [whole_seconds dt_off]. lia.
Qed.
Theorem stamp_overflow d t : ValidDatetime d -> Instant d t -> ~ (0 <= t < END_OF_TIME) ->
  datetime_to_iso_string d = Raise (EOverflow $"date value out of range").
Proof.
  intros V HI Ht. pose proof (proj1 (Instant_local d t V) HI) as E. unfold datetime_to_iso_string. destruct (dt_off d) as [off|].
  - rewrite <- E. pose proof (of_local_us_spec t) as S. replace ((0 <=? t) && (t <? END_OF_TIME)) with false in S; [rewrite S; reflexivity|].
    symmetry. apply not_true_iff_false. rewrite andb_true_iff, Z.leb_le, Z.ltb_lt. lia.
  - pose proof (local_us_range d V). lia.
Qed.
Lemma Instant_total d : ValidDatetime d -> exists t, Instant d t.
Proof. intro V. eexists. apply Instant_local; auto. Qed.
Lemma Instant_fun d t t' : ValidDatetime d -> Instant d t -> Instant d t' -> t = t'.
Proof. intros V H H'. apply Instant_local in H, H'; auto. congruence. Qed.
Theorem stamp_injective d1 d2 t1 t2 s : ValidDatetime d1 -> ValidDatetime d2 -> Instant d1 t1 -> Instant d2 t2 ->
  datetime_to_iso_string d1 = Ok s -> datetime_to_iso_string d2 = Ok s -> t1 / 1000000 = t2 / 1000000.
Proof.
  intros V1 V2 I1 I2 S1 S2.
  assert (R : forall d t, ValidDatetime d -> Instant d t -> datetime_to_iso_string d = Ok s -> 0 <= t < END_OF_TIME).
  { intros d t V HI S. destruct (Z.le_gt_cases 0 t), (Z.lt_ge_cases t END_OF_TIME); try lia;
      rewrite (stamp_overflow d t V HI) in S by lia; discriminate. }
  destruct (stamp_instant d1 t1 V1 I1 (R _ _ V1 I1 S1)) as (s1 & a & E1 & P1 & Va & _ & Ia).
  destruct (stamp_instant d2 t2 V2 I2 (R _ _ V2 I2 S2)) as (s2 & b & E2 & P2 & Vb & _ & Ib).
  rewrite E1 in S1. injection S1 as ->. rewrite E2 in S2. injection S2 as ->. rewrite P1 in P2. injection P2 as ->.
  pose proof (Instant_fun _ _ _ Va Ia Ib). lia.
Qed.
Close Scope Z_scope.
