(** What is read as a timestamp is one. *)
From Verif Require Import Py PyRe Data Basics BasicsSpec.
From Verif Require Import PyFacts BasicsFacts PyReFacts PyReSound DateFacts StampFacts TvLexFacts.
Local Open Scope Z_scope.

Lemma digit_val_le c d : digit_val c = Some d -> (d <= 9)%N.
Proof.
  unfold digit_val, is_digit09. destruct (_ && _)%bool eqn:B.
  - apply andb_prop in B as [E1 E2]. apply N.leb_le in E1. apply N.leb_le in E2. intro H. apply (f_equal (fun o => match o with Some x => x | None => d end)) in H. cbn iota in H. lia.
  - destruct (find _ _) as [z|] eqn:E; [|discriminate]. intro H. apply (f_equal (fun o => match o with Some x => x | None => d end)) in H. cbn iota in H.
    apply find_some in E as [_ E]. apply andb_prop in E as [E1 E2]. apply N.leb_le in E1. apply N.leb_le in E2. lia.
Qed.
Lemma digit_not_space c : is_digit c = true -> is_space c = false.
Proof. intro H. destruct (is_space c) eqn:E; auto. apply space_not_digit in E. congruence. Qed.
Lemma strip_digits u : forallb is_digit u = true -> strip u = u.
Proof.
  intro H. rewrite forallb_forall in H. apply strip_id. split.
  - intros c s' ->. apply digit_not_space, H. left; auto.
  - intros c s' ->. apply digit_not_space, H. apply in_or_app. right. left. auto.
Qed.
Lemma range_digit a b c : (48 <= a)%N -> (b <= 57)%N -> range_c a b c = true -> exists d, digit_val c = Some d /\ (a - 48 <= d <= b - 48)%N.
Proof.
  unfold range_c. intros A B H. apply andb_prop in H as [H1 H2]. apply N.leb_le in H1. apply N.leb_le in H2. exists (c - 48)%N. split; [|lia].
  apply digit_val_09. unfold is_digit09. apply andb_true_intro. rewrite !N.leb_le. lia.
Qed.
Definition gval (u : pystr) : option Z := match dec_val (strip u) with Some v => Some (Z.of_N v) | None => None end.
Lemma gval_1 c d : digit_val c = Some d -> gval [c] = Some (Z.of_N d).
Proof.
  intro H. unfold gval. rewrite strip_digits by (cbn; unfold is_digit; rewrite H; auto). unfold dec_val. cbn [dec_val_from]. rewrite H. f_equal.
Qed.
Lemma gval_2 a b d e : digit_val a = Some d -> digit_val b = Some e -> gval [a; b] = Some (Z.of_N (d * 10 + e)).
Proof.
  intros H K. unfold gval. rewrite strip_digits by (cbn; unfold is_digit; rewrite H, K; auto). unfold dec_val. cbn [dec_val_from]. rewrite H, K. f_equal.
Qed.
Lemma gval_b c d : digit_val c = Some d -> gval [#" "; c] = Some (Z.of_N d).
Proof.
  intro H. rewrite <- (gval_1 c) by exact H. unfold gval, strip, lstrip. cbn [dropwhile]. change (is_space #" ") with true. cbn iota. reflexivity.
Qed.
Lemma gval_4 a b c e u v w x : digit_val a = Some u -> digit_val b = Some v -> digit_val c = Some w -> digit_val e = Some x ->
  gval [a; b; c; e] = Some (Z.of_N (((u * 10 + v) * 10 + w) * 10 + x)).
Proof.
  intros H K L M. unfold gval. rewrite strip_digits by (cbn; unfold is_digit; rewrite H, K, L, M; auto). unfold dec_val. cbn [dec_val_from]. rewrite H, K, L, M. f_equal.
Qed.
Lemma pd_val c : is_digit c = true -> exists d, digit_val c = Some d /\ (d <= 9)%N.
Proof. intro H. apply is_digit_spec in H as (d & H). exists d. split; auto. eapply digit_val_le; eauto. Qed.

Ltac inv_m := repeat match goal with
  | H : Matches (plit _) _ _ _ |- _ => apply Matches_lit in H as [-> ->]
  | H : Matches (PCat _ _) _ _ _ |- _ => destruct H as (? & ? & ? & ? & -> & -> & H & ?)
  | H : Matches (PSet _) _ _ _ |- _ => destruct H as ((? & -> & H) & ->)
  | H : range_c ?a ?b _ = true |- _ => apply range_digit in H as (? & H & ?); [|vm_compute; discriminate|vm_compute; discriminate]
  | H : is_digit _ = true |- _ => apply pd_val in H as (? & H & ?)
  | H : Matches pd _ _ _ |- _ => unfold pd in H
  end.
Ltac alts H := apply Matches_alts in H as (? & ? & H);
  repeat match goal with K : In _ (_ :: _) |- _ => destruct K as [<-|K] | K : In _ [] |- _ => destruct K end.
Ltac norm_n := repeat match goal with H : context [(?a - 48)%N] |- _ =>
  let v := eval vm_compute in (a - 48)%N in change (a - 48)%N with v in H end.
Definition pmonth := palts [PCat (plit $"1") (PSet (range_c #"0" #"2")); PCat (plit $"0") (PSet (range_c #"1" #"9")); PSet (range_c #"1" #"9")].
Definition pday := palts [PCat (plit $"3") (PSet (range_c #"0" #"1")); PCat (PSet (range_c #"1" #"2")) pd; PCat (plit $"0") (PSet (range_c #"1" #"9"));
  PSet (range_c #"1" #"9"); PCat (plit $" ") (PSet (range_c #"1" #"9"))].
Definition phour := palts [PCat (plit $"2") (PSet (range_c #"0" #"3")); PCat (PSet (range_c #"0" #"1")) pd; pd].
Definition pmin := palts [PCat (PSet (range_c #"0" #"5")) pd; pd].
Definition psec := palts [PCat (plit $"6") (PSet (range_c #"0" #"1")); PCat (PSet (range_c #"0" #"5")) pd; pd].

Ltac two d := repeat match goal with |- context [lit ?l] => let x := eval vm_compute in (lit l) in change (lit l) with x end; cbn [app];
  match goal with
  | H1 : digit_val ?a = Some _, H2 : digit_val ?b = Some _ |- context [gval [?a; ?b]] => rewrite (gval_2 a b _ _ H1 H2)
  | H2 : digit_val ?b = Some _ |- context [gval [32%N; ?b]] => change (gval [32%N; b]) with (gval [#" "; b]); rewrite (gval_b b _ H2)
  | H2 : digit_val ?b = Some _ |- context [gval [?a; ?b]] =>
      let v := eval vm_compute in (digit_val a) in match v with Some ?k => rewrite (gval_2 a b k _ eq_refl H2) end
  | H1 : digit_val ?a = Some _ |- context [gval [?a]] => rewrite (gval_1 a _ H1)
  end.
Ltac fin := eexists; split; [reflexivity|]; norm_n; lia.
Lemma month_val u rest g : Matches pmonth u rest g -> g = [] /\ exists z, gval u = Some z /\ 1 <= z <= 12.
Proof. intro H. alts H; inv_m; (split; [reflexivity|]); cbn [app]; two tt; fin. Qed.
Lemma day_val u rest g : Matches pday u rest g -> g = [] /\ exists z, gval u = Some z /\ 1 <= z.
Proof. intro H. alts H; inv_m; (split; [reflexivity|]); cbn [app]; two tt; fin. Qed.
Lemma hour_val u rest g : Matches phour u rest g -> g = [] /\ exists z, gval u = Some z /\ 0 <= z <= 23.
Proof. intro H. alts H; inv_m; (split; [reflexivity|]); cbn [app]; two tt; fin. Qed.
Lemma min_val u rest g : Matches pmin u rest g -> g = [] /\ exists z, gval u = Some z /\ 0 <= z <= 59.
Proof. intro H. alts H; inv_m; (split; [reflexivity|]); cbn [app]; two tt; fin. Qed.
Lemma sec_val u rest g : Matches psec u rest g -> g = [] /\ exists z, gval u = Some z /\ 0 <= z.
Proof. intro H. alts H; inv_m; (split; [reflexivity|]); cbn [app]; two tt; fin. Qed.
Lemma year_val u rest g : Matches (pcats [pd; pd; pd; pd]) u rest g -> g = [] /\ exists z, gval u = Some z /\ 0 <= z <= 9999.
Proof.
  cbn [pcats]. intro H. inv_m. split; [reflexivity|]. cbn [app].
  match goal with H1 : digit_val ?a = Some _, H2 : digit_val ?b = Some _, H3 : digit_val ?c = Some _, H4 : digit_val ?d = Some _ |- context [gval [?a; ?b; ?c; ?d]] =>
    rewrite (gval_4 a b c d _ _ _ _ H1 H2 H3 H4) end. eexists. split; [reflexivity|]. lia.
Qed.
Lemma strptime_re_eq : strptime_re = pcats [PGroup 1 (pcats [pd; pd; pd; pd]); plit $"-"; PGroup 2 pmonth; plit $"-"; PGroup 3 pday; pci #"T"; PGroup 4 phour;
  plit $":"; PGroup 5 pmin; plit $":"; PGroup 6 psec; pci #"Z"].
Proof. reflexivity. Qed.
Lemma group_int_gval n g : group_int n g = match group n g with Some s => gval s | None => None end.
Proof. reflexivity. Qed.
Lemma strptime_groups s rest g : re_match_rest strptime_re s = Some (rest, g) -> exists y m d h mi sec,
  group_int 1 g = Some y /\ group_int 2 g = Some m /\ group_int 3 g = Some d /\ group_int 4 g = Some h /\ group_int 5 g = Some mi /\ group_int 6 g = Some sec
  /\ 0 <= y <= 9999 /\ 1 <= m <= 12 /\ 1 <= d /\ 0 <= h <= 23 /\ 0 <= mi <= 59 /\ 0 <= sec.
Proof.
  intro H. apply re_match_rest_sound in H as (u & -> & H). rewrite strptime_re_eq in H. cbn [pcats] in H.
  destruct H as (? & ? & ? & ? & -> & -> & (? & -> & H1) & H). destruct H as (? & ? & ? & ? & -> & -> & L1 & H).
  destruct H as (? & ? & ? & ? & -> & -> & (? & -> & H2) & H). destruct H as (? & ? & ? & ? & -> & -> & L2 & H).
  destruct H as (? & ? & ? & ? & -> & -> & (? & -> & H3) & H). destruct H as (? & ? & ? & ? & -> & -> & L3 & H).
  destruct H as (? & ? & ? & ? & -> & -> & (? & -> & H4) & H). destruct H as (? & ? & ? & ? & -> & -> & L4 & H).
  destruct H as (? & ? & ? & ? & -> & -> & (? & -> & H5) & H). destruct H as (? & ? & ? & ? & -> & -> & L5 & H).
  destruct H as (? & ? & ? & ? & -> & -> & (? & -> & H6) & L6).
  apply Matches_lit in L1 as [-> ->]. apply Matches_lit in L2 as [-> ->]. destruct L3 as (_ & ->). apply Matches_lit in L4 as [-> ->].
  apply Matches_lit in L5 as [-> ->]. destruct L6 as (_ & ->).
  apply year_val in H1 as (-> & y & Y & ?). apply month_val in H2 as (-> & m & M & ?). apply day_val in H3 as (-> & d & D & ?).
  apply hour_val in H4 as (-> & h & Hh & ?). apply min_val in H5 as (-> & mi & Mi & ?). apply sec_val in H6 as (-> & sec & S & ?).
  exists y, m, d, h, mi, sec. rewrite !group_int_gval. unfold group. cbn. auto 15.
Qed.
Theorem read_datetime_valid s d : datetime_from_str s = Ok d -> ValidDatetime d /\ dt_us d = 0 /\ dt_off d = None.
Proof.
  unfold datetime_from_str, strptime. destruct (re_match_rest strptime_re s) as [[[|c rest] g]|] eqn:E; try discriminate.
  apply strptime_groups in E as (y & m & dd & h & mi & sec & -> & -> & -> & -> & -> & -> & Y & M & D & Hh & Mi & S).
  destruct (_ && _)%bool eqn:B; [|discriminate]. intro H. injection H as <-. cbn.
  apply andb_prop in B as [B B3]. apply andb_prop in B as [B1 B2]. apply Z.leb_le in B1. apply Z.leb_le in B2. apply Z.leb_le in B3.
  repeat split; cbn; try lia. exists (days_in_month y m). split; [apply month_days_spec; auto|lia].
Qed.
