(** Facts about the string operations of Py.v. *)
From Verif Require Import Py.
From Coq Require Import DecimalN DecimalPos DecimalFacts Sorting.Permutation.

Lemma str_eqb_eq a b : str_eqb a b = true <-> a = b.
Proof.
  revert b; induction a as [|x a IH]; destruct b as [|y b]; cbn [str_eqb]; split; intro H; try discriminate; auto.
  - apply andb_true_iff in H as [H1 H2]. apply N.eqb_eq in H1. apply IH in H2. congruence.
  - injection H as -> ->. rewrite N.eqb_refl. apply IH. reflexivity.
Qed.
Lemma str_eqb_refl a : str_eqb a a = true.
Proof. apply str_eqb_eq; reflexivity. Qed.
Lemma str_eqb_neq a b : str_eqb a b = false <-> a <> b.
Proof.
  destruct (str_eqb a b) eqn:E; split; intro H; try discriminate; auto.
  - apply str_eqb_eq in E. contradiction.
  - intro; subst. rewrite str_eqb_refl in E. discriminate.
Qed.
Lemma str_eqb_sym a b : str_eqb a b = str_eqb b a.
Proof.
  destruct (str_eqb a b) eqn:E; symmetry.
  - apply str_eqb_eq in E. subst. apply str_eqb_refl.
  - apply str_eqb_neq in E. apply str_eqb_neq. congruence.
Qed.
Lemma str_dec (a b : pystr) : {a = b} + {a <> b}.
Proof. apply list_eq_dec, N.eq_dec. Defined.

Lemma str_in_In x l : str_in x l = true <-> In x l.
Proof.
  unfold str_in. rewrite existsb_exists. split.
  - intros [y [H1 H2]]. apply str_eqb_eq in H2. congruence.
  - intro H. exists x. split; auto. apply str_eqb_refl.
Qed.
Lemma str_in_false x l : str_in x l = false <-> ~ In x l.
Proof.
  rewrite <- str_in_In. destruct (str_in x l); split; intro H; try discriminate; auto. exfalso; auto.
Qed.

Lemma has_char_In c s : has_char c s = true <-> In c s.
Proof.
  unfold has_char. rewrite existsb_exists. split.
  - intros [y [H1 H2]]. apply N.eqb_eq in H2. subst; auto.
  - intro H. exists c. split; auto. apply N.eqb_refl.
Qed.
Lemma has_char_false c s : has_char c s = false <-> ~ In c s.
Proof.
  rewrite <- has_char_In. destruct (has_char c s); split; intro H; try discriminate; auto. exfalso; auto.
Qed.

Lemma startswith_spec p s : startswith p s = true <-> exists t, s = p ++ t.
Proof.
  revert s; induction p as [|x p IH]; intro s; cbn [startswith app].
  - split; intro; eauto.
  - destruct s as [|y s]; split; intro H; try discriminate.
    + destruct H as [t H]; discriminate.
    + apply andb_true_iff in H as [H1 H2]. apply N.eqb_eq in H1. apply IH in H2 as [t H2]. exists t. congruence.
    + destruct H as [t H]. injection H as -> ->. rewrite N.eqb_refl. apply IH; eauto.
Qed.
Lemma startswith_app p t : startswith p (p ++ t) = true.
Proof. apply startswith_spec; eauto. Qed.
Lemma endswith_spec p s : endswith p s = true <-> exists t, s = t ++ p.
Proof.
  unfold endswith. rewrite startswith_spec. split; intros [t H].
  - exists (rev t). rewrite <- (rev_involutive s), H, rev_app_distr, rev_involutive. reflexivity.
  - exists (rev t). rewrite H, rev_app_distr. reflexivity.
Qed.
Lemma contains_spec sub s : contains sub s = true <-> exists a b, s = a ++ sub ++ b.
Proof.
  induction s as [|c s IH]; cbn [contains]; rewrite orb_true_iff, startswith_spec.
  - split.
    + intros [[t H]|H]; [|discriminate]. exists [], t; auto.
    + intros (a & b & H). symmetry in H. apply app_eq_nil in H as [-> H].
      apply app_eq_nil in H as [-> ->]. left; exists []; auto.
  - rewrite IH. split.
    + intros [[t H]|(a & b & H)]; [exists [], t; auto|]. exists (c :: a), b. rewrite H; reflexivity.
    + intros (a & b & H). destruct a as [|x a].
      * left; exists b; auto.
      * right. injection H as -> H. eauto.
Qed.

(** ** split and join *)
Lemma split_on_nonempty c s : split_on c s <> [].
Proof.
  destruct s as [|x s]; cbn; [discriminate|]. destruct (N.eqb x c); [discriminate|].
  destruct (split_on c s); discriminate.
Qed.
Lemma split_on_nochar c s : ~ In c s -> split_on c s = [s].
Proof.
  induction s as [|x s IH]; intro H; cbn [split_on]; auto.
  destruct (N.eqb x c) eqn:E.
  - apply N.eqb_eq in E. exfalso; apply H; left; auto.
  - rewrite IH; auto. intro Hin; apply H; right; auto.
Qed.
Lemma split_on_app c a s : ~ In c a -> split_on c (a ++ c :: s) = a :: split_on c s.
Proof.
  induction a as [|x a IH]; intro H; cbn [split_on app].
  - rewrite N.eqb_refl. reflexivity.
  - destruct (N.eqb x c) eqn:E.
    + apply N.eqb_eq in E. exfalso; apply H; left; auto.
    + rewrite IH; auto. intro Hin; apply H; right; auto.
Qed.
Lemma split_on_parts c s : Forall (fun p => ~ In c p) (split_on c s).
Proof.
  induction s as [|x s IH]; cbn [split_on].
  - constructor; auto.
  - destruct (N.eqb x c) eqn:E.
    + constructor; auto.
    + destruct (split_on c s) as [|h t].
      * constructor; auto. intros [H|[]]. apply N.eqb_neq in E. auto.
      * inversion IH as [|? ? Hh Ht]; subst. constructor; auto.
        intros [H|H]; auto. apply N.eqb_neq in E; auto.
Qed.
Lemma join_split c s : join [c] (split_on c s) = s.
Proof.
  induction s as [|x s IH]; cbn [split_on]; auto.
  destruct (N.eqb x c) eqn:E.
  - apply N.eqb_eq in E. subst. destruct (split_on c s) eqn:Hs; [exfalso; eapply split_on_nonempty; eauto|].
    cbn [join app] in *. rewrite IH. reflexivity.
  - destruct (split_on c s) as [|h t] eqn:Hs; [exfalso; eapply split_on_nonempty; eauto|].
    destruct t as [|h' t]; cbn [join app] in *; rewrite <- IH; reflexivity.
Qed.
Lemma split_join c l : l <> [] -> Forall (fun p => ~ In c p) l -> split_on c (join [c] l) = l.
Proof.
  induction l as [|x l IH]; intros Hn HF; [contradiction|].
  inversion HF as [|? ? Hx Hl]; subst.
  destruct l as [|y l].
  - cbn. apply split_on_nochar; auto.
  - change (join [c] (x :: y :: l)) with (x ++ c :: join [c] (y :: l)).
    rewrite split_on_app; auto. f_equal. apply IH; auto. discriminate.
Qed.
(** Two parts exactly when there is exactly one separator. *)
Lemma split_two c s a b : split_on c s = [a; b] <-> s = a ++ c :: b /\ ~ In c a /\ ~ In c b.
Proof.
  split.
  - intro H. pose proof (split_on_parts c s) as HF. pose proof (join_split c s) as HJ. rewrite H in *.
    apply Forall_cons_iff in HF as [Ha HF]. apply Forall_cons_iff in HF as [Hb _].
    cbn in HJ. auto.
  - intros (-> & Ha & Hb). rewrite split_on_app; auto. rewrite split_on_nochar; auto.
Qed.
Lemma split_one c s a : split_on c s = [a] <-> s = a /\ ~ In c a.
Proof.
  split.
  - intro H. pose proof (split_on_parts c s) as HF. pose proof (join_split c s) as HJ. rewrite H in *.
    apply Forall_cons_iff in HF as [Ha _]. cbn in HJ. subst. auto.
  - intros [-> H]. apply split_on_nochar; auto.
Qed.

(** ** Association lists *)
Lemma assoc_dict_set_same {A} k (v : A) l : assoc k (dict_set k v l) = Some v.
Proof.
  induction l as [|[k' v'] l IH]; cbn [dict_set assoc].
  - rewrite str_eqb_refl. reflexivity.
  - destruct (str_eqb k k') eqn:E; cbn [assoc]; rewrite E; auto.
Qed.
Lemma assoc_dict_set_other {A} k k' (v : A) l : k <> k' -> assoc k (dict_set k' v l) = assoc k l.
Proof.
  intro Hne. induction l as [|[k2 v2] l IH]; cbn [dict_set assoc].
  - apply str_eqb_neq in Hne. rewrite Hne. reflexivity.
  - destruct (str_eqb k' k2) eqn:E; cbn [assoc].
    + apply str_eqb_eq in E. subst k2. apply str_eqb_neq in Hne. rewrite Hne. reflexivity.
    + rewrite IH. reflexivity.
Qed.
Lemma assoc_In {A} k (v : A) l : assoc k l = Some v -> In (k, v) l.
Proof.
  induction l as [|[k' v'] l IH]; cbn [assoc]; [discriminate|].
  destruct (str_eqb k k') eqn:E.
  - apply str_eqb_eq in E. intro H. injection H as ->. subst. left; auto.
  - right; auto.
Qed.
Lemma assoc_None {A} k (l : list (pystr * A)) : assoc k l = None <-> ~ In k (map fst l).
Proof.
  induction l as [|[k' v'] l IH]; cbn [assoc map fst].
  - split; auto.
  - destruct (str_eqb k k') eqn:E.
    + apply str_eqb_eq in E. subst. split; [discriminate|]. intro H; exfalso; apply H; left; auto.
    + apply str_eqb_neq in E. rewrite IH. split; intro H.
      * intros [->|H']; auto.
      * intro H'; apply H; right; auto.
Qed.

(** ** Stripping *)
Lemma dropwhile_In p s x : In x (dropwhile p s) -> In x s.
Proof.
  induction s as [|c s IH]; cbn [dropwhile]; auto. destruct (p c); intros H; [right; auto|exact H].
Qed.
Lemma dropwhile_id p s : (forall c s', s = c :: s' -> p c = false) -> dropwhile p s = s.
Proof. destruct s as [|c s]; intro H; cbn [dropwhile]; auto. rewrite (H c s); auto. Qed.

(** A string without white space at either end *)
Definition stripped (s : pystr) : Prop :=
  (forall c s', s = c :: s' -> is_space c = false) /\ (forall c s', s = s' ++ [c] -> is_space c = false).
Lemma lstrip_id s : (forall c s', s = c :: s' -> is_space c = false) -> lstrip s = s.
Proof. apply dropwhile_id. Qed.
Lemma rstrip_id s : (forall c s', s = s' ++ [c] -> is_space c = false) -> rstrip s = s.
Proof.
  intro H. unfold rstrip. rewrite dropwhile_id, rev_involutive; auto.
  intros c s' E. apply (H c (rev s')). rewrite <- (rev_involutive s), E. cbn. reflexivity.
Qed.
Lemma strip_id s : stripped s -> strip s = s.
Proof. intros [H1 H2]. unfold strip. rewrite lstrip_id; auto. apply rstrip_id; auto. Qed.
Lemma dropwhile_all p s : forallb p s = true -> dropwhile p s = [].
Proof. induction s as [|c s IH]; cbn; auto. destruct (p c); cbn; auto. discriminate. Qed.
Lemma dropwhile_app p a s : forallb p a = true -> dropwhile p (a ++ s) = dropwhile p s.
Proof. induction a as [|c a IH]; cbn; auto. destruct (p c); cbn; auto. discriminate. Qed.
Lemma dropwhile_app_ne p a s : dropwhile p a <> [] -> dropwhile p (a ++ s) = dropwhile p a ++ s.
Proof. induction a as [|c a IH]; cbn; [contradiction|]. destruct (p c); cbn; auto. Qed.
Lemma dropwhile_suffix p s : exists a, s = a ++ dropwhile p s /\ forallb p a = true.
Proof.
  induction s as [|c s (a & E & H)]; cbn [dropwhile].
  - exists []; auto.
  - destruct (p c) eqn:Ec.
    + exists (c :: a). cbn. rewrite Ec, <- E. auto.
    + exists []. auto.
Qed.
Lemma dropwhile_head p s c s' : dropwhile p s = c :: s' -> p c = false.
Proof.
  induction s as [|x s IH]; cbn [dropwhile]; [discriminate|].
  destruct (p x) eqn:E; auto. intro H; injection H as -> ->. auto.
Qed.
Lemma strip_stripped s : stripped (strip s).
Proof.
  unfold strip, rstrip. split.
  - intros c s' H.
    destruct (dropwhile_suffix is_space (rev (lstrip s))) as (a & E & Ha).
    assert (E' : lstrip s = rev (dropwhile is_space (rev (lstrip s))) ++ rev a).
    { rewrite <- rev_app_distr, <- E, rev_involutive. reflexivity. }
    rewrite H in E'. apply (dropwhile_head is_space s c (s' ++ rev a)). exact E'.
  - intros c s' H.
    assert (E : dropwhile is_space (rev (lstrip s)) = c :: rev s').
    { rewrite <- (rev_involutive (dropwhile _ _)), H, rev_app_distr. reflexivity. }
    apply (dropwhile_head _ _ _ _ E).
Qed.
Lemma strip_idem s : strip (strip s) = strip s.
Proof. apply strip_id, strip_stripped. Qed.

(** ** Decimal numerals *)
Lemma is_digit09_spec c : is_digit09 c = true <-> (48 <= c <= 57)%N.
Proof. unfold is_digit09. rewrite andb_true_iff, !N.leb_le. reflexivity. Qed.

Lemma uint_str_digits u : forallb is_digit09 (uint_str u) = true.
Proof. induction u; cbn; auto. Qed.

Lemma digit_val_09 c : is_digit09 c = true -> digit_val c = Some (c - 48)%N.
Proof. unfold digit_val. intros ->. reflexivity. Qed.

Lemma dec_val_from_uint u (acc : N) :
  dec_val_from acc (uint_str u) = Some (match acc with N0 => Pos.of_uint u | Npos p => Npos (Pos.of_uint_acc u p) end).
Proof.
  assert (Hpos : forall u p, dec_val_from (Npos p) (uint_str u) = Some (Npos (Pos.of_uint_acc u p))).
  { clear. induction u; intro p; cbn [uint_str dec_val_from Pos.of_uint_acc]; auto;
    rewrite digit_val_09 by reflexivity;
    match goal with |- dec_val_from ?n _ = _ =>
      match goal with |- _ = Some (Npos (Pos.of_uint_acc _ ?q)) => replace n with (Npos q) by lia end end;
    apply IHu. }
  destruct acc as [|p]; [|apply Hpos].
  induction u; cbn [uint_str dec_val_from Pos.of_uint]; auto;
  rewrite digit_val_09 by reflexivity; cbn -[dec_val_from]; auto.
Qed.

Lemma uint_str_nil u : uint_str u = [] -> u = Decimal.Nil.
Proof. destruct u; cbn; auto; discriminate. Qed.

Lemma str_of_N_nonempty n : str_of_N n <> [].
Proof.
  unfold str_of_N. intro H. apply uint_str_nil in H. destruct n as [|p]; [discriminate|].
  cbn in H. apply (DecimalPos.Unsigned.to_uint_nonnil p). exact H.
Qed.
Lemma str_of_N_digits n : forallb is_digit09 (str_of_N n) = true.
Proof. apply uint_str_digits. Qed.

(** int(str(n)) = n *)
Lemma dec_val_str_of_N n : dec_val (str_of_N n) = Some n.
Proof.
  unfold dec_val. destruct (str_of_N n) eqn:E; [exfalso; eapply str_of_N_nonempty; eauto|].
  rewrite <- E. unfold str_of_N. rewrite dec_val_from_uint.
  change (Pos.of_uint (N.to_uint n)) with (N.of_uint (N.to_uint n)).
  rewrite DecimalN.Unsigned.of_to. reflexivity.
Qed.
Lemma str_of_N_inj a b : str_of_N a = str_of_N b -> a = b.
Proof.
  intro H. pose proof (dec_val_str_of_N a) as Ha. rewrite H, dec_val_str_of_N in Ha. congruence.
Qed.
