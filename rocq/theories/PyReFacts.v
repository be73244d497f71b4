(** Facts about the backtracking matcher. *)
From Verif Require Import Py PyFacts PyRe.

Section Star.
  Variable p : char -> bool.
  Variable k : pystr -> mres.
  (** The greedy choice wins when the continuation cannot start with a character of the class. *)
  Lemma star_bt_max s : (forall c t, p c = true -> k (c :: t) = None) -> star_bt p k s = k (dropwhile p s).
  Proof.
    intro H. induction s as [|c s IH]; cbn [star_bt dropwhile]; auto. destruct (p c) eqn:E; auto.
    rewrite IH. destruct (k (dropwhile p s)) eqn:Ek; auto.
  Qed.
  Lemma star_bt_greedy s r : k (dropwhile p s) = Some r -> star_bt p k s = Some r.
  Proof.
    induction s as [|c s IH]; cbn [star_bt dropwhile]; auto. destruct (p c) eqn:E; auto. intro H. rewrite IH; auto.
  Qed.
  Lemma star_bt_some s r :
    star_bt p k s = Some r -> exists a b, s = a ++ b /\ forallb p a = true /\ k b = Some r.
  Proof.
    revert r; induction s as [|c s IH]; cbn [star_bt]; intros r H.
    - exists [], []. auto.
    - destruct (p c) eqn:E; [|exists [], (c :: s); auto].
      destruct (star_bt p k s) as [r'|] eqn:Es.
      + injection H as ->. destruct (IH _ eq_refl) as (a & b & -> & Ha & Hk). exists (c :: a), b. cbn. rewrite E. auto.
      + exists [], (c :: s). auto.
  Qed.
  Lemma star_bt_none s :
    (forall a b, s = a ++ b -> forallb p a = true -> k b = None) -> star_bt p k s = None.
  Proof.
    intro H. destruct (star_bt p k s) as [r|] eqn:E; auto. apply star_bt_some in E as (a & b & -> & Ha & Hk).
    rewrite (H a b) in Hk; auto.
  Qed.
  (** [a] is the longest prefix after which the continuation succeeds. *)
  Lemma star_bt_longest a b r :
    forallb p a = true -> k b = Some r ->
    (forall a' b', a ++ b = a' ++ b' -> forallb p a' = true -> List.length a < List.length a' -> k b' = None) ->
    star_bt p k (a ++ b) = Some r.
  Proof.
    revert r; induction a as [|c a IH]; cbn [app]; intros r Ha Hk Hn.
    - destruct b as [|c b]; cbn [star_bt]; auto. destruct (p c) eqn:E; auto.
      rewrite star_bt_none; auto. intros a' b' Hs Ha'. apply (Hn (c :: a') b').
      + cbn. rewrite Hs. reflexivity.
      + cbn. rewrite E. auto.
      + cbn. lia.
    - cbn [star_bt]. cbn [forallb] in Ha. apply andb_true_iff in Ha as [Hc Ha]. rewrite Hc.
      rewrite (IH r); auto. intros a' b' Hs Ha' Hl. apply (Hn (c :: a') b').
      + cbn. rewrite Hs. reflexivity.
      + cbn. rewrite Hc. auto.
      + cbn. lia.
  Qed.
End Star.

Lemma star_bt_ext p k k' s : (forall t, k t = k' t) -> star_bt p k s = star_bt p k' s.
Proof. intro H. induction s as [|c s IH]; cbn [star_bt]; rewrite ?IH, ?H; auto. Qed.

Lemma pm_plit l s g k :
  pm (plit l) s g k = if startswith l s then k (skipn (List.length l) s) g else None.
Proof.
  revert s; induction l as [|c l IH]; intro s; cbn [plit pm startswith List.length skipn]; auto.
  destruct s as [|x s]; auto. destruct (N.eqb c x); cbn [andb]; auto.
Qed.
Lemma pm_pcat a b s g k : pm (PCat a b) s g k = pm a s g (fun s' g' => pm b s' g' k).
Proof. reflexivity. Qed.
Lemma pcats_cons r r' l : pcats (r :: r' :: l) = PCat r (pcats (r' :: l)).
Proof. reflexivity. Qed.
Lemma pm_ext r s g k k' : (forall t h, k t h = k' t h) -> pm r s g k = pm r s g k'.
Proof.
  revert s g k k'; induction r as [|q|q|a IHa b IHb|a IHa b IHb|n a IHa|]; intros s g k k' H; cbn [pm]; auto.
  - destruct s as [|c s]; auto. destruct (q c); auto.
  - apply star_bt_ext. auto.
  - rewrite (IHa _ _ _ _ H), (IHb _ _ _ _ H). reflexivity.
  - destruct s as [|c [|? ?]]; auto. destruct (N.eqb c LF); auto.
Qed.
Lemma takewhile_dropwhile p s : s = takewhile p s ++ dropwhile p s.
Proof. induction s as [|c s IH]; cbn [takewhile dropwhile]; auto. destruct (p c); cbn [app]; congruence. Qed.
Lemma takewhile_all p s : forallb p (takewhile p s) = true.
Proof. induction s as [|c s IH]; cbn [takewhile]; auto. destruct (p c) eqn:E; cbn [forallb]; rewrite ?E; auto. Qed.
Lemma firstn_len_app {A} (a b : list A) : firstn (List.length (a ++ b) - List.length b) (a ++ b) = a.
Proof.
  rewrite app_length. replace (List.length a + List.length b - List.length b) with (List.length a) by lia.
  rewrite firstn_app, firstn_all, Nat.sub_diag. cbn. apply app_nil_r.
Qed.
