(** The matcher of Rx.v decides the language of a pattern, and characterisations of the derived forms. *)
From Verif Require Import Py PyFacts Rx.

Lemma nullable_correct r : nullable r = true <-> lang r [].
Proof.
  induction r as [| |p|a IHa b IHb|a IHa b IHb|a IHa]; cbn [nullable].
  - split; [discriminate|]. inversion 1.
  - split; auto. constructor.
  - split; [discriminate|]. inversion 1.
  - rewrite andb_true_iff, IHa, IHb. split.
    + intros [Ha Hb]. change (@nil char) with (@nil char ++ []). constructor; auto.
    + intro H. inversion H as [| |? ? s t Hs Ht E1 E2| | | |]; subst.
      apply app_eq_nil in E2 as [-> ->]. auto.
  - rewrite orb_true_iff, IHa, IHb. split.
    + intros [H|H]; [apply LAltL|apply LAltR]; auto.
    + inversion 1; subst; auto.
  - split; auto. constructor.
Qed.

Lemma lang_star_cons a c s :
  lang (RStar a) (c :: s) -> exists u v, s = u ++ v /\ lang a (c :: u) /\ lang (RStar a) v.
Proof.
  intro H. remember (RStar a) as r eqn:Er. remember (c :: s) as w eqn:Ew. revert c s Ew Er.
  induction H as [|p x Hp|x y s t Hs IHs Ht IHt|x y s Hs IHs|x y s Hs IHs|x|x s t Hs IHs Ht IHt];
    intros c0 s0 Ew Er; try discriminate.
  injection Er as ->. destruct s as [|c1 s].
  - cbn in Ew. apply IHt; auto.
  - injection Ew as -> <-. exists s, t. auto.
Qed.

Lemma deriv_correct c r s : lang (deriv c r) s <-> lang r (c :: s).
Proof.
  revert s; induction r as [| |p|a IHa b IHb|a IHa b IHb|a IHa]; intro s; cbn [deriv].
  - split; inversion 1.
  - split; inversion 1.
  - destruct (p c) eqn:E; split; intro H.
    + inversion H; subst. constructor; auto.
    + inversion H; subst. constructor.
    + inversion H.
    + inversion H; subst. congruence.
  - assert (Hcat : lang (RCat (deriv c a) b) s <-> exists u v, s = u ++ v /\ lang a (c :: u) /\ lang b v).
    { split.
      - inversion 1 as [| |? ? u v Hu Hv| | | |]; subst. exists u, v. rewrite <- IHa. auto.
      - intros (u & v & -> & Hu & Hv). constructor; auto. apply IHa; auto. }
    assert (Hgoal : lang (RCat a b) (c :: s) <->
                    (exists u v, s = u ++ v /\ lang a (c :: u) /\ lang b v) \/ (lang a [] /\ lang b (c :: s))).
    { split.
      - inversion 1 as [| |? ? u v Hu Hv E1 E2| | | |]; subst. destruct u as [|c0 u].
        + right. cbn in E2. subst. auto.
        + injection E2 as -> <-. left. exists u, v. auto.
      - intros [(u & v & -> & Hu & Hv)|[Ha Hb]].
        + change (c :: u ++ v) with ((c :: u) ++ v). constructor; auto.
        + change (c :: s) with ([] ++ c :: s). constructor; auto. }
    rewrite Hgoal. destruct (nullable a) eqn:En.
    + apply nullable_correct in En. split.
      * inversion 1; subst; [left; apply Hcat; auto|right; rewrite <- IHb; auto].
      * intros [H|[_ H]]; [apply LAltL, Hcat; auto|apply LAltR, IHb; auto].
    + rewrite Hcat. split; [tauto|]. intros [H|[H _]]; auto. apply nullable_correct in H. congruence.
  - split; inversion 1; subst.
    + apply LAltL, IHa; auto.
    + apply LAltR, IHb; auto.
    + apply LAltL, IHa; auto.
    + apply LAltR, IHb; auto.
  - split.
    + inversion 1 as [| |? ? u v Hu Hv| | | |]; subst. change (c :: u ++ v) with ((c :: u) ++ v).
      constructor; auto. apply IHa; auto.
    + intro H. apply lang_star_cons in H as (u & v & -> & Hu & Hv). constructor; auto. apply IHa; auto.
Qed.

Theorem rx_match_correct r s : rx_match r s = true <-> lang r s.
Proof.
  revert r; induction s as [|c s IH]; intro r; cbn [rx_match].
  - apply nullable_correct.
  - rewrite IH. apply deriv_correct.
Qed.

Theorem rx_prefix_correct r s : rx_prefix r s = true <-> exists u v, s = u ++ v /\ lang r u.
Proof.
  revert r; induction s as [|c s IH]; intro r; cbn [rx_prefix]; rewrite orb_true_iff, nullable_correct.
  - split.
    + intros [H|H]; [|discriminate]. exists [], []; auto.
    + intros (u & v & E & H). symmetry in E. apply app_eq_nil in E as [-> ->]. auto.
  - rewrite IH. split.
    + intros [H|(u & v & -> & H)].
      * exists [], (c :: s); auto.
      * exists (c :: u), v. rewrite <- deriv_correct. auto.
    + intros (u & v & E & H). destruct u as [|c0 u]; auto.
      injection E as -> ->. right. exists u, v. rewrite deriv_correct. auto.
Qed.

Theorem match_dollar_correct r s :
  match_dollar r s = true <-> lang r s \/ exists t, s = t ++ [LF] /\ lang r t.
Proof.
  unfold match_dollar. rewrite orb_true_iff, rx_match_correct. apply or_iff_compat_l.
  destruct (rev s) as [|c s'] eqn:E.
  - split; [discriminate|]. intros (t & -> & _). rewrite rev_app_distr in E. discriminate.
  - assert (Es : s = rev s' ++ [c]) by (rewrite <- (rev_involutive s), E; reflexivity).
    rewrite andb_true_iff, N.eqb_eq, rx_match_correct. split.
    + intros [-> H]. exists (rev s'). auto.
    + intros (t & -> & H). apply app_inj_tail in Es as [-> ->]. auto.
Qed.

(** ** Languages of the derived forms *)
Lemma lang_none s : lang RNone s <-> False.
Proof. split; [inversion 1|tauto]. Qed.
Lemma lang_eps s : lang REps s <-> s = [].
Proof. split; [inversion 1; auto|intros ->; constructor]. Qed.
Lemma lang_set p s : lang (RSet p) s <-> exists c, s = [c] /\ p c = true.
Proof.
  split.
  - inversion 1; subst; eauto.
  - intros (c & -> & H). constructor; auto.
Qed.
Lemma lang_cat a b s : lang (RCat a b) s <-> exists u v, s = u ++ v /\ lang a u /\ lang b v.
Proof.
  split.
  - inversion 1; subst; eauto.
  - intros (u & v & -> & Hu & Hv). constructor; auto.
Qed.
Lemma lang_alt a b s : lang (RAlt a b) s <-> lang a s \/ lang b s.
Proof. split; [inversion 1; auto|intros [H|H]; [apply LAltL|apply LAltR]; auto]. Qed.
Lemma lang_opt a s : lang (ropt a) s <-> lang a s \/ s = [].
Proof. unfold ropt. rewrite lang_alt, lang_eps. reflexivity. Qed.
Lemma lang_char c s : lang (rchar c) s <-> s = [c].
Proof.
  unfold rchar. rewrite lang_set. split.
  - intros (x & -> & H). apply N.eqb_eq in H. congruence.
  - intros ->. exists c. rewrite N.eqb_refl. auto.
Qed.
Lemma lang_lit l s : lang (rlit l) s <-> s = l.
Proof.
  revert s; induction l as [|c l IH]; intro s; cbn [rlit].
  - apply lang_eps.
  - rewrite lang_cat. split.
    + intros (u & v & -> & Hu & Hv). apply lang_char in Hu. apply IH in Hv. subst. reflexivity.
    + intros ->. exists [c], l. rewrite lang_char, IH. auto.
Qed.
(** Repetition of a character class *)
Lemma lang_star_set p s : lang (RStar (RSet p)) s <-> forallb p s = true.
Proof.
  induction s as [|c s IH]; cbn [forallb].
  - split; auto. constructor.
  - rewrite andb_true_iff, <- IH. split.
    + intro H. apply lang_star_cons in H as (u & v & -> & Hu & Hv).
      apply lang_set in Hu as (x & E & Hx). injection E as -> ->. auto.
    + intros [Hp H]. change (c :: s) with ([c] ++ s). constructor; auto. constructor; auto.
Qed.
Lemma lang_plus_set p s : lang (rplus (RSet p)) s <-> s <> [] /\ forallb p s = true.
Proof.
  unfold rplus. rewrite lang_cat. split.
  - intros (u & v & -> & Hu & Hv). apply lang_set in Hu as (c & -> & Hc). apply lang_star_set in Hv.
    split; [discriminate|]. cbn. rewrite Hc, Hv. reflexivity.
  - intros [Hn H]. destruct s as [|c s]; [contradiction|]. cbn in H. apply andb_true_iff in H as [Hc H].
    exists [c], s. rewrite lang_set, lang_star_set. eauto 10.
Qed.
Lemma lang_exact_set p n s : lang (rexact n (RSet p)) s <-> List.length s = n /\ forallb p s = true.
Proof.
  revert s; induction n as [|n IH]; intro s; cbn [rexact].
  - rewrite lang_eps. split; [intros ->; auto|]. intros [H _]. destruct s; [auto|discriminate].
  - rewrite lang_cat. split.
    + intros (u & v & -> & Hu & Hv). apply lang_set in Hu as (c & -> & Hc). apply IH in Hv as [Hl Hv].
      cbn. rewrite Hl, Hc, Hv. auto.
    + intros [Hl H]. destruct s as [|c s]; [discriminate|]. cbn in H, Hl. apply andb_true_iff in H as [Hc H].
      injection Hl as Hl. exists [c], s. rewrite lang_set, IH. eauto 10.
Qed.
Lemma lang_upto_set p n s : lang (rupto n (RSet p)) s <-> List.length s <= n /\ forallb p s = true.
Proof.
  revert s; induction n as [|n IH]; intro s; cbn [rupto].
  - rewrite lang_eps. split; [intros ->; auto|]. intros [H _]. destruct s; [auto|cbn in H; lia].
  - rewrite lang_alt, lang_eps, lang_cat. split.
    + intros [(u & v & -> & Hu & Hv)| ->].
      * apply lang_set in Hu as (c & -> & Hc). apply IH in Hv as [Hl Hv].
        cbn. rewrite Hc, Hv. split; [lia|reflexivity].
      * cbn. split; [lia|reflexivity].
    + intros [Hl H]. destruct s as [|c s]; [auto|]. left. cbn in H, Hl. apply andb_true_iff in H as [Hc H].
      exists [c], s. rewrite lang_set, IH. split; [reflexivity|]. split; [eauto|]. split; [lia|auto].
Qed.
Lemma lang_atleast_set p n s : lang (ratleast n (RSet p)) s <-> n <= List.length s /\ forallb p s = true.
Proof.
  unfold ratleast. rewrite lang_cat. split.
  - intros (u & v & -> & Hu & Hv). apply lang_exact_set in Hu as [Hl Hu]. apply lang_star_set in Hv.
    rewrite app_length, forallb_app, Hu, Hv. split; [lia|reflexivity].
  - intros [Hl H]. exists (firstn n s), (skipn n s). rewrite firstn_skipn. split; auto.
    rewrite <- (firstn_skipn n s), forallb_app in H. apply andb_true_iff in H as [H1 H2].
    rewrite lang_exact_set, lang_star_set, firstn_length. split; [|auto]. split; [lia|auto].
Qed.
Lemma lang_cats_cons a b l s : lang (rcats (a :: b :: l)) s <-> exists u v, s = u ++ v /\ lang a u /\ lang (rcats (b :: l)) v.
Proof. apply lang_cat. Qed.
Lemma lang_alts l s : lang (ralts l) s <-> exists r, In r l /\ lang r s.
Proof.
  induction l as [|r l IH]; cbn [ralts].
  - rewrite lang_none. split; [tauto|]. intros (r & [] & _).
  - destruct l as [|r' l].
    + split; [intro H; exists r; split; [left; auto|auto]|]. intros (x & [->|[]] & H). auto.
    + rewrite lang_alt, IH. split.
      * intros [H|(x & Hx & H)]; [exists r; split; [left; auto|auto]|exists x; split; [right; auto|auto]].
      * intros (x & [->|Hx] & H); [auto|right; eauto].
Qed.

(** A literal prefix followed by one or more characters of a class *)
Lemma lang_prefix_class l p s :
  lang (RCat (rlit l) (rplus (RSet p))) s <-> exists t, s = l ++ t /\ t <> [] /\ forallb p t = true.
Proof.
  rewrite lang_cat. split.
  - intros (u & v & -> & Hu & Hv). apply lang_lit in Hu. apply lang_plus_set in Hv. subst. eauto.
  - intros (t & -> & Ht). exists l, t. rewrite lang_lit, lang_plus_set. auto.
Qed.
