(** What an arbitrary text says. *)
From Verif Require Import Py PyFacts PyRe PyReFacts PyReSound Data Oracles Basics Json Construct JsonConv JsonParse JsonSpec JsonRead
  TvWriter TvLexer TvSpec TvTokSpec TvLexFacts TvLexValues TvFieldFacts TvSpecialFacts TvParser TvParseFacts TvErrors TvRepeat TvRaises TvReadSpec
  TvRead TvRead2 TvRead3 TvRead4 TvRead5 TvRead6 TvRead7 TvRead8 TvStreamSpec TvRead9.

Section WithOracles.
Variable O : oracles.
Definition groups_of (l : list (grp * N)) : list grp := map fst l.
Definition lines_of (l : list (grp * N)) : list N := map snd l.
Definition GoodEvents (es : list event) : Prop := Forall (fun e => match e with Ev_act g _ => Good g | _ => True end) es.
Lemma happens_quiet es : forall st gs, sift es = Some (gs, false) -> happens O es st = acts O (groups_of gs) (lines_of gs) st.
Proof.
  induction es as [|e es IH]; intros st gs S; cbn [sift happens] in *; [injection S as <-; reflexivity|].
  destruct e as [g n|t n|n].
  - destruct (sift es) as [[gs' b]|]; [|discriminate]. injection S as <- ->. cbn [groups_of lines_of map fst snd acts happen]. destruct (act O (g_tag g) n (g_val g) (g_com g) st); [|reflexivity]. cbn [bind]. apply IH. reflexivity.
  - destruct (sift es) as [[gs' b]|]; [|discriminate]. destruct (inside t); discriminate.
  - destruct (sift es) as [[gs' b]|]; discriminate.
Qed.
Lemma raise_not {A B} (r : result A) (f : A -> result B) d : (forall a, r = Ok a -> exists e, f a = Raise e) -> (do x <- r; f x) = Ok d -> False.
Proof. intros H K. destruct r as [a|]; [|discriminate K]. cbn [bind] in K. destruct (H a eq_refl) as [e E]. congruence. Qed.
Lemma happens_mute es : forall st gs b d, ps_class st = None -> GoodEvents es -> sift es = Some (gs, b) -> existsb is_start gs = false ->
  ((do st' <- happens O es st; finish st') = Ok d <-> (do st' <- acts O (groups_of gs) (lines_of gs) (mute st); finish st') = Ok d).
Proof.
  induction es as [|e es IH]; intros st gs b d C F S N; cbn [sift happens] in *.
  - injection S as <- _. cbn [groups_of lines_of map acts bind]. rewrite finish_mute by exact C. reflexivity.
  - apply Forall_cons_iff in F as [F1 F2]. destruct e as [g n|t n|n].
    + destruct (sift es) as [[gs' b']|] eqn:S'; [|discriminate]. injection S as <- <-. cbn [existsb] in N. apply orb_false_iff in N as [N1 N2]. unfold is_start in N1. cbn [fst] in N1.
      cbn [groups_of lines_of map fst snd acts happen]. fold (groups_of gs') (lines_of gs'). destruct (of_document (g_tag g)) eqn:D.
      * rewrite act_mute by exact D. destruct (act O (g_tag g) n (g_val g) (g_com g) st) as [st1|] eqn:E; [|split; discriminate]. cbn [bind rmap].
        apply act_ext in E; [|exact N1]. eapply IH; eauto. rewrite (ex_class _ _ E). exact C.
      * destruct F1 as [(vk & V & _) _].
        assert (B : forall st0, ps_class st0 = None -> forall r, (forall st1 st2, Bad st1 -> r st1 = Ok st2 -> Bad st2) -> forall d, (do st' <- (do st1 <- act O (g_tag g) n (g_val g) (g_com g) st0; r st1); finish st') = Ok d -> False).
        { intros st0 C0 r R d0. apply raise_not. intros a H. destruct (act O (g_tag g) n (g_val g) (g_com g) st0) as [st1|] eqn:E; [|discriminate H]. cbn [bind] in H.
          apply finish_bad. eapply R; [|exact H]. eapply act_stray; eauto. }
        split; intro H; exfalso; (eapply B; [| |exact H]); auto.
        -- intros st1 st2 H1 H2. apply (proj1 (happens_bad O es st1 st2 H2)). exact H1.
        -- intros st1 st2 H1 H2. apply (kp_bad _ _ (acts_kept O _ _ _ _ H2)). exact H1.
    + destruct (sift es) as [[gs' b']|] eqn:S'; [|discriminate]. destruct (inside t) eqn:In; [|discriminate]. injection S as <- <-. cbn [happen].
      unfold inside in In. apply andb_true_iff in In as [I1 I2]. unfold error_action. destruct (is_creation_info_tag t); [discriminate I1|]. destruct (is_start_tag t); [discriminate I2|]. cbn [bind].
      rewrite (IH _ gs' b' d); auto. reflexivity.
    + destruct (sift es) as [[gs' b']|]; discriminate.
Qed.
(** ** The result of the events *)
Lemma events_result es d : GoodEvents es ->
  ((do st <- happens O es init_state; finish st) = Ok d <->
   exists gs b, sift es = Some (gs, b) /\ (b = true -> existsb is_start gs = false) /\ (do st <- acts O (groups_of gs) (lines_of gs) init_state; finish st) = Ok d).
Proof.
  intro F. split.
  - intro H. destruct (sift es) as [[gs b]|] eqn:S.
    + exists gs, b. split; [reflexivity|]. destruct b.
      * destruct (existsb is_start gs) eqn:N.
        { exfalso. revert H. apply raise_not. intros st E. apply finish_bad. eapply warn; eauto. }
        split; auto. apply (happens_mute es init_state gs true d) in H; auto.
      * split; [discriminate|]. rewrite (happens_quiet es init_state gs S) in H. exact H.
    + exfalso. apply fatal_sift in S. revert H. apply raise_not. intros st E. apply finish_bad. apply (proj2 (happens_bad O es _ _ E)). exact S.
  - intros (gs & b & S & N & H). destruct b.
    + apply (happens_mute es init_state gs true d); auto.
    + rewrite (happens_quiet es init_state gs S). exact H.
Qed.
End WithOracles.

(** ** From events to attributes *)
Lemma starts_opens k : starts_attribute k = opens (tk_type k).
Proof. unfold starts_attribute, opens. destruct (tk_type k) as [t| | | | | | | | | | |]; try reflexivity. destruct t; reflexivity. Qed.
Lemma not_in_list t l : is_in t l = false <-> ~ In t l.
Proof.
  unfold is_in. split.
  - intros H K. assert (X : existsb (tag_eqb t) l = true) by (apply existsb_exists; exists t; split; [exact K|apply tag_eqb_refl]). congruence.
  - intro H. destruct (existsb (tag_eqb t) l) eqn:E; [|reflexivity]. apply existsb_exists in E as (x & I1 & I2). apply tag_eqb_spec in I2. subst x. contradiction.
Qed.
Lemma creation_list t : is_creation_info_tag t = is_in t creation_tags.
Proof. destruct t; reflexivity. Qed.
Lemma start_list t : is_start_tag t = is_in t start_tags.
Proof. destruct t; reflexivity. Qed.
Lemma inside_iff t : Inside t <-> value_kind t <> None /\ inside t = true /\ t <> T_SPDXID.
Proof.
  unfold Inside, inside. rewrite creation_list, start_list, andb_true_iff, !negb_true_iff, !not_in_list. tauto.
Qed.
Lemma whole_iff t q : Whole t q <->
  (exists v, q = [v] /\ ValueOf t v) \/ (exists v c ct, q = [v; tag_tok ct; c] /\ ValueOf t v /\ comment_tag t = Some ct /\ accepts K_text_or_line (tk_type c) = true).
Proof.
  unfold Whole, ValueOf. split.
  - intros (g & [G1 G2] & <- & E). unfold tokens_of, fields in E. cbn [flat_map fst snd app] in E. injection E as <-. destruct (g_com g) as [c|]; [|left; eauto].
    destruct (comment_tag (g_tag g)) as [ct|] eqn:Ct; [|destruct G2; contradiction]. right. exists (g_val g), c, ct. destruct G2 as [_ G2]. auto.
  - intros [(v & -> & V)|(v & c & ct & -> & V & Ct & A)].
    + exists (attr t v None). split; [split; [exact V|exact I]|]. split; reflexivity.
    + exists (attr t v (Some c)). split; [split; [exact V|]|].
      * cbn [attr g_com g_tag]. split; [congruence|exact A].
      * split; [reflexivity|]. unfold tokens_of, fields. cbn [attr g_com g_tag g_val]. rewrite Ct. reflexivity.
Qed.
Lemma accepts_inner vk k : accepts vk (tk_type k) = true -> Inner k.
Proof. unfold Inner. destruct vk, (tk_type k); try discriminate; reflexivity. Qed.
Lemma value_inner t k : ValueOf t k -> Inner k.
Proof. intros (vk & _ & H). eapply accepts_inner; eauto. Qed.
Lemma comment_kind t c : comment_tag t = Some c -> value_kind c = None /\ Inner (tag_tok c) /\ has_error_rule t = true /\ t <> T_SPDXID.
Proof. destruct t; try discriminate; intro H; injection H as <-; repeat split; discriminate. Qed.
Lemma error_rule t : has_error_rule t = true <-> t <> T_SPDXID.
Proof. destruct t; cbn; split; congruence. Qed.
Lemma value_of_test t k : match value_kind t with Some vk => accepts vk (tk_type k) | None => false end = true <-> ValueOf t k.
Proof.
  unfold ValueOf. destruct (value_kind t) as [vk|]; split; try discriminate; eauto.
  - intros (vk' & E & H). injection E as <-. exact H.
  - intros (vk' & E & _). discriminate.
Qed.
Lemma comment_test t k : Normal k -> match tk_type k, comment_tag t with TT_TAG c, Some c' => tag_eqb c c' | _, _ => false end = true <-> exists c, comment_tag t = Some c /\ k = tag_tok c.
Proof.
  intros [_ N]. destruct (tk_type k) as [c0| | | | | | | | | | |] eqn:E; split; try discriminate; try (intros (c & Hc & ->); cbn in E; discriminate).
  - destruct (comment_tag t) as [c'|]; [|discriminate]. intro H. apply tag_eqb_spec in H. subst c'. eauto.
  - intros (c & -> & ->). cbn in E. injection E as <-. apply tag_eqb_refl.
Qed.
Definition Hopeless (t : tag) (q : list token) : Prop := forall q', ~ Whole t (q ++ q') /\ ~ CutOff t (q ++ q').
Lemma hopeless_more t q k : Hopeless t q -> Hopeless t (q ++ [k]).
Proof. intros H q'. rewrite <- app_assoc. apply H. Qed.
Lemma hopeless_value t k : ~ ValueOf t k -> Hopeless t [k].
Proof.
  intros H q'. cbn [app]. split.
  - rewrite whole_iff. intros [(v & E & V)|(v & c & ct & E & V & _)]; injection E as <- _; contradiction.
  - intro K. inversion K; subst; contradiction.
Qed.
Lemma hopeless_second t v k : (forall c, comment_tag t = Some c -> k <> tag_tok c) -> Hopeless t [v; k].
Proof.
  intros H q'. cbn [app]. split.
  - rewrite whole_iff. intros [(x & E & V)|(x & c & ct & E & V & C & _)]; [discriminate|]. injection E as _ E _. exact (H ct C E).
  - intro K. inversion K as [|? c V C]. subst. exact (H c C eq_refl).
Qed.
Lemma hopeless_third t v x k : accepts K_text_or_line (tk_type k) = false -> Hopeless t [v; x; k].
Proof.
  intros H q'. cbn [app]. split.
  - rewrite whole_iff. intros [(y & E & V)|(y & c & ct & E & V & C & A)]; [discriminate|]. injection E as _ _ <- _. congruence.
  - intro K. inversion K.
Qed.
Lemma hopeless_long t a b c d : Hopeless t [a; b; c; d].
Proof.
  intros q'. cbn [app]. split.
  - rewrite whole_iff. intros [(y & E & V)|(y & z & ct & E & _)]; discriminate.
  - intro K. inversion K.
Qed.
Lemma not_whole_nil t : ~ Whole t [].
Proof. rewrite whole_iff. intros [(v & E & _)|(v & c & ct & E & _)]; discriminate. Qed.
Lemma not_whole_two t a b : ~ Whole t [a; b].
Proof. rewrite whole_iff. intros [(v & E & _)|(v & c & ct & E & _)]; discriminate. Qed.
Lemma unknown_iff ty : unknown_accepts ty = true <-> In ty unknown_values.
Proof. destruct ty; cbn; split; intro H; try discriminate H; auto 8; repeat (destruct H as [H|H]; try discriminate H); destruct H. Qed.
Definition ModeFine (m : pmode) : Prop :=
  match m with
  | M_Base | M_Unknown _ | M_UnknownVal _ => True
  | M_Tag t _ => value_kind t <> None
  | M_Val t _ v => ValueOf t v
  | M_CommentTag t _ v => ValueOf t v /\ comment_tag t <> None
  | M_Comment t _ v c => ValueOf t v /\ comment_tag t <> None /\ accepts K_text_or_line (tk_type c) = true
  | M_Error t _ => value_kind t <> None /\ has_error_rule t = true
  end.
Definition TakenFrom (m : pmode) (l : list token) (gs : list grp) (b : bool) : Prop :=
  match m with
  | M_Base => Taken true l gs b
  | M_Tag t _ => forall x, Taken x (tag_tok t :: l) gs b
  | M_Val t _ v => forall x, Taken x (tag_tok t :: v :: l) gs b
  | M_CommentTag t _ v => forall x c, comment_tag t = Some c -> Taken x (tag_tok t :: v :: tag_tok c :: l) gs b
  | M_Comment t _ v c => forall x ct, comment_tag t = Some ct -> Taken x (tag_tok t :: v :: tag_tok ct :: c :: l) gs b
  | M_Unknown _ => forall x u, tk_type u = TT_UNKNOWN_TAG -> Taken x (u :: l) gs b
  | M_UnknownVal _ => forall x u v, tk_type u = TT_UNKNOWN_TAG -> In (tk_type v) unknown_values -> Taken x (u :: v :: l) gs b
  | M_Error t _ => forall x q, Forall Inner q -> Hopeless t q -> Taken x (tag_tok t :: q ++ l) gs b
  end.
Definition Sifted (es : list event) (gs : list grp) (b : bool) : Prop := exists gn, sift es = Some (gn, b) /\ groups_of gn = gs.
Lemma sifted_nil : Sifted [] [] false. Proof. exists []. auto. Qed.
Lemma sifted_nil_inv gs b : Sifted [] gs b -> gs = [] /\ b = false.
Proof. intros (gn & E & <-). injection E as <- <-. auto. Qed.
Lemma sifted_act g n es gs b : Sifted (Ev_act g n :: es) gs b <-> exists gs', gs = g :: gs' /\ Sifted es gs' b.
Proof.
  unfold Sifted. cbn [sift]. split.
  - intros (gn & E & <-). destruct (sift es) as [[gn' b']|]; [|discriminate]. injection E as <- <-. exists (groups_of gn'). eauto.
  - intros (gs' & -> & gn & -> & <-). exists ((g, n) :: gn). auto.
Qed.
Lemma sifted_err t n es gs b : Sifted (Ev_err t n :: es) gs b <-> inside t = true /\ b = true /\ exists b', Sifted es gs b'.
Proof.
  unfold Sifted. cbn [sift]. split.
  - intros (gn & E & <-). destruct (sift es) as [[gn' b']|]; [|discriminate]. destruct (inside t); [|discriminate]. injection E as <- <-. eauto 8.
  - intros (I1 & -> & b' & gn & -> & <-). rewrite I1. eauto.
Qed.
Lemma sifted_unknown n es gs b : ~ Sifted (Ev_unknown n :: es) gs b.
Proof. unfold Sifted. cbn [sift]. intros (gn & E & _). destruct (sift es) as [[gn' b']|]; discriminate. Qed.
Lemma attribute_taken x t v l gs b : ValueOf t v -> Taken false l gs b -> Taken x (tag_tok t :: v :: l) (attr t v None :: gs) b.
Proof.
  intros V T. apply (Taken_attribute x (attr t v None) l gs b); [|exact T]. split; [exact V|exact I].
Qed.
Lemma commented_taken x t v ct c l gs b : ValueOf t v -> comment_tag t = Some ct -> accepts K_text_or_line (tk_type c) = true -> Taken false l gs b ->
  Taken x (tag_tok t :: v :: tag_tok ct :: c :: l) (attr t v (Some c) :: gs) b.
Proof.
  intros V C A T. pose proof (Taken_attribute x (attr t v (Some c)) l gs b) as H. unfold fields, attr in H. cbn [g_tag g_val g_com] in H. rewrite C in H. apply H; [|exact T].
  split; [exact V|]. cbn. split; [congruence|exact A].
Qed.
Lemma taken_events l : forall m gs b, Forall (fun x => Normal (fst x)) l -> ModeFine m -> Sifted (events m l) gs b -> TakenFrom m (map fst l) gs b.
Proof.
  induction l as [|[k n] l IH]; intros m gs b N F S.
  - destruct m as [|t n|t n v|t n v|t n v c|n|n|t n]; cbn [events done map TakenFrom ModeFine] in *.
    + apply sifted_nil_inv in S as [-> ->]. constructor.
    + apply sifted_nil_inv in S as [-> ->]. intro x. apply Taken_cut. constructor. exact F.
    + apply sifted_act in S as (gs' & -> & S). apply sifted_nil_inv in S as [-> ->]. intro x. apply attribute_taken; [exact F|constructor].
    + apply sifted_nil_inv in S as [-> ->]. intros x c C. apply Taken_cut. constructor; [apply F|exact C].
    + apply sifted_act in S as (gs' & -> & S). apply sifted_nil_inv in S as [-> ->]. intros x ct C. destruct F as (F1 & F2 & F3). apply commented_taken; auto. constructor.
    + apply sifted_unknown in S as [].
    + apply sifted_unknown in S as [].
    + apply sifted_err in S as (I1 & -> & b' & S). apply sifted_nil_inv in S as [-> ->]. intros x q Q H. destruct F as [F1 F2].
      apply (Taken_broken x t q [] [] false); auto; [|specialize (H []); rewrite app_nil_r in H; exact (proj1 H)| |constructor].
      * apply inside_iff. split; [exact F1|]. split; [exact I1|]. apply error_rule. exact F2.
      * intros _. specialize (H []). rewrite app_nil_r in H. apply H.
  - apply Forall_cons_iff in N as [N1 N2]. cbn [fst] in N1. cbn [map fst].
    assert (ENT : forall gs b, opens (tk_type k) = true -> Sifted (events (enter k n) l) gs b -> forall x, Taken x (k :: map fst l) gs b).
    { intros gs0 b0 Op S0 x. unfold enter in S0. unfold opens in Op. destruct (tk_type k) as [t| | | | | | | | | | |] eqn:Tk; try discriminate Op.
      - pose proof (proj2 N1 t Tk) as Ek. destruct (value_kind t) as [vk|] eqn:Vk; [|destruct t; try discriminate Vk; discriminate Op].
        apply IH in S0; [|exact N2|cbn; congruence]. cbn [TakenFrom] in S0. subst k. apply S0.
      - apply IH in S0; [|exact N2|exact I]. cbn [TakenFrom] in S0. apply S0. exact Tk. }
    assert (INN : opens (tk_type k) = false -> enter k n = M_Base).
    { unfold opens, enter. destruct (tk_type k) as [t| | | | | | | | | | |]; try reflexivity; try discriminate. destruct t; try discriminate; reflexivity. }
    assert (BRK : forall t line q m' gs b, value_kind t <> None -> has_error_rule t = true -> Forall Inner q -> ~ Whole t q ->
              (opens (tk_type k) = false -> Hopeless t (q ++ [k])) ->
              Sifted (snd (bad_token m' t line k n) ++ events (fst (bad_token m' t line k n)) l) gs b -> forall x, Taken x (tag_tok t :: q ++ k :: map fst l) gs b).
    { intros t line q m' gs0 b0 V E Q W H S0 x. unfold bad_token in S0. rewrite E, starts_opens in S0. destruct (opens (tk_type k)) eqn:Op; cbn [fst snd app] in S0.
      - apply sifted_err in S0 as (I1 & -> & b' & S0). apply (Taken_broken x t q (k :: map fst l) gs0 b'); auto; [|discriminate].
        apply inside_iff. split; [exact V|]. split; [exact I1|]. apply error_rule. exact E.
      - apply IH in S0; [|exact N2|split; auto]. cbn [TakenFrom] in S0. specialize (S0 x (q ++ [k])). rewrite <- app_assoc in S0. cbn [app] in S0. apply S0; auto.
        apply Forall_app. split; auto. }
    cbn [events] in S. destruct m as [|t n0|t n0 v|t n0 v|t n0 v c|n0|n0|t n0]; cbn [next TakenFrom ModeFine] in *; rewrite ?starts_opens in S.
    + cbn [app] in S. destruct (opens (tk_type k)) eqn:Op; [apply ENT; auto|]. rewrite INN in S by reflexivity. apply Taken_stray; [exact Op|]. apply (IH M_Base gs b N2 I S).
    + destruct (match value_kind t with Some vk => accepts vk (tk_type k) | None => false end) eqn:V.
      * apply value_of_test in V. cbn [app] in S. apply IH in S; [exact S|exact N2|exact V].
      * assert (V' : ~ ValueOf t k) by (rewrite <- value_of_test; congruence). destruct (has_error_rule t) eqn:E.
        -- destruct (bad_token (M_Tag t n0) t n0 k n) as [m' es] eqn:B. intro x. apply (BRK t n0 [] (M_Tag t n0)); auto.
           ++ apply not_whole_nil.
           ++ intros _. cbn [app]. apply hopeless_value. exact V'.
           ++ rewrite B. exact S.
        -- unfold bad_token in S. rewrite E in S. cbn [app] in S. apply IH in S; [|exact N2|exact I]. cbn [TakenFrom] in S. intro x.
           assert (Et : t = T_SPDXID) by (destruct t; try discriminate E; reflexivity). subst t. apply Taken_no_id; [|exact S].
           intro K. apply V'. exists K_line. split; [reflexivity|]. rewrite K. reflexivity.
    + destruct (opens (tk_type k)) eqn:Op.
      * cbn [done app] in S. apply sifted_act in S as (gs' & -> & S). intro x. apply attribute_taken; [exact F|]. apply ENT; auto.
      * destruct (match tk_type k with TT_TAG c => _ | _ => _ end) eqn:C.
        -- apply (comment_test t k N1) in C as (c & C & ->). cbn [app] in S. apply IH in S; [|exact N2|split; [exact F|congruence]]. cbn [TakenFrom] in S. intro x. apply S. exact C.
        -- assert (C' : forall c, comment_tag t = Some c -> k <> tag_tok c) by (intros c Hc Hk; assert (X : exists c, comment_tag t = Some c /\ k = tag_tok c) by eauto; apply (comment_test t k N1) in X; congruence).
           destruct (has_error_rule t) eqn:E.
           ++ destruct (bad_token (M_Val t n0 v) t n0 k n) as [m' es] eqn:B. intro x.
              (* the value is followed by a token that does not fit *)
              unfold bad_token in B. rewrite E, starts_opens, Op in B. injection B as <- <-. cbn [app] in S. apply IH in S; [|exact N2|split; [destruct F as (vk & F & _); congruence|exact E]].
              cbn [TakenFrom] in S. apply (S x [v; k]); [|apply hopeless_second; exact C'].
              constructor; [eapply value_inner; exact F|]. constructor; [exact Op|constructor].
           ++ unfold bad_token in S. rewrite E in S. cbn [app] in S. apply IH in S; [|exact N2|exact I]. cbn [TakenFrom] in S. intro x.
              assert (Et : t = T_SPDXID) by (destruct t; try discriminate E; reflexivity). subst t. apply Taken_long_id; [|exact Op|exact S].
              destruct F as (vk & F1 & F2). cbn in F1. injection F1 as <-. destruct (tk_type v); try discriminate F2. reflexivity.
    + destruct F as [F1 F2]. destruct (accepts K_text_or_line (tk_type k)) eqn:A.
      * cbn [app] in S. apply IH in S; [|exact N2|split; auto]. cbn [TakenFrom] in S. intros x c C. apply S. exact C.
      * destruct (comment_tag t) as [c0|] eqn:C0; [|contradiction]. destruct (comment_kind t c0 C0) as (K1 & K2 & K3 & K4).
        destruct (bad_token (M_CommentTag t n0 v) t n0 k n) as [m' es] eqn:B. intros x c C. injection C as <-. apply (BRK t n0 [v; tag_tok c0] (M_CommentTag t n0 v)); auto.
        -- destruct F1 as (vk & F1 & _). congruence.
        -- constructor; [eapply value_inner; exact F1|]. constructor; [exact K2|constructor].
        -- apply not_whole_two.
        -- intros _. cbn [app]. apply hopeless_third. exact A.
        -- rewrite B. exact S.
    + destruct F as (F1 & F2 & F3). destruct (opens (tk_type k)) eqn:Op.
      * cbn [done app] in S. apply sifted_act in S as (gs' & -> & S). intros x ct C. apply commented_taken; auto.
      * destruct (comment_tag t) as [c0|] eqn:C0; [|contradiction]. destruct (comment_kind t c0 C0) as (K1 & K2 & K3 & K4).
        unfold bad_token in S. rewrite K3, starts_opens, Op in S. cbn [app] in S. apply IH in S; [|exact N2|split; [destruct F1 as (vk & F1 & _); congruence|exact K3]].
        cbn [TakenFrom] in S. intros x ct C. injection C as <-. apply (S x [v; tag_tok c0; c; k]); [|apply hopeless_long].
        constructor; [eapply value_inner; exact F1|]. constructor; [exact K2|]. constructor; [eapply accepts_inner; exact F3|]. constructor; [exact Op|constructor].
    + destruct (opens (tk_type k)) eqn:Op; [cbn [done app] in S; apply sifted_unknown in S as []|]. intros x u U.
      destruct (unknown_accepts (tk_type k)) eqn:A; cbn [app] in S; (apply IH in S; [|exact N2|exact I]); cbn [TakenFrom] in S.
      * apply S; auto. apply unknown_iff. exact A.
      * apply Taken_unknown; auto. rewrite <- unknown_iff. congruence.
    + destruct (opens (tk_type k)) eqn:Op; [cbn [done app] in S; apply sifted_unknown in S as []|]. intros x u v U A.
      cbn [app] in S. apply IH in S; [|exact N2|exact I]. cbn [TakenFrom] in S. apply Taken_long_unknown; auto.
    + destruct F as [F1 F2]. intros x q Q H. destruct (opens (tk_type k)) eqn:Op.
      * cbn [done app] in S. apply sifted_err in S as (I1 & -> & b' & S). apply (Taken_broken x t q (k :: map fst l) gs b'); auto; [|specialize (H []); rewrite app_nil_r in H; exact (proj1 H)|discriminate].
        apply inside_iff. split; [exact F1|]. split; [exact I1|]. apply error_rule. exact F2.
      * cbn [app] in S. apply IH in S; [|exact N2|split; auto]. cbn [TakenFrom] in S. specialize (S x (q ++ [k])). rewrite <- app_assoc in S. apply S.
        -- apply Forall_app. split; [exact Q|]. constructor; [exact Op|constructor].
        -- apply hopeless_more. exact H.
Qed.
