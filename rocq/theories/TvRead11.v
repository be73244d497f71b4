(** What an arbitrary text says: from attributes to events, and the theorem. *)
From Verif Require Import Py PyFacts PyRe PyReFacts PyReSound Data Oracles Basics Json Construct JsonConv JsonParse JsonSpec JsonRead
  TvWriter TvLexer TvSpec TvTokSpec TvLexFacts TvLexValues TvFieldFacts TvSpecialFacts TvParser TvParseFacts TvErrors TvRepeat TvRaises TvReadSpec
  TvRead TvRead2 TvRead3 TvRead4 TvRead5 TvRead6 TvRead7 TvRead8 TvStreamSpec TvRead9 TvRead10.

Definition Completed (m : pmode) : Prop := match m with M_Base | M_Val _ _ _ | M_Comment _ _ _ _ | M_Error _ _ => True | _ => False end.
Lemma opening m k n : Completed m -> opens (tk_type k) = true -> next m k n = (enter k n, done m).
Proof. intros C H. destruct m; try destruct C; cbn [next done]; rewrite ?starts_opens, ?H; reflexivity. Qed.
Lemma enter_tag t n : value_kind t <> None -> enter (tag_tok t) n = M_Tag t n /\ opens (tk_type (tag_tok t)) = true.
Proof. intro H. unfold enter, opens. cbn [tag_tok tk_type]. destruct (value_kind t) eqn:E; [|contradiction]. split; [reflexivity|]. destruct t; try discriminate E; reflexivity. Qed.
Lemma enter_unknown u n : tk_type u = TT_UNKNOWN_TAG -> enter u n = M_Unknown n /\ opens (tk_type u) = true.
Proof. intro H. unfold enter, opens. rewrite H. auto. Qed.
Lemma enter_inner k n : Inner k -> enter k n = M_Base.
Proof. unfold Inner, opens, enter. destruct (tk_type k) as [t| | | | | | | | | | |]; try reflexivity; try discriminate. destruct t; try discriminate; reflexivity. Qed.
Lemma events_cons m k n l : events m ((k, n) :: l) = snd (next m k n) ++ events (fst (next m k n)) l.
Proof. cbn [events]. destruct (next m k n). reflexivity. Qed.
Lemma events_open m k n l : Completed m -> opens (tk_type k) = true -> events m ((k, n) :: l) = done m ++ events (enter k n) l.
Proof. intros C H. rewrite events_cons, opening by auto. reflexivity. Qed.
Lemma next_value t n0 v n : ValueOf t v -> next (M_Tag t n0) v n = (M_Val t n0 v, []).
Proof. intro V. cbn [next]. apply value_of_test in V. rewrite V. reflexivity. Qed.
Lemma next_comment_tag t n0 v c n : comment_tag t = Some c -> next (M_Val t n0 v) (tag_tok c) n = (M_CommentTag t n0 v, []).
Proof.
  intro C. destruct (comment_kind t c C) as (K1 & K2 & _). cbn [next]. rewrite starts_opens. rewrite K2. cbn [tag_tok tk_type]. rewrite C, tag_eqb_refl. reflexivity.
Qed.
Lemma next_comment t n0 v c n : accepts K_text_or_line (tk_type c) = true -> next (M_CommentTag t n0 v) c n = (M_Comment t n0 v c, []).
Proof. intro A. cbn [next]. rewrite A. reflexivity. Qed.
Lemma error_skips t n0 q l : Forall (fun x => Inner (fst x)) q -> events (M_Error t n0) (q ++ l) = events (M_Error t n0) l.
Proof.
  induction 1 as [|[k n] q H _ IH]; [reflexivity|]. cbn [app fst] in *. rewrite events_cons. cbn [next]. rewrite starts_opens, H. exact IH.
Qed.
Definition OpensFirst (l : list (token * N)) : Prop := match l with [] => True | (k, _) :: _ => opens (tk_type k) = true end.
Lemma opens_no_value t k : opens (tk_type k) = true -> ~ ValueOf t k.
Proof. intros H V. apply value_inner in V. unfold Inner in V. congruence. Qed.
Lemma opens_no_text k : opens (tk_type k) = true -> accepts K_text_or_line (tk_type k) = false.
Proof. destruct (tk_type k); try discriminate; reflexivity. Qed.
(** a broken attribute *)
Lemma broken_events t n0 q l : value_kind t <> None -> has_error_rule t = true -> Forall (fun x => Normal (fst x)) q -> Forall (fun x => Inner (fst x)) q ->
  ~ Whole t (map fst q) -> (l = [] -> ~ CutOff t (map fst q)) -> OpensFirst l -> events (M_Tag t n0) (q ++ l) = events (M_Error t n0) l.
Proof.
  intros V E N Q W C Op. destruct q as [|[v n1] q].
  - cbn [app]. destruct l as [|[k n] l]; [exfalso; apply C; [reflexivity|constructor; exact V]|]. cbn [OpensFirst] in Op. rewrite !events_cons. cbn [next].
    assert (X : match value_kind t with Some vk => accepts vk (tk_type k) | None => false end = false).
    { destruct (match value_kind t with Some vk => _ | None => _ end) eqn:Y; [|reflexivity]. apply value_of_test in Y. destruct (opens_no_value t k Op Y). }
    rewrite X. unfold bad_token. rewrite E, !starts_opens, Op. reflexivity.
  - apply Forall_cons_iff in Q as [Q1 Q2]. apply Forall_cons_iff in N as [N1 N2]. cbn [fst app] in *. rewrite events_cons.
    destruct (match value_kind t with Some vk => accepts vk (tk_type v) | None => false end) eqn:Y.
    2:{ cbn [next]. rewrite Y. unfold bad_token. rewrite E, starts_opens, Q1. cbn [fst snd app]. apply error_skips. exact Q2. }
    apply value_of_test in Y. rewrite next_value by exact Y. cbn [fst snd app]. destruct q as [|[k2 n2] q].
    { exfalso. apply W. apply whole_iff. left. exists v. auto. }
    apply Forall_cons_iff in Q2 as [Q2 Q3]. apply Forall_cons_iff in N2 as [N2 N3]. cbn [fst app] in *. rewrite events_cons.
    destruct (match tk_type k2, comment_tag t with TT_TAG c, Some c' => tag_eqb c c' | _, _ => false end) eqn:Z.
    2:{ cbn [next]. rewrite starts_opens, Q2, Z. unfold bad_token. rewrite E, starts_opens, Q2. cbn [fst snd app]. apply error_skips. exact Q3. }
    apply (comment_test t k2 N2) in Z as (ct & Ct & ->). rewrite next_comment_tag by exact Ct. cbn [fst snd app]. destruct q as [|[k3 n3] q].
    { cbn [app map fst] in *. destruct l as [|[k n] l]; [exfalso; apply C; [reflexivity|constructor; auto]|]. cbn [OpensFirst] in Op. rewrite !events_cons. cbn [next].
      rewrite (opens_no_text k Op). unfold bad_token. rewrite E, !starts_opens, Op. reflexivity. }
    apply Forall_cons_iff in Q3 as [Q3 Q4]. apply Forall_cons_iff in N3 as [N3 N4]. cbn [fst app] in *. rewrite events_cons.
    destruct (accepts K_text_or_line (tk_type k3)) eqn:A.
    2:{ cbn [next]. rewrite A. unfold bad_token. rewrite E, starts_opens, Q3. cbn [fst snd app]. apply error_skips. exact Q4. }
    rewrite next_comment by exact A. cbn [fst snd app]. destruct q as [|[k4 n4] q].
    { exfalso. apply W. apply whole_iff. right. exists v, k3, ct. auto. }
    apply Forall_cons_iff in Q4 as [Q4 Q5]. cbn [fst app] in *. rewrite events_cons. cbn [next]. rewrite starts_opens, Q4. unfold bad_token. rewrite E, starts_opens, Q4. cbn [fst snd app].
    apply error_skips. exact Q5.
Qed.
Lemma taken_opens l gs b : Taken false l gs b -> match l with [] => True | k :: _ => opens (tk_type k) = true end.
Proof.
  intro H. remember false as x. destruct H; subst; try discriminate; auto.
  - destruct H as [(vk & V & _) _]. cbn. destruct (g_tag g); try discriminate V; reflexivity.
  - destruct H as [V|v c V _].
    + cbn. destruct t; try reflexivity; destruct V; reflexivity.
    + destruct V as (vk & V & _). cbn. destruct t; try discriminate V; reflexivity.
  - unfold opens. rewrite H. reflexivity.
  - unfold opens. rewrite H. reflexivity.
  - destruct H as [V _]. cbn. destruct t; try reflexivity; destruct V; reflexivity.
Qed.
Lemma map_fst_app (l : list (token * N)) : forall a b, map fst l = a ++ b -> exists la lb, l = la ++ lb /\ map fst la = a /\ map fst lb = b.
Proof.
  induction l as [|x l IH]; intros a b H.
  - destruct a; [|discriminate]. destruct b; [|discriminate]. exists [], []. auto.
  - destruct a as [|y a].
    + exists [], (x :: l). auto.
    + cbn [map app] in H. injection H as <- H. apply IH in H as (la & lb & -> & <- & <-). exists (x :: la), lb. auto.
Qed.
Lemma sifted_app_done m es gs b : Sifted es gs b -> Completed m -> match done m with
  | [] => Sifted (done m ++ es) gs b
  | Ev_act g n :: _ => Sifted (done m ++ es) (g :: gs) b
  | Ev_err t n :: _ => inside t = true -> Sifted (done m ++ es) gs true
  | _ => True end.
Proof.
  intros H C. destruct m; try destruct C; cbn [done app].
  - exact H.
  - apply sifted_act. eauto.
  - apply sifted_act. eauto.
  - intro I1. apply sifted_err. eauto.
Qed.
Ltac uncons l' E k n := destruct l' as [|[k n] l']; [discriminate E|]; cbn [map fst] in E; injection E as -> E.
Lemma events_taken x l gs b : Taken x l gs b -> forall l', map fst l' = l -> Forall (fun y => Normal (fst y)) l' ->
  forall m, Completed m -> (x = true -> m = M_Base) -> exists es, events m l' = done m ++ es /\ Sifted es gs b.
Proof.
  induction 1 as [x|x g l gs b G T IH|k l gs b Hk T IH|x t q C|x k l gs b Hk T IH|x v k l gs b Hv Hk T IH|x u k l gs b Hu Hk Ha T IH|x u v k l gs b Hu Ha Hk T IH|x t q l gs b Ht Q W C T IH];
    intros l' E N m Cm Hx.
  - destruct l'; [|discriminate]. exists []. split; [|apply sifted_nil]. rewrite app_nil_r. destruct m; try destruct Cm; reflexivity.
  - destruct G as [V G2]. change (ValueOf (g_tag g) (g_val g)) in V. assert (Vk : value_kind (g_tag g) <> None) by (destruct V as (vk & V & _); congruence).
    destruct (enter_tag (g_tag g)) with (n := 0%N) as [_ Op]; [exact Vk|].
    unfold tokens_of, fields in E. cbn [flat_map fst snd app] in E. uncons l' E k n. uncons l' E k' n'. apply Forall_cons_iff in N as [_ N]. apply Forall_cons_iff in N as [_ N].
    rewrite events_open by auto. rewrite (proj1 (enter_tag (g_tag g) n Vk)). rewrite events_cons, next_value by exact V. cbn [fst snd app].
    destruct (g_com g) as [c|] eqn:Gc.
    + destruct G2 as [G2 G3]. destruct (comment_tag (g_tag g)) as [ct|] eqn:Ct; [|contradiction]. cbn [flat_map fst snd app] in E. uncons l' E k3 n3. uncons l' E k4 n4.
      apply Forall_cons_iff in N as [_ N]. apply Forall_cons_iff in N as [_ N].
      rewrite events_cons, (next_comment_tag _ _ _ ct) by exact Ct. cbn [fst snd app]. rewrite events_cons, next_comment by exact G3. cbn [fst snd app].
      destruct (IH l' E N (M_Comment (g_tag g) n (g_val g) c) I ltac:(discriminate)) as (es & Ee & S). rewrite Ee. cbn [done app].
      eexists. split; [reflexivity|]. apply sifted_act. exists gs. split; [|exact S]. unfold attr. rewrite <- Gc. destruct g; reflexivity.
    + cbn [flat_map app] in E. destruct (IH l' E N (M_Val (g_tag g) n (g_val g)) I ltac:(discriminate)) as (es & Ee & S). rewrite Ee. cbn [done app].
      eexists. split; [reflexivity|]. apply sifted_act. exists gs. split; [|exact S]. unfold attr. rewrite <- Gc. destruct g; reflexivity.
  - rewrite (Hx eq_refl). uncons l' E k' n. apply Forall_cons_iff in N as [_ N]. rewrite events_cons. cbn [next fst snd app done]. rewrite enter_inner by exact Hk.
    exact (IH l' E N M_Base I (fun _ => eq_refl)).
  - assert (Vk : value_kind t <> None) by (destruct C as [V|v c (vk & V & _) _]; [exact V|congruence]). destruct (enter_tag t) with (n := 0%N) as [_ Op]; [exact Vk|].
    uncons l' E k n. rewrite events_open by auto. rewrite (proj1 (enter_tag t n Vk)). exists (events (M_Tag t n) l'). split; [reflexivity|].
    destruct C as [_|v c V Ct].
    + destruct l'; [|discriminate]. apply sifted_nil.
    + uncons l' E k1 n1. uncons l' E k2 n2. destruct l'; [|discriminate]. rewrite events_cons, next_value by exact V. cbn [fst snd app]. rewrite events_cons, next_comment_tag by exact Ct. apply sifted_nil.
  - uncons l' E k0 n. uncons l' E k1 n1. apply Forall_cons_iff in N as [_ N]. apply Forall_cons_iff in N as [_ N]. rewrite events_open by auto. exists (events (M_Tag T_SPDXID n) ((k, n1) :: l')). split; [reflexivity|].
    rewrite events_cons. cbn [next value_kind]. assert (A : accepts K_line (tk_type k) = false) by (destruct (tk_type k); try reflexivity; contradiction). rewrite A.
    unfold bad_token. cbn [has_error_rule fst snd app]. destruct (IH l' E N M_Base I (fun _ => eq_refl)) as (es & Ee & S). rewrite Ee. exact S.
  - uncons l' E k0 n. uncons l' E k1 n1. uncons l' E k2 n2. apply Forall_cons_iff in N as [_ N]. apply Forall_cons_iff in N as [_ N]. apply Forall_cons_iff in N as [_ N].
    rewrite events_open by auto. eexists. split; [reflexivity|]. change (enter (tag_tok T_SPDXID) n) with (M_Tag T_SPDXID n).
    rewrite events_cons, next_value by (exists K_line; split; [reflexivity|rewrite Hv; reflexivity]). cbn [fst snd app]. rewrite events_cons. cbn [next comment_tag]. rewrite starts_opens, Hk.
    assert (X : match tk_type k with TT_TAG _ => false | _ => false end = false) by (destruct (tk_type k); reflexivity). rewrite X.
    unfold bad_token. cbn [has_error_rule fst snd app]. destruct (IH l' E N M_Base I (fun _ => eq_refl)) as (es & Ee & S). rewrite Ee. exact S.
  - destruct (enter_unknown u) with (n := 0%N) as [_ Op]; [exact Hu|]. uncons l' E k0 n. uncons l' E k1 n1. apply Forall_cons_iff in N as [_ N]. apply Forall_cons_iff in N as [_ N].
    assert (Ha' : unknown_accepts (tk_type k) = false) by (destruct (unknown_accepts (tk_type k)) eqn:Y; [apply unknown_iff in Y; contradiction|reflexivity]).
    rewrite events_open by auto. eexists. split; [reflexivity|]. rewrite (proj1 (enter_unknown u n Hu)). rewrite events_cons. cbn [next]. rewrite starts_opens, Hk, Ha'. cbn [fst snd app].
    destruct (IH l' E N M_Base I (fun _ => eq_refl)) as (es & Ee & S). rewrite Ee. exact S.
  - apply unknown_iff in Ha. destruct (enter_unknown u) with (n := 0%N) as [_ Op]; [exact Hu|]. uncons l' E k0 n. uncons l' E k1 n1. uncons l' E k2 n2. apply Forall_cons_iff in N as [_ N]. apply Forall_cons_iff in N as [_ N]. apply Forall_cons_iff in N as [_ N].
    rewrite events_open by auto. eexists. split; [reflexivity|]. rewrite (proj1 (enter_unknown u n Hu)). rewrite events_cons. cbn [next]. rewrite starts_opens.
    assert (Iv : opens (tk_type v) = false) by (destruct (tk_type v); try discriminate Ha; reflexivity). rewrite Iv, Ha. cbn [fst snd app]. rewrite events_cons. cbn [next]. rewrite starts_opens, Hk. cbn [fst snd app].
    destruct (IH l' E N M_Base I (fun _ => eq_refl)) as (es & Ee & S). rewrite Ee. exact S.
  - apply inside_iff in Ht as (Vk & In & Id). destruct (enter_tag t) with (n := 0%N) as [_ Op]; [exact Vk|]. uncons l' E k n. apply Forall_cons_iff in N as [_ N].
    apply map_fst_app in E as (lq & lr & -> & <- & El). apply Forall_app in N as [N1 N2]. rewrite events_open by auto. eexists. split; [reflexivity|]. rewrite (proj1 (enter_tag t n Vk)).
    rewrite broken_events; auto.
    + destruct (IH lr El N2 (M_Error t n) I ltac:(discriminate)) as (es & Ee & S). rewrite Ee. cbn [done app]. apply sifted_err. eauto.
    + apply error_rule. exact Id.
    + apply Forall_forall. intros y Hy. rewrite Forall_forall in Q. apply Q, in_map. exact Hy.
    + intros ->. apply C. cbn in El. auto.
    + pose proof (taken_opens _ _ _ T) as X. rewrite <- El in X. destruct lr as [|[y ny] lr]; [exact I|exact X].
Qed.
Lemma taken_iff l gs b : Forall (fun y => Normal (fst y)) l -> (Taken true (map fst l) gs b <-> Sifted (events M_Base l) gs b).
Proof.
  intro N. split.
  - intro T. destruct (events_taken _ _ _ _ T l eq_refl N M_Base I (fun _ => eq_refl)) as (es & E & S). rewrite E. exact S.
  - intro S. exact (taken_events l M_Base gs b N I S).
Qed.

Lemma done_good m : ModeFine m -> GoodEvents (done m).
Proof.
  destruct m as [|t n|t n v|t n v|t n v c|n|n|t n]; cbn [ModeFine done]; intro F; repeat constructor.
  - exact F.
  - apply F.
  - apply F.
  - apply F.
Qed.
Lemma enter_fine k n : ModeFine (enter k n).
Proof. unfold enter. destruct (tk_type k) as [t| | | | | | | | | | |]; try exact I. destruct (value_kind t) eqn:V; [|exact I]. cbn. congruence. Qed.
Lemma bad_fine m' t n0 k n : value_kind t <> None -> ModeFine (fst (bad_token m' t n0 k n)) /\ GoodEvents (snd (bad_token m' t n0 k n)).
Proof.
  intro V. unfold bad_token. destruct (has_error_rule t) eqn:E; [|split; [exact I|constructor]]. destruct (starts_attribute k); cbn [fst snd].
  - split; [apply enter_fine|]. repeat constructor.
  - split; [split; auto|constructor].
Qed.
Lemma next_fine m k n : Normal k -> ModeFine m -> ModeFine (fst (next m k n)) /\ GoodEvents (snd (next m k n)).
Proof.
  intros N F. pose proof (done_good m F) as D. pose proof (enter_fine k n) as En. destruct m as [|t n0|t n0 v|t n0 v|t n0 v c|n0|n0|t n0]; cbn [next ModeFine] in *.
  - split; [exact En|constructor].
  - destruct (match value_kind t with Some vk => _ | None => _ end) eqn:V; [|apply bad_fine; exact F]. apply value_of_test in V. split; [exact V|constructor].
  - destruct (starts_attribute k); [split; auto|]. assert (Vk : value_kind t <> None) by (destruct F as (vk & F & _); congruence).
    destruct (match tk_type k with TT_TAG c => _ | _ => _ end) eqn:C; [|apply bad_fine; exact Vk]. apply (comment_test t k N) in C as (c & C & _). split; [split; [exact F|congruence]|constructor].
  - destruct F as [F1 F2]. destruct (accepts K_text_or_line (tk_type k)) eqn:A; [split; [split; auto|constructor]|]. apply bad_fine. destruct F1 as (vk & F1 & _). congruence.
  - destruct (starts_attribute k); [split; auto|]. apply bad_fine. destruct F as [(vk & F & _) _]. congruence.
  - destruct (starts_attribute k); [split; auto|]. destruct (unknown_accepts _); split; try exact I; constructor.
  - destruct (starts_attribute k); [split; auto|]. split; [exact I|constructor].
  - destruct (starts_attribute k); [split; auto|]. split; [exact F|constructor].
Qed.
Lemma events_good l : forall m, Forall (fun y => Normal (fst y)) l -> ModeFine m -> GoodEvents (events m l).
Proof.
  induction l as [|[k n] l IH]; intros m N F.
  - pose proof (done_good m F) as D. destruct m; cbn [events]; try exact D; constructor.
  - apply Forall_cons_iff in N as [N1 N2]. rewrite events_cons. destruct (next_fine m k n N1 F) as [A B]. apply Forall_app. split; [exact B|]. apply IH; auto.
Qed.
Lemma taken_fine x l gs b : Taken x l gs b -> Forall Normal l -> Forall Fine gs.
Proof.
  induction 1 as [x|x g l gs b G T IH|k l gs b Hk T IH|x t q C|x k l gs b Hk T IH|x v k l gs b Hv Hk T IH|x u k l gs b Hu Hk Ha T IH|x u v k l gs b Hu Ha Hk T IH|x t q l gs b Ht Q W C T IH];
    intro N; auto; rewrite Forall_forall in N; try (apply IH; apply Forall_forall; intros y Hy; apply N; cbn; auto; fail).
  - constructor; [|apply IH; apply Forall_forall; intros y Hy; apply N, in_or_app; auto]. split; [exact G|]. unfold tokens_of, fields in N. cbn [flat_map fst snd app] in N.
    split; [apply N; right; left; reflexivity|]. intros c Hc. destruct G as [_ G]. rewrite Hc in G, N. destruct (comment_tag (g_tag g)) as [ct|]; [|destruct G; contradiction].
    cbn [flat_map fst snd app] in N. apply N. cbn. auto 6.
  - apply IH. apply Forall_forall. intros y Hy. apply N. right. apply in_or_app. auto.
Qed.

(** ** The theorem *)
Section WithOracles.
Variable O : oracles.
Theorem text_says text d : tv_parse O text = Ok d <->
  exists gs broken, Taken true (tokens text) gs broken /\ (broken = true -> Unnoticed gs) /\ SaysDocument O gs d.
Proof.
  pose proof (tokens_normal text) as Nt. assert (N : Forall (fun y => Normal (fst y)) (tokenize text)).
  { apply Forall_forall. intros y Hy. rewrite Forall_forall in Nt. apply Nt. unfold tokens. apply in_map. exact Hy. }
  unfold tv_parse. rewrite run_events, events_result by (apply events_good; auto; exact I).
  assert (U : forall gn, existsb is_start gn = false <-> Unnoticed (groups_of gn)).
  { intro gn. unfold Unnoticed, groups_of. rewrite Forall_map, Forall_forall. split.
    - intros H y Hy K. assert (X : existsb is_start gn = true); [|congruence]. apply existsb_exists. exists y. split; auto. unfold is_start. rewrite start_list.
      destruct (is_in (g_tag (fst y)) start_tags) eqn:Z; [reflexivity|]. apply not_in_list in Z. contradiction.
    - intro H. destruct (existsb is_start gn) eqn:E; [|reflexivity]. apply existsb_exists in E as (y & Hy & K). unfold is_start in K. rewrite start_list in K.
      destruct (not_in_list (g_tag (fst y)) start_tags) as [_ X]. rewrite X in K; [discriminate|apply H; exact Hy]. }
  split.
  - intros (gn & b & S & Hb & H). assert (T : Taken true (tokens text) (groups_of gn) b) by (apply taken_iff; [exact N|]; exists gn; auto).
    exists (groups_of gn), b. split; [exact T|]. split; [intro K; apply U; auto|]. apply acts_say in H; auto.
    + unfold lines_of, groups_of. rewrite !map_length. reflexivity.
    + eapply taken_fine; eauto.
  - intros (gs & b & T & Hb & H). pose proof (taken_fine _ _ _ _ T Nt) as Ff. apply taken_iff in T as (gn & S & <-); [|exact N]. exists gn, b. split; [exact S|]. split; [intro K; apply U; auto|].
    apply acts_say; auto. unfold lines_of, groups_of. rewrite !map_length. reflexivity.
Qed.
Theorem taken_once text gs gs' b b' : Taken true (tokens text) gs b -> Taken true (tokens text) gs' b' -> gs = gs' /\ b = b'.
Proof.
  assert (N : Forall (fun y => Normal (fst y)) (tokenize text)).
  { pose proof (tokens_normal text) as Nt. apply Forall_forall. intros y Hy. rewrite Forall_forall in Nt. apply Nt. unfold tokens. apply in_map. exact Hy. }
  intros T T'. apply taken_iff in T as (gn & S & <-); auto. apply taken_iff in T' as (gn' & S' & <-); auto. rewrite S in S'. injection S' as -> ->. auto.
Qed.
Theorem file_says contents d : tv_parse_from_file O contents = Ok d <->
  exists gs broken, Taken true (tokens (universal_newlines contents)) gs broken /\ (broken = true -> Unnoticed gs) /\ SaysDocument O gs d.
Proof. apply text_says. Qed.
End WithOracles.
Theorem attributes_taken text gs : Attributes text gs -> Taken true (tokens text) gs false.
Proof.
  intros [L G]. unfold tokens. rewrite (lines_tokens _ _ L). clear L. generalize true as x. induction G as [|g gs Hg _ IH]; intro x; [constructor|].
  cbn [flat_map]. unfold tokens_of. rewrite flat_map_app. apply (Taken_attribute x g _ gs false Hg). apply IH.
Qed.

Lemma comment_kinds t : comment_tag t <> None <-> In t commented.
Proof. destruct t; cbn; split; intro H; try (destruct H; reflexivity); auto 6; try discriminate; repeat (destruct H as [H|H]; try discriminate H); destruct H. Qed.
Lemma texts_iff ty : accepts K_text_or_line ty = true <-> In ty texts.
Proof. destruct ty; cbn; split; intro H; try discriminate H; auto 8; repeat (destruct H as [H|H]; try discriminate H); destruct H. Qed.
Lemma takes_iff t k : ValueOf t k <-> In (tk_type k) (takes t).
Proof.
  rewrite <- value_of_test. generalize (tk_type k). intro ty. destruct t; cbn; destruct ty; cbn; split; intro H; try discriminate H; auto 8; repeat (destruct H as [H|H]; try discriminate H); destruct H.
Qed.
Theorem good_iff g : Good g <-> In (tk_type (g_val g)) (takes (g_tag g))
  /\ match g_com g with Some c => In (g_tag g) commented /\ In (tk_type c) texts | None => True end.
Proof.
  unfold Good. fold (ValueOf (g_tag g) (g_val g)). rewrite takes_iff. destruct (g_com g) as [c|]; [|reflexivity]. rewrite comment_kinds, texts_iff. reflexivity.
Qed.
