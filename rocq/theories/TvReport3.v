(** Values of a kind that the tag does not take: the message. *)
From Verif Require Import Py PyFacts PyRe Data Oracles Basics BasicsSpec ActorFacts Json Construct JsonConv JsonParse JsonSpec
  TvWriter TvLexer TvSpec TvTokSpec TvLexFacts TvLexValues TvParser TvParseFacts TvFieldFacts TvErrors TvRepeat TvReadSpec TvRead TvRead2 TvRead3 TvLines TvReport TvReportSpec TvReport2.

Lemma kinds_spec t k : In k (kinds_of_value t) <-> match value_kind t with Some vk => accepts vk k = true | None => k = TT_LINE end.
Proof. destruct t; cbn; destruct k; cbn; intuition discriminate. Qed.
Lemma spelled_value v k : Spelled v k -> starts_attribute k = false.
Proof. destruct 1; try reflexivity. unfold starts_attribute. cbn [tk_type]. destruct (ac_type a); reflexivity. Qed.
Section WithOracles.
Variable O : oracles.
(** attributes before a tag *)
Lemma pending_begin m st k n : settled m -> starts_attribute k = true -> step O m st k n = (do st1 <- pending O m st; Ok (enter k n, st1)).
Proof. intros Hs Hk. destruct m; try destruct Hs; cbn [step pending bind]; rewrite ?Hk; reflexivity. Qed.
Lemma run_before gs : forall m st ns b n rest, settled m -> Forall Good gs -> List.length ns = List.length (flat_map fields gs) -> starts_attribute b = true ->
  run O m st (pairs (flat_map fields gs) ns ++ (b, n) :: rest) = (do st1 <- pending O m st; do st2 <- acts O gs (heads gs ns) st1; run O (enter b n) st2 rest).
Proof.
  induction gs as [|g gs IH]; intros m st ns b n rest Hm Hg Hl Ht.
  - cbn [flat_map pairs combine app acts bind]. rewrite run_cons, (pending_begin m st b n Hm Ht). destruct (pending O m st); reflexivity.
  - apply Forall_cons_iff in Hg as [[(vk' & Hk & Hv) Hc] Hg']. cbn [flat_map] in *. rewrite app_length in Hl.
    assert (Ef : fields g = (g_tag g, g_val g) :: match g_com g, comment_tag (g_tag g) with Some c, Some t => [(t, c)] | _, _ => [] end) by reflexivity.
    destruct ns as [|n1 ns]; [rewrite Ef in Hl; discriminate|]. cbn [heads hd acts].
    destruct (g_com g) as [c|] eqn:Ec.
    + destruct Hc as [Hc1 Hc2]. destruct (comment_tag (g_tag g)) as [t'|] eqn:Et; [|congruence]. rewrite Ef in *. cbn [List.length skipn app] in *.
      destruct ns as [|n2 ns]; [discriminate|]. cbn [skipn]. unfold pairs. cbn [combine flat_map fst snd app]. fold (pairs (flat_map fields gs) ns).
      rewrite run_cons, (pending_step O m st (g_tag g) vk' n1 Hm Hk).
      assert (Hs : forall st1 l, run O (M_Tag (g_tag g) n1) st1 ((g_val g, n1) :: (tag_tok t', n2) :: (c, n2) :: l) = run O (M_Comment (g_tag g) n1 (g_val g) c) st1 l).
      { intros st1 l. cbn [run step]. rewrite Hk, Hv. cbn [bind]. cbn [run step]. unfold starts_attribute, tag_tok. cbn [tk_type].
        assert (Kt : value_kind t' = None) by (destruct (g_tag g); try discriminate Et; cbn in Et; injection Et as <-; reflexivity).
        rewrite Kt, Et, tag_eqb_refl. cbn [bind run step]. rewrite Hc2. reflexivity. }
      destruct (pending O m st) as [st1|e]; [|reflexivity]. cbn [bind]. rewrite Hs, (IH _ _ _ b); [|exact I|assumption|cbn [List.length Nat.add] in Hl; congruence|exact Ht].
      cbn [pending]. destruct (act O (g_tag g) n1 (g_val g) (Some c) st1); reflexivity.
    + rewrite Ef in *. cbn [List.length skipn app] in *. unfold pairs. cbn [combine flat_map fst snd app]. fold (pairs (flat_map fields gs) ns).
      rewrite run_cons, (pending_step O m st (g_tag g) vk' n1 Hm Hk).
      assert (Hs : forall st1 l, run O (M_Tag (g_tag g) n1) st1 ((g_val g, n1) :: l) = run O (M_Val (g_tag g) n1 (g_val g)) st1 l).
      { intros st1 l. cbn [run step]. rewrite Hk, Hv. reflexivity. }
      destruct (pending O m st) as [st1|e]; [|reflexivity]. cbn [bind]. rewrite Hs, (IH _ _ _ b); [|exact I|assumption|cbn [List.length Nat.add] in Hl; congruence|exact Ht].
      cbn [pending]. destruct (act O (g_tag g) n1 (g_val g) None st1); reflexivity.
Qed.
Lemma run_error gs t n st ns : Forall Good gs -> List.length ns = List.length (flat_map fields gs) ->
  run O (M_Error t n) st (pairs (flat_map fields gs) ns) = (do st1 <- error_action t n st; run O M_Base st1 (pairs (flat_map fields gs) ns)).
Proof.
  intros Hg Hl. destruct gs as [|g gs].
  - cbn [flat_map pairs combine run at_end]. destruct (error_action t n st); reflexivity.
  - apply Forall_cons_iff in Hg as [[(vk & Hk & _) _] _].
    assert (X : exists n1 l, pairs (flat_map fields (g :: gs)) ns = (tag_tok (g_tag g), n1) :: l).
    { destruct ns as [|n1 ns]; [discriminate|]. exists n1. eexists. reflexivity. }
    destruct X as (n1 & l & ->). rewrite run_cons. cbn [step]. unfold starts_attribute, enter, tag_tok. cbn [tk_type]. rewrite Hk.
    destruct (error_action t n st) as [st1|e]; [|reflexivity]. cbn [bind]. rewrite run_cons. cbn [step bind]. unfold enter. cbn [tk_type]. rewrite Hk. reflexivity.
Qed.
(** the run of a text with a value that does not fit *)
Lemma unfit_run before after gs1 t k vk gs2 : Attributes before gs1 -> Lines (tag_name t ++ after) ((t, k) :: flat_map fields gs2) -> Forall Good gs2 ->
  value_kind t = Some vk -> accepts vk (tk_type k) = false ->
  exists l1 l2, List.length l1 = List.length gs1 /\ List.length l2 = List.length gs2
  /\ tv_parse O (before ++ tag_name t ++ after) =
     (do st <- acts O gs1 l1 init_state; do st' <- (if has_error_rule t then error_action t (1 + count_lf before)%N st else Ok st); do s <- acts O gs2 l2 st'; finish s).
Proof.
  intros [H1 G1] H2 G2 Hk Ha. destruct (lines_at _ _ H2 (1 + count_lf before)%N) as (ns2 & A2).
  destruct (at_first _ _ _ _ _ A2) as (ns' & ->); [discriminate|]. destruct (at_app _ _ H1 1%N _ _ _ A2) as (ns1 & L1 & A).
  pose proof (at_lines _ _ _ _ A2) as [_ La]. cbn [List.length] in La. injection La as La.
  exists (heads gs1 ns1), (heads gs2 ns'). split; [apply heads_length|]. split; [apply heads_length|].
  unfold tv_parse, tokenize. rewrite (at_tokens _ _ _ _ A).
  assert (E : pairs (flat_map fields gs1 ++ (t, k) :: flat_map fields gs2) (ns1 ++ (1 + count_lf before)%N :: ns')
              = pairs (flat_map fields gs1) ns1 ++ (tag_tok t, (1 + count_lf before)%N) :: (k, (1 + count_lf before)%N) :: pairs (flat_map fields gs2) ns').
  { clear - L1. unfold pairs. revert ns1 L1. induction (flat_map fields gs1) as [|x l IH]; intros [|n ns1] L1; try discriminate; [reflexivity|]. cbn [app combine flat_map fst snd]. f_equal. f_equal. apply IH. injection L1 as L1. exact L1. }
  assert (Hb : starts_attribute (tag_tok t) = true) by (unfold starts_attribute, tag_tok; cbn [tk_type]; rewrite Hk; reflexivity).
  assert (He : forall n, enter (tag_tok t) n = M_Tag t n) by (intro; unfold enter, tag_tok; cbn [tk_type]; rewrite Hk; reflexivity).
  rewrite E, (run_before gs1 M_Base init_state ns1 (tag_tok t)), He by (auto; exact I). cbn [pending bind].
  destruct (acts O gs1 (heads gs1 ns1) init_state) as [st|e]; [|reflexivity]. cbn [bind]. rewrite run_cons. cbn [step]. rewrite Hk, Ha. unfold recover.
  destruct (lines_spelled _ _ _ _ H2) as (v & Sp). rewrite (spelled_value _ _ Sp). destruct (has_error_rule t).
  - cbn [bind]. rewrite run_error by auto. destruct (error_action t _ st) as [st'|e]; [|reflexivity]. cbn [bind]. rewrite run_heads by (auto; exact I). reflexivity.
  - cbn [bind]. rewrite run_heads by (auto; exact I). reflexivity.
Qed.
Lemma one_unfit one gs1 before after t k gs2 d : Attributes before gs1 -> Lines (tag_name t ++ after) ((t, k) :: flat_map fields gs2) -> Forall Good gs2 ->
  Attributes one (gs1 ++ gs2) -> tv_parse O one = Ok d -> ~ In t following_tags -> ~ In (tk_type k) (kinds_of_value t) ->
  (In t header_tags -> tv_parse O (before ++ tag_name t ++ after) = Raise (EParsing [$"Error while parsing CreationInfo: " ++ show_list [mismatch t (line_after before)]]))
  /\ (forall s, ~ In t header_tags -> ~ In t start_tags -> t <> T_SPDXID -> opened gs1 = Some s ->
        tv_parse O (before ++ tag_name t ++ after) = Raise (EParsing [$"Error while parsing " ++ element_name s ++ $": " ++ show_list [mismatch t (line_after before)]]))
  /\ (t = T_SPDXID -> tv_parse O (before ++ tag_name t ++ after) = Ok d).
Proof.
  intros A1 A2 G2 A3 P Hf Hn. destruct (value_kind t) as [vk|] eqn:Hk; [|destruct t; try discriminate Hk; destruct Hf; cbn; auto].
  assert (Ha : accepts vk (tk_type k) = false). { destruct (accepts vk (tk_type k)) eqn:E; [|reflexivity]. destruct Hn. apply kinds_spec. rewrite Hk. exact E. }
  destruct (unfit_run before after gs1 t k vk gs2 A1 A2 G2 Hk Ha) as (l1 & l2 & L1 & L2 & R).
  destruct (attributes_run O _ _ A3) as (lines & Ll & R3). rewrite R3 in P. apply parse_effects in P as (stn & E & En); [|exact Ll].
  rewrite effects_app in E. destruct (effects O gs1 init_state) as [st|] eqn:E1; [|discriminate E].
  destruct (effects_sane O gs1 init_state st init_quiet ltac:(discriminate) E1) as [Q S]. pose proof (opened_class O gs1 st E1) as C.
  apply (acts_effects O gs1 l1 init_state st L1 init_quiet) in E1 as [X _]. rewrite R, X. cbn [bind].
  split; [|split].
  - intro Hh. assert (Y : has_error_rule t = true /\ is_creation_info_tag t = true) by (destruct t; cbn in Hh; repeat (destruct Hh as [Hh|Hh]; [discriminate Hh || (split; reflexivity)|]); destruct Hh).
    destruct Y as [-> Y]. unfold error_action. rewrite Y. cbn [bind]. exact (after_noise O gs2 l2 st stn _ _ d L2 Q S E En (Noise_info st _)).
  - intros s Hh Hs Hi Op. assert (Y : has_error_rule t = true /\ is_creation_info_tag t = false /\ is_start_tag t = false).
    { destruct t; try congruence; try (repeat split; reflexivity); exfalso; first [apply Hh; cbn; tauto|apply Hs; cbn; tauto]. }
    destruct Y as (-> & Y1 & Y2). unfold error_action. rewrite Y1, Y2. cbn [bind]. rewrite Op in C. pose proof (opened_start _ _ Op) as St.
    assert (Z : exists c, start_class s = Some c /\ told c [mismatch t (line_after before)] = $"Error while parsing " ++ element_name s ++ $": " ++ show_list [mismatch t (line_after before)]).
    { destruct s; try discriminate St; eexists; split; reflexivity. }
    destruct Z as (c & Z1 & Z2). rewrite <- Z2. rewrite Z1 in C. exact (after_noise O gs2 l2 st stn _ _ d L2 Q S E En (Noise_cur st c _ C)).
  - intros ->. cbn [has_error_rule bind]. destruct (effects_sane O gs2 st stn Q S E) as [Qn _]. apply (acts_effects O gs2 l2 st stn L2 Q) in E as [X2 _]. rewrite X2. cbn [bind]. apply finish_ending; auto.
Qed.
Lemma one_unfit_header one gs1 before after t k gs2 d : Attributes before gs1 -> Lines (tag_name t ++ after) ((t, k) :: flat_map fields gs2) -> Forall Good gs2 ->
  Attributes one (gs1 ++ gs2) -> tv_parse O one = Ok d -> In t header_tags -> ~ In (tk_type k) (kinds_of_value t) ->
  tv_parse O (before ++ tag_name t ++ after) = Raise (EParsing [$"Error while parsing CreationInfo: " ++ show_list [mismatch t (line_after before)]]).
Proof.
  intros A1 A2 G2 A3 P Ht Hn. assert (Hf : ~ In t following_tags).
  { cbn. intros [K|[K|[]]]; subst t; cbn in Ht; repeat (destruct Ht as [Ht|Ht]; [discriminate Ht|]); destruct Ht. }
  apply (one_unfit one gs1 before after t k gs2 d); auto.
Qed.
Lemma one_unfit_inside one gs1 before after t k gs2 d s : Attributes before gs1 -> Lines (tag_name t ++ after) ((t, k) :: flat_map fields gs2) -> Forall Good gs2 ->
  Attributes one (gs1 ++ gs2) -> tv_parse O one = Ok d -> ~ In t (header_tags ++ start_tags ++ following_tags ++ [T_SPDXID]) -> ~ In (tk_type k) (kinds_of_value t) -> opened gs1 = Some s ->
  tv_parse O (before ++ tag_name t ++ after) = Raise (EParsing [$"Error while parsing " ++ element_name s ++ $": " ++ show_list [mismatch t (line_after before)]]).
Proof.
  intros A1 A2 G2 A3 P Ht Hn Op. rewrite !in_app_iff in Ht. assert (Hi : t <> T_SPDXID) by (intros ->; apply Ht; do 3 right; left; reflexivity).
  destruct (one_unfit one gs1 before after t k gs2 d) as (_ & X & _); try assumption; [tauto|]. apply X; try assumption; tauto.
Qed.
Lemma one_unfit_id one gs1 before after k gs2 d : Attributes before gs1 -> Lines (tag_name T_SPDXID ++ after) ((T_SPDXID, k) :: flat_map fields gs2) -> Forall Good gs2 ->
  Attributes one (gs1 ++ gs2) -> tv_parse O one = Ok d -> tk_type k <> TT_LINE -> tv_parse O (before ++ tag_name T_SPDXID ++ after) = Ok d.
Proof.
  intros A1 A2 G2 A3 P Hn. apply (one_unfit one gs1 before after T_SPDXID k gs2 d); auto.
  - cbn. intros [K|[K|[]]]; discriminate K.
  - cbn. intros [K|[]]. congruence.
Qed.
End WithOracles.
