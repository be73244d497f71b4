(** Lines with an unknown tag: the message. *)
From Verif Require Import Py PyFacts PyRe Data Oracles Basics BasicsSpec ActorFacts Json Construct JsonConv JsonParse JsonSpec
  TvWriter TvLexer TvSpec TvTokSpec TvLexFacts TvLexValues TvParser TvParseFacts TvFieldFacts TvErrors TvRepeat TvReadSpec TvRead TvRead2 TvRead3 TvLines TvReport TvReportSpec TvReport2 TvReport3.

(** ** Lexer *)
Lemma lines_then text l : Lines text l -> forall rest, Calm rest -> Calm (text ++ rest).
Proof. intros H rest C. destruct (lines_reads _ _ H rest C) as [X _]. exact X. Qed.
Lemma lines_lex text l : Lines text l -> forall n rest, Calm rest ->
  exists ns, List.length ns = List.length l /\ lex 0 LInitial n (text ++ rest) = pairs l ns ++ lex 0 LInitial (n + count_lf text)%N rest.
Proof.
  induction 1 as [|s text l F H IH|t v k text l S H IH]; intros n rest C.
  - exists []. split; [reflexivity|]. change (count_lf []) with 0%N. rewrite N.add_0_r. reflexivity.
  - pose proof (lines_then _ _ H rest C) as C'. destruct (IH (n + count_lf s)%N rest C) as (ns & L & E). exists ns. split; [exact L|].
    rewrite count_app, N.add_assoc, <- E, <- app_assoc. destruct F as [->|(u & -> & Hu)].
    + apply lex_next. exact C'.
    + assert (X : forall w, ~ In LF w -> lex 0 LInitial n (#"#" :: w ++ LF :: text ++ rest) = lex 0 LInitial (n + 1)%N (text ++ rest)).
      { intros w Hw. rewrite (lex_step_line _ _ _ _ _ _ n (comment_step w (text ++ rest) Hw)) by discriminate. cbn [app skipn]. rewrite skipn_len_app, N.add_0_r. apply lex_next. exact C'. }
      assert (Y : count_lf ($"##" ++ u ++ [LF]) = 1%N) by (rewrite !count_app, (count_none u Hu); reflexivity).
      assert (Hu' : ~ In LF (#"#" :: u)) by (intros [K|K]; [discriminate|auto]).
      rewrite Y. rewrite <- !app_assoc. exact (X (#"#" :: u) Hu').
  - pose proof (lines_then _ _ H rest C) as C'. destruct (IH (n + count_lf v + 1)%N rest C) as (ns & L & E). exists (n :: ns). split; [cbn [List.length]; auto|].
    assert (T : (tag_name t ++ $": " ++ v ++ [LF] ++ text) ++ rest = tag_name t ++ $": " ++ v ++ LF :: (text ++ rest)) by (rewrite <- !app_assoc; reflexivity).
    assert (K : count_lf (tag_name t ++ $": " ++ v ++ [LF] ++ text) = (count_lf v + 1 + count_lf text)%N).
    { rewrite !count_app. rewrite (count_none (tag_name t)) by (apply has_char_false; destruct t; reflexivity). change (count_lf $": ") with 0%N. change (count_lf [LF]) with 1%N. lia. }
    rewrite K, T, lex_tag, (spelled_line v k S (text ++ rest) n C'), E.
    change (pairs ((t, k) :: l) (n :: ns)) with ((tag_tok t, n) :: (k, n) :: pairs l ns). cbn [app]. f_equal. f_equal. f_equal. f_equal. lia.
Qed.
Definition unknown_tok (x : pystr) : token := {| tk_type := TT_UNKNOWN_TAG; tk_value := x |}.
Lemma lex_unknown x u line : UnknownTag x -> lex 0 LInitial line (x ++ $": " ++ u) = (unknown_tok x, line) :: lex 0 LInitial line (colon (#" " :: u)).
Proof.
  intro U. pose proof (unknown_step x u U) as M. destruct (unknown_head x U) as (c & v & E & _).
  assert (M' : lex_step LInitial (x ++ $": " ++ u) = (Some (unknown_tok x), S (List.length v), LInitial, 0%N)) by (rewrite M, E; reflexivity).
  rewrite (lex_step_line _ _ _ _ _ _ line M') by (rewrite E; discriminate). cbn [app]. rewrite N.add_0_r. f_equal. f_equal.
  replace (S (List.length v)) with (List.length x) by (rewrite E; reflexivity). rewrite skipn_len_app. reflexivity.
Qed.

(** ** Parser *)
Section WithOracles.
Variable O : oracles.
Lemma run_unknown gs1 : forall m st ns x n rest, settled m -> Forall Good gs1 -> List.length ns = List.length (flat_map fields gs1) ->
  run O m st (pairs (flat_map fields gs1) ns ++ (unknown_tok x, n) :: rest) = (do st1 <- pending O m st; do st2 <- acts O gs1 (heads gs1 ns) st1; run O (M_Unknown n) st2 rest).
Proof.
  intros m st ns x n rest Hm Hg Hl.
  (* the parser enters an attribute in the same way, whatever its tag *)
  pose proof (run_before O gs1 m st ns (unknown_tok x) n rest Hm Hg Hl eq_refl) as X. exact X.
Qed.
Lemma run_unknown_value gs n st ns : Forall Good gs -> List.length ns = List.length (flat_map fields gs) ->
  run O (M_UnknownVal n) st (pairs (flat_map fields gs) ns) = run O M_Base (unknown_tag_action n st) (pairs (flat_map fields gs) ns).
Proof.
  intros Hg Hl. destruct gs as [|g gs]; [reflexivity|]. apply Forall_cons_iff in Hg as [[(vk & Hk & _) _] _].
  assert (X : exists n1 l, pairs (flat_map fields (g :: gs)) ns = (tag_tok (g_tag g), n1) :: l).
  { destruct ns as [|n1 ns]; [discriminate|]. exists n1. eexists. reflexivity. }
  destruct X as (n1 & l & ->). rewrite !run_cons. cbn [step]. unfold starts_attribute, enter, tag_tok. cbn [tk_type]. rewrite Hk. reflexivity.
Qed.
Lemma one_unknown one gs1 before x v k after gs2 d : Attributes before gs1 -> UnknownTag x -> Spelled v k -> Attributes after gs2 ->
  Attributes one (gs1 ++ gs2) -> tv_parse O one = Ok d ->
  tv_parse O (before ++ x ++ $": " ++ v ++ [LF] ++ after) =
  if unknown_accepts (tk_type k) then Raise (EParsing [$"Unknown tag provided in line " ++ line_after before]) else Ok d.
Proof.
  intros [A1 G1] U Sp [A2 G2] A3 P.
  destruct (attributes_run O _ _ A3) as (lines & Ll & R3). rewrite R3 in P. apply parse_effects in P as (stn & E & En); [|exact Ll].
  rewrite effects_app in E. destruct (effects O gs1 init_state) as [st|] eqn:E1; [|discriminate E].
  destruct (effects_sane O gs1 init_state st init_quiet ltac:(discriminate) E1) as [Q S].
  set (rest := x ++ $": " ++ v ++ [LF] ++ after).
  assert (C : Calm rest) by (apply calm_head; right; right; right; exists x; eexists; split; [exact U|reflexivity]).
  destruct (lines_lex _ _ A1 1%N rest C) as (ns1 & L1 & X1). unfold tv_parse, tokenize. rewrite X1. unfold rest. rewrite lex_unknown by exact U.
  pose proof (lines_calm _ _ A2) as C2. cbn [app]. rewrite (spelled_line v k Sp after _ C2).
  destruct (lines_lex _ _ A2 (1 + count_lf before + count_lf v + 1)%N [] (calm_head [] (or_introl eq_refl))) as (ns2 & L2 & X2). rewrite app_nil_r in X2. cbn [lex] in X2. rewrite app_nil_r in X2. rewrite X2.
  rewrite run_unknown by (auto; exact I). cbn [pending bind].
  apply (acts_effects O gs1 (heads gs1 ns1) init_state st (heads_length _ _) init_quiet) in E1 as [X _]. rewrite X. cbn [bind]. rewrite run_cons. cbn [step]. rewrite (spelled_value _ _ Sp).
  destruct (unknown_accepts (tk_type k)); cbn [bind].
  - rewrite run_unknown_value by auto. rewrite run_heads by (auto; exact I). cbn [pending bind].
    exact (after_noise O gs2 (heads gs2 ns2) st stn _ _ d (heads_length _ _) Q S E En (Noise_log st _)).
  - rewrite run_heads by (auto; exact I). cbn [pending bind]. destruct (effects_sane O gs2 st stn Q S E) as [Qn _].
    apply (acts_effects O gs2 (heads gs2 ns2) st stn (heads_length _ _) Q) in E as [Y _]. rewrite Y. cbn [bind]. apply finish_ending; auto.
Qed.
Lemma one_unknown_told one gs1 before x v k after gs2 d : Attributes before gs1 -> UnknownTag x -> Spelled v k -> Attributes after gs2 ->
  Attributes one (gs1 ++ gs2) -> tv_parse O one = Ok d -> ~ In (tk_type k) [TT_TOOL_VALUE; TT_ORGANIZATION_VALUE; TT_CHECKSUM] ->
  tv_parse O (before ++ x ++ $": " ++ v ++ [LF] ++ after) = Raise (EParsing [$"Unknown tag provided in line " ++ line_after before]).
Proof.
  intros A1 U Sp A2 A3 P H. rewrite (one_unknown one gs1 before x v k after gs2 d A1 U Sp A2 A3 P).
  destruct Sp; cbn [tk_type unknown_accepts] in *; try reflexivity; [destruct (ac_type a); cbn [actor_token] in *; try reflexivity | ]; exfalso; apply H; cbn; tauto.
Qed.
Lemma one_unknown_ignored one gs1 before x v k after gs2 d : Attributes before gs1 -> UnknownTag x -> Spelled v k -> Attributes after gs2 ->
  Attributes one (gs1 ++ gs2) -> tv_parse O one = Ok d -> In (tk_type k) [TT_TOOL_VALUE; TT_ORGANIZATION_VALUE; TT_CHECKSUM] ->
  tv_parse O (before ++ x ++ $": " ++ v ++ [LF] ++ after) = Ok d.
Proof.
  intros A1 U Sp A2 A3 P H. rewrite (one_unknown one gs1 before x v k after gs2 d A1 U Sp A2 A3 P).
  destruct H as [<-|[<-|[<-|[]]]]; reflexivity.
Qed.
End WithOracles.
