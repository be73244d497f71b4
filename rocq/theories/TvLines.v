(** Line numbers of the tokens of a tag-value text. *)
From Verif Require Import Py PyFacts PyRe PyReFacts Data Oracles Basics BasicsSpec BasicsFacts Json Construct JsonConv JsonParse JsonSpec
  TvWriter TvLexer TvSpec TvTokSpec TvLexFacts TvLexValues TvParser TvParseFacts TvFieldFacts TvElemFacts TvErrors.

(** ** Counting *)
Lemma count_app a b : count_lf (a ++ b) = (count_lf a + count_lf b)%N.
Proof. unfold count_lf. rewrite filter_app, app_length, Nat2N.inj_add. reflexivity. Qed.
Lemma count_none s : ~ In LF s -> count_lf s = 0%N.
Proof.
  intro H. unfold count_lf. replace (filter (N.eqb LF) s) with (@nil char); [reflexivity|]. symmetry.
  induction s as [|c s IH]; auto. cbn [filter]. destruct (N.eqb_spec LF c); [subst; destruct H; left; reflexivity|]. apply IH. intro K. apply H. right. exact K.
Qed.
Lemma count_LF s : count_lf (LF :: s) = (1 + count_lf s)%N.
Proof. unfold count_lf. cbn [filter]. rewrite N.eqb_refl. cbn [List.length]. lia. Qed.
Lemma count_repeat n : count_lf (repeat LF n) = N.of_nat n.
Proof. induction n; auto. cbn [repeat]. rewrite count_LF, IHn. lia. Qed.

(** ** Steps *)
Lemma lex_step_line m s t n m' dl line : lex_step m s = (t, S n, m', dl) -> s <> [] ->
  lex 0 m line s = match t with Some k => [(k, line)] | None => [] end ++ lex 0 m' (line + dl)%N (skipn (S n) s).
Proof.
  intros H Hs. destruct s as [|c s]; [congruence|]. cbn [lex]. rewrite H. cbn [Nat.sub skipn]. rewrite Nat.sub_0_r, lex_skip. destruct t; reflexivity.
Qed.
Lemma lex_LF n w line : (forall c u, w = c :: u -> c <> LF) -> lex 0 LInitial line (repeat LF n ++ w) = lex 0 LInitial (line + N.of_nat n)%N w.
Proof.
  intro H. destruct n as [|n]; [cbn [repeat app N.of_nat]; rewrite N.add_0_r; reflexivity|].
  rewrite (lex_step_line _ _ _ _ _ _ line (LF_step n w H)) by discriminate. cbn [app].
  rewrite skipn_app, skipn_all2, repeat_length, Nat.sub_diag by (rewrite repeat_length; auto). reflexivity.
Qed.
Lemma lex_calm s line : Calm s -> lex 0 LInitial line s = lex 0 LInitial (line + count_lf (takewhile is_space s))%N (lstrip s).
Proof.
  intros (n & w & -> & H). rewrite lstrip_repeat, (lstrip_id w) by (exact (head_not_space w H)).
  assert (T : takewhile is_space (repeat LF n ++ w) = repeat LF n).
  { induction n as [|n IH]; [|cbn [repeat app takewhile]; change (is_space LF) with true; cbv iota; rewrite IH; reflexivity].
    cbn [repeat app]. destruct w as [|c u]; [reflexivity|]. cbn [takewhile]. rewrite (head_not_space _ H c u eq_refl). reflexivity. }
  rewrite T, count_repeat. apply lex_LF. exact (head_not_LF w H).
Qed.
Lemma lex_next s line : Calm s -> lex 0 LInitial line (LF :: s) = lex 0 LInitial (line + 1)%N s.
Proof.
  intro C. rewrite (lex_calm (LF :: s)) by (apply calm_LF; exact C). rewrite (lex_calm s) by exact C.
  cbn [takewhile]. change (is_space LF) with true. cbv iota. rewrite count_LF, N.add_assoc. reflexivity.
Qed.

(** ** Values *)
Definition ValLine (v : pystr) (k : token) : Prop :=
  forall s line, Calm s -> lex 0 LInitial line (colon (#" " :: v ++ LF :: s)) = (k, line) :: lex 0 LInitial (line + count_lf v + 1)%N s.
Lemma step_line v k : ValStep v k -> ValLine v k.
Proof.
  intros [N H] s line C. rewrite (lex_step_line _ _ _ _ _ _ line (H s C)) by discriminate. cbn [app]. f_equal. unfold colon. cbn [skipn].
  rewrite skipn_len_app, lex_next by exact C. rewrite (count_none v N), N.add_0_r. reflexivity.
Qed.
Lemma text_line v : forall read r line, contains $"</text>" v = false ->
  lex 0 (LText read) line (v ++ $"</text>" ++ r) =
  ({| tk_type := TT_TEXT; tk_value := strip (read ++ v ++ $"</text>" ++ takewhile is_space r) |}, line)
  :: lex 0 LInitial (line + count_lf (read ++ v ++ $"</text>" ++ takewhile is_space r))%N (lstrip r).
Proof.
  induction v as [|c v IH]; intros read r line H.
  - cbn [app]. pose proof (text_end_yes r) as M.
    rewrite (lex_step_line _ _ (Some {| tk_type := TT_TEXT; tk_value := strip (read ++ $"</text>" ++ takewhile is_space r) |})
               (6 + List.length (takewhile is_space r)) LInitial (count_lf (read ++ $"</text>" ++ takewhile is_space r))).
    + cbn [app]. f_equal. f_equal. cbn [Nat.add skipn].
      assert (K : forall x, skipn (List.length (takewhile is_space x)) x = lstrip x).
      { clear. intro x. unfold lstrip. rewrite (takewhile_dropwhile is_space x) at 2. apply skipn_len_app. }
      apply K.
    + cbn [lex_step]. unfold text_step. rewrite M. reflexivity.
    + discriminate.
  - cbn [contains] in H. apply orb_false_iff in H as [H1 H2]. cbn [app].
    rewrite (lex_step_line _ _ None 0 (LText (read ++ [c])) 0%N).
    + cbn [app skipn]. rewrite IH by exact H2. rewrite <- app_assoc, N.add_0_r. reflexivity.
    + cbn [lex_step]. unfold text_step. rewrite text_end_no by (rewrite end_later; exact H1). reflexivity.
    + discriminate.
Qed.
Lemma ValLine_text v : contains $"</text>" v = false ->
  ValLine ($"<text>" ++ v ++ $"</text>") {| tk_type := TT_TEXT; tk_value := $"<text>" ++ v ++ $"</text>" |}.
Proof.
  intros H s line C. rewrite <- !app_assoc.
  assert (E : re_match_rest text_re (colon (#" " :: $"<text>" ++ v ++ $"</text>" ++ LF :: s)) = Some (v ++ $"</text>" ++ LF :: s, [])).
  { rewrite text_re_eq. assert (L : lstrip (#" " :: $"<text>" ++ v ++ $"</text>" ++ LF :: s) = $"<text>" ++ v ++ $"</text>" ++ LF :: s) by reflexivity.
    rewrite L, startswith_app. reflexivity. }
  assert (M : matched text_re (colon (#" " :: $"<text>" ++ v ++ $"</text>" ++ LF :: s)) = Some (colon (#" " :: $"<text>"))).
  { eapply matched_some; [exact E|]. reflexivity. }
  rewrite (lex_step_line _ _ None 7 (LText $"<text>") 0%N).
  - cbn [app]. unfold colon. change (skipn 8 (#":" :: #" " :: $"<text>" ++ v ++ $"</text>" ++ LF :: s)) with (v ++ $"</text>" ++ LF :: s).
    rewrite text_line by exact H. rewrite N.add_0_r. f_equal.
    + f_equal. f_equal. rewrite (app_assoc v), (app_assoc $"<text>"). apply strip_trailing.
      * apply text_stripped.
      * apply takewhile_all.
      * discriminate.
    + rewrite (lex_calm s) by exact C. change (lstrip (LF :: s)) with (lstrip s). f_equal. rewrite !count_app. cbn [takewhile]. change (is_space LF) with true. cbv iota.
      rewrite count_LF. lia.
  - cbn [lex_step]. unfold initial_rules. cbn [first_rule]. rewrite M. reflexivity.
  - discriminate.
Qed.
Lemma spelled_line v k : Spelled v k -> ValLine v k.
Proof.
  destruct 1 as [v H|v H| | |a H|d v H E|c v H E].
  - apply step_line, ValStep_line. exact H.
  - apply ValLine_text. exact H.
  - apply step_line, ValStep_noassertion.
  - apply step_line, ValStep_none.
  - apply step_line, ValStep_actor. exact H.
  - apply step_line. eapply ValStep_date; eauto.
  - assert (Ev : v = sum_text c).
    { unfold write_checksum_to_tag_value in E. unfold sum_text. destruct c as [[] h]; cbn in E; injection E as <-; reflexivity. }
    subst v. apply step_line, ValStep_checksum; [apply tv_alg_known|exact H].
Qed.

(** ** Lines with their numbers *)
Inductive At : N -> pystr -> list (tag * token) -> list N -> Prop :=
| At_nil n : At n [] [] []
| At_filler n s text l ns : Filler s -> At (n + count_lf s)%N text l ns -> At n (s ++ text) l ns
| At_field n t v k text l ns : Spelled v k -> At (n + count_lf v + 1)%N text l ns -> At n (tag_name t ++ $": " ++ v ++ [LF] ++ text) ((t, k) :: l) (n :: ns).
Lemma at_lines n text l ns : At n text l ns -> Lines text l /\ List.length ns = List.length l.
Proof.
  induction 1 as [n|n s text l ns F _ [IH1 IH2]|n t v k text l ns H _ [IH1 IH2]].
  - split; [constructor|reflexivity].
  - split; [constructor; auto|exact IH2].
  - split; [apply Lines_field; auto|cbn [List.length]; auto].
Qed.
Lemma lines_at text l : Lines text l -> forall n, exists ns, At n text l ns.
Proof.
  induction 1 as [|s text l F _ IH|t v k text l H _ IH]; intro n.
  - exists []. constructor.
  - destruct (IH (n + count_lf s)%N) as (ns & A). exists ns. constructor; auto.
  - destruct (IH (n + count_lf v + 1)%N) as (ns & A). exists (n :: ns). apply At_field; auto.
Qed.
Lemma at_app text l : Lines text l -> forall n text' l' ns', At (n + count_lf text)%N text' l' ns' ->
  exists ns, List.length ns = List.length l /\ At n (text ++ text') (l ++ l') (ns ++ ns').
Proof.
  induction 1 as [|s text l F _ IH|t v k text l H _ IH]; intros n text' l' ns' A.
  - exists []. cbn [app]. split; auto. change (count_lf []) with 0%N in A. rewrite N.add_0_r in A. exact A.
  - rewrite count_app, N.add_assoc in A. destruct (IH _ _ _ _ A) as (ns & L & B). exists ns. split; auto. rewrite <- app_assoc. constructor; auto.
  - assert (E : (n + count_lf (tag_name t ++ $": " ++ v ++ [LF] ++ text) = n + count_lf v + 1 + count_lf text)%N).
    { rewrite !count_app. rewrite (count_none (tag_name t)) by (apply has_char_false; destruct t; reflexivity).
      change (count_lf $": ") with 0%N. change (count_lf [LF]) with 1%N. lia. }
    rewrite E in A. destruct (IH _ _ _ _ A) as (ns & L & B). exists (n :: ns). split; [cbn [List.length]; auto|].
    assert (T : (tag_name t ++ $": " ++ v ++ [LF] ++ text) ++ text' = tag_name t ++ $": " ++ v ++ [LF] ++ (text ++ text')) by (rewrite <- !app_assoc; reflexivity).
    rewrite T. apply At_field; auto.
Qed.
Lemma at_first n t rest l ns : At n (tag_name t ++ rest) l ns -> l <> [] -> exists ns', ns = n :: ns'.
Proof.
  remember (tag_name t ++ rest) as w eqn:E. intros A Hl. destruct A as [n|n s text l ns F A|n t' v k text l ns H A].
  - congruence.
  - exfalso. destruct (tag_name_head t) as (c & u & K & Ha & _ & Hc). rewrite K in E. destruct F as [->|(w & -> & _)]; injection E as E _; subst c; [congruence|discriminate].
  - eexists. reflexivity.
Qed.

(** ** Their tokens *)
Definition pairs (l : list (tag * token)) (ns : list N) : list (token * N) :=
  flat_map (fun x => [(tag_tok (fst (fst x)), snd x); (snd (fst x), snd x)]) (combine l ns).
Lemma lex_tag t u line : lex 0 LInitial line (tag_name t ++ $": " ++ u) = (tag_tok t, line) :: lex 0 LInitial line (colon (#" " :: u)).
Proof.
  pose proof (tag_step t u) as M. destruct (tag_name_head t) as (c & v & E & _).
  assert (M' : lex_step LInitial (tag_name t ++ $": " ++ u) = (Some (tag_tok t), S (List.length v), LInitial, 0%N)) by (rewrite M; unfold tag_tok; rewrite E; reflexivity).
  rewrite (lex_step_line _ _ _ _ _ _ line M') by (rewrite E; discriminate). cbn [app]. rewrite N.add_0_r. f_equal. f_equal.
  replace (S (List.length v)) with (List.length (tag_name t)) by (rewrite E; reflexivity). rewrite skipn_len_app. reflexivity.
Qed.
Lemma at_tokens n text l ns : At n text l ns -> lex 0 LInitial n text = pairs l ns.
Proof.
  induction 1 as [n|n s text l ns F A IH|n t v k text l ns H A IH].
  - reflexivity.
  - rewrite <- IH. apply at_lines in A as [A _]. apply lines_calm in A. destruct F as [->|(u & -> & Hu)].
    + cbn [app]. apply lex_next. exact A.
    + assert (Hu' : ~ In LF (#"#" :: u)) by (intros [K|K]; [discriminate|auto]).
      assert (X : forall w, ~ In LF w -> lex 0 LInitial n (#"#" :: w ++ LF :: text) = lex 0 LInitial (n + 1)%N text).
      { intros w Hw. rewrite (lex_step_line _ _ _ _ _ _ n (comment_step w text Hw)) by discriminate. cbn [app skipn]. rewrite skipn_len_app, N.add_0_r. apply lex_next. exact A. }
      assert (Y : count_lf ($"##" ++ u ++ [LF]) = 1%N).
      { rewrite !count_app, (count_none u Hu). reflexivity. }
      rewrite Y. rewrite <- !app_assoc. exact (X (#"#" :: u) Hu').
  - rewrite lex_tag. change (#" " :: v ++ [LF] ++ text) with (#" " :: v ++ LF :: text).
    apply at_lines in A as [A _]. apply lines_calm in A. rewrite (spelled_line v k H text n A), IH. reflexivity.
Qed.

(** ** Running well-formed attributes *)
Fixpoint heads (gs : list grp) (ns : list N) : list N :=
  match gs with [] => [] | g :: gs' => hd 0%N ns :: heads gs' (skipn (List.length (fields g)) ns) end.
Lemma heads_length gs : forall ns, List.length (heads gs ns) = List.length gs.
Proof. induction gs; intro ns; cbn [heads List.length]; auto. Qed.
Lemma heads_app a b : forall na nb, List.length na = List.length (flat_map fields a) -> heads (a ++ b) (na ++ nb) = heads a na ++ heads b nb.
Proof.
  induction a as [|g a IH]; intros na nb L; cbn [app heads flat_map] in *; [destruct na; [reflexivity|discriminate]|].
  rewrite app_length in L. destruct na as [|n na]; [discriminate|].
  rewrite skipn_app. replace (List.length (fields g) - List.length (n :: na)) with 0 by lia. cbn [hd app]. change (skipn 0 nb) with nb. f_equal. apply IH.
  rewrite skipn_length. lia.
Qed.
Section WithOracles.
Variable O : oracles.
Lemma run_heads gs : forall m st ns, settled m -> Forall Good gs -> List.length ns = List.length (flat_map fields gs) ->
  run O m st (pairs (flat_map fields gs) ns) = (do st1 <- pending O m st; acts O gs (heads gs ns) st1).
Proof.
  induction gs as [|g gs IH]; intros m st ns Hm Hg Hl.
  - cbn [flat_map pairs combine run acts]. rewrite pending_end by exact Hm. destruct (pending O m st); reflexivity.
  - apply Forall_cons_iff in Hg as [[(vk & Hk & Hv) Hc] Hg']. cbn [flat_map] in *. rewrite app_length in Hl.
    assert (Ef : fields g = (g_tag g, g_val g) :: match g_com g, comment_tag (g_tag g) with Some c, Some t => [(t, c)] | _, _ => [] end) by reflexivity.
    destruct ns as [|n1 ns]; [rewrite Ef in Hl; discriminate|]. cbn [heads hd acts].
    destruct (g_com g) as [c|] eqn:Ec.
    + destruct Hc as [Hc1 Hc2]. destruct (comment_tag (g_tag g)) as [t'|] eqn:Et; [|congruence]. rewrite Ef in *. cbn [List.length skipn app] in *.
      destruct ns as [|n2 ns]; [discriminate|]. cbn [skipn]. unfold pairs. cbn [combine flat_map fst snd app]. fold (pairs (flat_map fields gs) ns).
      rewrite run_cons, (pending_step O m st (g_tag g) vk n1 Hm Hk).
      assert (Hs : forall st1, run O (M_Tag (g_tag g) n1) st1 ((g_val g, n1) :: (tag_tok t', n2) :: (c, n2) :: pairs (flat_map fields gs) ns) = run O (M_Comment (g_tag g) n1 (g_val g) c) st1 (pairs (flat_map fields gs) ns)).
      { intro st1. cbn [run step]. rewrite Hk, Hv. cbn [bind]. cbn [run step]. unfold starts_attribute, tag_tok. cbn [tk_type].
        assert (Kt : value_kind t' = None) by (destruct (g_tag g); try discriminate Et; cbn in Et; injection Et as <-; reflexivity).
        rewrite Kt, Et, tag_eqb_refl. cbn [bind run step]. rewrite Hc2. reflexivity. }
      destruct (pending O m st) as [st1|e]; [|reflexivity]. cbn [bind]. rewrite Hs, IH; [reflexivity|exact I|assumption|]; cbn [List.length Nat.add] in Hl; congruence.
    + rewrite Ef in *. cbn [List.length skipn app] in *. unfold pairs. cbn [combine flat_map fst snd app]. fold (pairs (flat_map fields gs) ns).
      rewrite run_cons, (pending_step O m st (g_tag g) vk n1 Hm Hk).
      assert (Hs : forall st1, run O (M_Tag (g_tag g) n1) st1 ((g_val g, n1) :: pairs (flat_map fields gs) ns) = run O (M_Val (g_tag g) n1 (g_val g)) st1 (pairs (flat_map fields gs) ns)).
      { intro st1. cbn [run step]. rewrite Hk, Hv. reflexivity. }
      destruct (pending O m st) as [st1|e]; [|reflexivity]. cbn [bind]. rewrite Hs, IH; [reflexivity|exact I|assumption|]; cbn [List.length Nat.add] in Hl; congruence.
Qed.
(** an attribute that begins after the text [before] has the number of that line *)
Lemma numbered_run before after gs1 g gs2 : Attributes before gs1 -> Attributes (tag_name (g_tag g) ++ after) (g :: gs2) ->
  exists l1 l2, List.length l1 = List.length gs1 /\ List.length l2 = List.length gs2
  /\ tv_parse O (before ++ tag_name (g_tag g) ++ after) = (do st <- acts O (gs1 ++ g :: gs2) (l1 ++ (1 + count_lf before)%N :: l2) init_state; finish st).
Proof.
  intros [H1 G1] [H2 G2]. destruct (lines_at _ _ H2 (1 + count_lf before)%N) as (ns2 & A2).
  destruct (at_first _ _ _ _ _ A2) as (ns' & ->); [discriminate|]. destruct (at_app _ _ H1 1%N _ _ _ A2) as (ns1 & L1 & A).
  exists (heads gs1 ns1), (heads gs2 (skipn (List.length (fields g)) ((1 + count_lf before)%N :: ns'))). split; [apply heads_length|]. split; [apply heads_length|].
  unfold tv_parse, tokenize. rewrite (at_tokens _ _ _ _ A). rewrite <- flat_map_app. rewrite run_heads.
  - cbn [pending bind]. rewrite heads_app by exact L1. reflexivity.
  - exact I.
  - apply Forall_app. auto.
  - rewrite flat_map_app. apply at_lines in A as [_ A]. exact A.
Qed.
End WithOracles.
