(** Tokens of tag-value files; repeated tags. *)
From Verif Require Import Py PyFacts PyRe PyReFacts Data Oracles Basics BasicsSpec BasicsFacts Json Construct JsonConv JsonParse JsonSpec
  TvWriter TvLexer TvSpec TvTokSpec TvLexFacts TvLexValues TvParser TvParseFacts TvFieldFacts TvElemFacts.

(** ** Tokens *)
Lemma spelled_tok v k : Spelled v k -> ValTok v k.
Proof.
  destruct 1 as [v H|v H| | |a H|d v H E|c v H E].
  - apply ValTok_line. exact H.
  - apply ValTok_text. exact H.
  - apply ValTok_noassertion.
  - apply ValTok_none.
  - apply ValTok_actor. exact H.
  - eapply ValTok_date; eauto.
  - assert (Ev : v = sum_text c).
    { unfold write_checksum_to_tag_value in E. unfold sum_text. destruct c as [[] h]; cbn in E; injection E as <-; reflexivity. }
    subst v. apply (sum_reads c H).
Qed.
Lemma filler_reads s : Filler s -> Reads s [].
Proof. intros [->|(u & -> & H)]; [apply Reads_LF|]. apply (Reads_comment (#"#" :: u)). intros [K|K]; [discriminate|auto]. Qed.
Lemma lines_reads text l : Lines text l -> Reads text (tokens_of l).
Proof.
  induction 1 as [|s text l H _ IH|t v k text l H _ IH].
  - apply Reads_nil.
  - change (tokens_of l) with ([] ++ tokens_of l). apply Reads_app; auto. apply filler_reads. exact H.
  - rewrite !app_assoc. rewrite <- (app_assoc (tag_name t)), <- (app_assoc (tag_name t)). apply (Reads_app _ _ [tag_tok t; k]); auto.
    rewrite <- !app_assoc. apply Reads_field. apply spelled_tok. exact H.
Qed.
Lemma calm_nil : Calm [].
Proof. exists 0, []. split; [reflexivity|left; reflexivity]. Qed.
Lemma lines_tokens text l : Lines text l -> map fst (tokenize text) = tokens_of l.
Proof.
  intro H. destruct (lines_reads _ _ H [] calm_nil) as [_ E]. rewrite app_nil_r in E. rewrite toks_tokenize, E. apply app_nil_r.
Qed.
Lemma lines_calm text l : Lines text l -> Calm text.
Proof. intro H. destruct (lines_reads _ _ H [] calm_nil) as [C _]. rewrite app_nil_r in C. exact C. Qed.
Lemma written_value t v k s text l : Spelled v k -> Lines text l -> write_value (tag_name t) v = Ok s ->
  map fst (tokenize (s ++ text)) = tag_tok t :: k :: map fst (tokenize text).
Proof.
  intros H L E. assert (Es : s = tag_name t ++ $": " ++ v ++ [LF]) by (unfold write_value in E; congruence). subst s.
  rewrite (lines_tokens _ _ L). rewrite <- !app_assoc.
  rewrite (lines_tokens _ ((t, k) :: l)); [reflexivity|]. apply Lines_field; auto.
Qed.
Lemma written_text t v s text l : Text v -> Lines text l -> write_text (tag_name t) v = Ok s ->
  exists k, map fst (tokenize (s ++ text)) = tag_tok t :: k :: map fst (tokenize text) /\ text_or_line_value k = v.
Proof.
  intros H L E. exists (text_tok v). split; [|apply text_value; exact H]. rewrite write_text_eq in E.
  assert (S : Spelled (text_form v) (text_tok v)).
  { unfold text_form, text_tok, text_form. destruct H as [H|[H|(H & _ & Hc)]].
    - rewrite (line_type v H). pose proof H as (Hl & _). apply has_char_false in Hl. rewrite Hl. apply Sp_line. exact H.
    - destruct H as [<-|[<-|[]]]; [exact Sp_noassertion|exact Sp_none].
    - apply has_char_In in H. unfold text_type. rewrite H. apply Sp_text. exact Hc. }
  eapply written_value; eauto.
Qed.
Lemma written_multiline t v s text l : In LF v -> contains $"</text>" v = false -> Lines text l -> write_text (tag_name t) v = Ok s ->
  map fst (tokenize (s ++ text)) = tag_tok t :: {| tk_type := TT_TEXT; tk_value := $"<text>" ++ v ++ $"</text>" |} :: map fst (tokenize text).
Proof.
  intros H Hc L E. unfold write_text in E. apply has_char_In in H. rewrite H in E.
  eapply (written_value t ($"<text>" ++ v ++ $"</text>")); eauto.
  - apply Sp_text. exact Hc.
  - unfold write_value. rewrite <- E. rewrite <- !app_assoc. reflexivity.
Qed.

(** ** Running well-formed attributes *)
Lemma flats_fields gs : flats gs = tokens_of (flat_map fields gs).
Proof.
  unfold flats, tokens_of. induction gs as [|g gs IH]; auto. cbn [map List.concat flat_map]. rewrite IH, flat_map_app. f_equal.
  unfold flat, fields. destruct (g_com g), (comment_tag (g_tag g)); reflexivity.
Qed.
Lemma tag_eqb_refl t : tag_eqb t t = true.
Proof. destruct t; reflexivity. Qed.
Section WithOracles.
Variable O : oracles.
Fixpoint acts (gs : list grp) (lines : list N) (st : pstate) : result pstate :=
  match gs, lines with
  | [], _ => Ok st
  | g :: gs', n :: lines' => do st' <- act O (g_tag g) n (g_val g) (g_com g) st; acts gs' lines' st'
  | _ :: _, [] => Raise (EIndex [])
  end.
Definition pending (m : pmode) (st : pstate) : result pstate :=
  match m with M_Base => Ok st | M_Val t n v => act O t n v None st | M_Comment t n v c => act O t n v (Some c) st | _ => Raise (EIndex []) end.
Definition settled (m : pmode) : Prop := match m with M_Base | M_Val _ _ _ | M_Comment _ _ _ _ => True | _ => False end.
Lemma pending_end m st : settled m -> at_end O m st = pending m st.
Proof. destruct m; intros []; reflexivity. Qed.
Lemma pending_step m st t vk n : settled m -> value_kind t = Some vk -> step O m st (tag_tok t) n = (do st1 <- pending m st; Ok (M_Tag t n, st1)).
Proof.
  intros Hs Hk. destruct m; try destruct Hs; cbn [step pending bind]; unfold starts_attribute, enter, tag_tok; cbn [tk_type]; rewrite Hk; try reflexivity.
Qed.
Lemma run_cons m st k n l : run O m st ((k, n) :: l) = (do (m', st') <- step O m st k n; run O m' st' l).
Proof. reflexivity. Qed.
Lemma run_acts gs : forall m st l, settled m -> Forall Good gs -> map fst l = flats gs ->
  exists lines, List.length lines = List.length gs /\ run O m st l = (do st1 <- pending m st; acts gs lines st1).
Proof.
  induction gs as [|g gs IH]; intros m st l Hm Hg Hl.
  - exists []. split; auto. destruct l; [|discriminate]. cbn [run acts]. rewrite pending_end by exact Hm. destruct (pending m st); reflexivity.
  - apply Forall_cons_iff in Hg as [[(vk & Hk & Hv) Hc] Hg']. unfold flats in Hl. cbn [map List.concat] in Hl. fold (flats gs) in Hl. unfold flat in Hl.
    destruct l as [|[k1 n1] l]; [discriminate|]. cbn [map fst app] in Hl. injection Hl as -> Hl.
    destruct l as [|[k2 n2] l]; [discriminate|]. cbn [map fst app] in Hl. injection Hl as -> Hl.
    rewrite run_cons, (pending_step m st (g_tag g) vk n1 Hm Hk).
    destruct (g_com g) as [c|] eqn:Ec.
    + destruct Hc as [Hc1 Hc2]. destruct (comment_tag (g_tag g)) as [t'|] eqn:Et; [|congruence]. cbn [app] in Hl.
      destruct l as [|[k3 n3] l]; [discriminate|]. cbn [map fst] in Hl. injection Hl as -> Hl.
      destruct l as [|[k4 n4] l]; [discriminate|]. cbn [map fst] in Hl. injection Hl as -> Hl.
      assert (Hs : forall st1, run O (M_Tag (g_tag g) n1) st1 ((g_val g, n2) :: (tag_tok t', n3) :: (c, n4) :: l) = run O (M_Comment (g_tag g) n1 (g_val g) c) st1 l).
      { intro st1. cbn [run step]. rewrite Hk, Hv. cbn [bind]. cbn [run step]. unfold starts_attribute, tag_tok. cbn [tk_type].
        assert (Kt : value_kind t' = None) by (destruct (g_tag g); try discriminate Et; cbn in Et; injection Et as <-; reflexivity).
        rewrite Kt, Et, tag_eqb_refl. cbn [bind run step]. rewrite Hc2. reflexivity. }
      destruct (pending m st) as [st1|e] eqn:Ep.
      * cbn [bind]. rewrite Hs. destruct (IH (M_Comment (g_tag g) n1 (g_val g) c) st1 l I Hg' Hl) as (lines & L & E).
        exists (n1 :: lines). split; [cbn; congruence|]. rewrite E. cbn [acts pending]. rewrite Ec. reflexivity.
      * exists (repeat n1 (List.length (g :: gs))). split; [apply repeat_length|]. reflexivity.
    + assert (Hl' : map fst l = flats gs) by (destruct (comment_tag (g_tag g)); exact Hl).
      assert (Hs : forall st1, run O (M_Tag (g_tag g) n1) st1 ((g_val g, n2) :: l) = run O (M_Val (g_tag g) n1 (g_val g)) st1 l).
      { intro st1. cbn [run step]. rewrite Hk, Hv. reflexivity. }
      destruct (pending m st) as [st1|e] eqn:Ep.
      * cbn [bind]. rewrite Hs. destruct (IH (M_Val (g_tag g) n1 (g_val g)) st1 l I Hg' Hl') as (lines & L & E).
        exists (n1 :: lines). split; [cbn; congruence|]. rewrite E. cbn [acts pending]. rewrite Ec. reflexivity.
      * exists (repeat n1 (List.length (g :: gs))). split; [apply repeat_length|]. reflexivity.
Qed.
Lemma attributes_run text gs : Attributes text gs -> exists lines, List.length lines = List.length gs
  /\ tv_parse O text = (do st <- acts gs lines init_state; finish st).
Proof.
  intros [H Hg]. apply lines_tokens in H. rewrite <- flats_fields in H. destruct (run_acts gs M_Base init_state (tokenize text) I Hg H) as (lines & L & E).
  exists lines. split; auto. unfold tv_parse. rewrite E. reflexivity.
Qed.
Lemma acts_app a b la lb st : List.length la = List.length a -> acts (a ++ b) (la ++ lb) st = (do st1 <- acts a la st; acts b lb st1).
Proof.
  revert la st. induction a as [|g a IH]; intros [|n la] st H; try discriminate; cbn [app acts bind]; auto.
  destruct (act O (g_tag g) n (g_val g) (g_com g) st); cbn [bind]; auto.
Qed.
End WithOracles.
