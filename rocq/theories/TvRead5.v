(** What values mean. *)
From Verif Require Import Py PyFacts PyRe PyReFacts PyReSound Data Oracles Basics Json Construct JsonConv JsonParse JsonSpec JsonRead
  TvWriter TvLexer TvSpec TvTokSpec TvLexFacts TvLexValues TvFieldFacts TvSpecialFacts TvParser TvParseFacts TvErrors TvRepeat TvRaises TvReadSpec TvRead TvRead2 TvRead3 TvRead4.

(** ** Tokens of a file *)
Definition FineTok (k : token) : Prop :=
  (tk_type k = TT_TEXT -> exists v, tk_value k = $"<text>" ++ v ++ $"</text>") /\ (tk_type k = TT_LINE -> strip (tk_value k) = tk_value k).
Definition Fine (g : grp) : Prop := Good g /\ FineTok (g_val g) /\ forall c, g_com g = Some c -> FineTok c.
Lemma spelled_fine v k : Spelled v k -> FineTok k.
Proof.
  destruct 1; split; cbn; intro E; try discriminate E; eauto.
  - destruct H as (_ & _ & H & _). exact H.
  - destruct (ac_type a); discriminate E.
  - destruct (ac_type a); discriminate E.
Qed.
Lemma lines_fine text l : Lines text l -> Forall (fun x => FineTok (snd x)) l.
Proof. induction 1; auto. constructor; auto. cbn. eapply spelled_fine; eauto. Qed.
Lemma attributes_fine text gs : Attributes text gs -> Forall Fine gs.
Proof.
  intros [L G]. apply lines_fine in L. rewrite Forall_forall in *. intros g Hg. specialize (G g Hg). split; auto.
  assert (F : forall x, In x (fields g) -> FineTok (snd x)) by (intros x Hx; apply L; apply in_flat_map; eauto).
  split; [apply (F (g_tag g, g_val g)); left; reflexivity|]. intros c Hc. destruct G as [_ G]. rewrite Hc in G. destruct G as [G _].
  unfold fields in F. rewrite Hc in F. destruct (comment_tag (g_tag g)) as [t|]; [|congruence]. apply (F (t, c)). right. left. reflexivity.
Qed.

(** ** Text *)
Lemma str_from_text_any v : v <> [] -> str_from_text ($"<text>" ++ v ++ $"</text>") = v.
Proof.
  intro Hv. unfold str_from_text, re_match, str_from_text_re.
  rewrite pcats_cons, pm_pcat, pm_plit, startswith_app, skipn_len_app, pcats_cons, pm_pcat. cbn [pm pplus].
  destruct v as [|c v]; [destruct Hv; reflexivity|]. cbn [app].
  cbn [pcats].
  rewrite star_bt_longest with (a := v) (b := $"</text>") (r := ([], [(1, c :: v)])).
  - reflexivity.
  - apply forallb_forall. auto.
  - rewrite pm_plit. change (startswith $"</text>" $"</text>") with true. cbv iota.
    change (c :: v ++ $"</text>") with ((c :: v) ++ $"</text>"). rewrite firstn_len_app. reflexivity.
  - intros a' b' E _ Hlt. rewrite pm_plit. destruct (startswith $"</text>" b') eqn:F; auto. exfalso.
    apply startswith_spec in F as (r & ->). apply (f_equal (@List.length _)) in E. rewrite !app_length in E.
    change (List.length $"</text>") with 7 in E. lia.
Qed.
Lemma text_of k s : FineTok k -> (text_or_line_value k = s <-> TextOf k s).
Proof.
  intros [H _]. unfold text_or_line_value, TextOf. destruct (tk_type k); try (split; congruence).
  destruct (H eq_refl) as [v E]. rewrite E. destruct v as [|c v].
  - assert (X : str_from_text ($"<text>" ++ [] ++ $"</text>") = $"<text></text>") by (vm_compute; reflexivity). rewrite X. split.
    + intros <-. right. split; reflexivity.
    + intros [[N K]|[-> _]]; [|reflexivity]. exfalso. apply (f_equal (@List.length _)) in K. rewrite !app_length in K. destruct s; [congruence|]. cbn in K. lia.
  - rewrite str_from_text_any by discriminate. split.
    + intros <-. left. split; [discriminate|reflexivity].
    + intros [[N K]|[-> K]].
      * apply app_inv_head in K. apply app_inv_tail in K. auto.
      * exfalso. apply (f_equal (@List.length _)) in K. rewrite !app_length in K. cbn in K. lia.
Qed.
Lemma line_text k : accepts K_line (tk_type k) = true -> text_or_line_value k = tk_value k.
Proof. unfold text_or_line_value. destruct (tk_type k); try discriminate; reflexivity. Qed.
Ltac go := split; [intros (v & E & H)|].
Section Meanings.
Variable O : oracles.
Variables (c f : pystr).
Lemma m_line g y : (exists v, Some (VStr (tk_value (g_val g))) = Some v /\ t_str c f (Some v) = COk y) <-> SaysLine g y.
Proof. unfold SaysLine. split; [intros (v & E & H); injection E as <-; cbn in H; congruence|]. intros ->. eexists. split; reflexivity. Qed.
Lemma m_line2 g y : accepts K_line (tk_type (g_val g)) = true ->
  (exists v, Some (VStr (text_or_line_value (g_val g))) = Some v /\ t_str c f (Some v) = COk y) <-> SaysLine g y.
Proof. intro A. rewrite (line_text _ A). apply m_line. Qed.
Lemma m_opt_line g y : accepts K_line (tk_type (g_val g)) = true ->
  (exists v, Some (VStr (text_or_line_value (g_val g))) = Some v /\ t_opt_str c f (Some v) = COk y) <-> exists x, y = Some x /\ SaysLine g x.
Proof.
  intro A. rewrite (line_text _ A). unfold SaysLine. split; [intros (v & E & H); injection E as <-; cbn in H; injection H as <-; eauto|].
  intros (x & -> & ->). eexists. split; reflexivity.
Qed.
Lemma m_text g y : Fine g -> (exists v, Some (VStr (text_or_line_value (g_val g))) = Some v /\ t_str c f (Some v) = COk y) <-> SaysText g y.
Proof.
  intros (_ & F & _). unfold SaysText. rewrite <- (text_of _ _ F). split; [intros (v & E & H); injection E as <-; cbn in H; congruence|].
  intros <-. eexists. split; reflexivity.
Qed.
Lemma m_opt_text g y : Fine g -> (exists v, Some (VStr (text_or_line_value (g_val g))) = Some v /\ t_opt_str c f (Some v) = COk y) <-> exists x, y = Some x /\ SaysText g x.
Proof.
  intros (_ & F & _). unfold SaysText. split.
  - intros (v & E & H). injection E as <-. cbn in H. injection H as <-. eexists. split; [reflexivity|]. apply text_of; auto.
  - intros (x & -> & H). apply text_of in H; auto. rewrite H. eexists. split; reflexivity.
Qed.
Lemma word_cases k : line_value k = match tk_type k with TT_NO_ASSERTION => VNoAssertion | TT_NONE => VNone | _ => VStr (text_or_line_value k) end.
Proof. unfold line_value, text_or_line_value. destruct (tk_type k); reflexivity. Qed.
Lemma m_word g y : Fine g -> (exists v, Some (line_value (g_val g)) = Some v /\ t_nn c f (Some v) = COk y) <-> SaysWord g y.
Proof.
  intros (_ & F & _). unfold SaysWord, SaysText. rewrite word_cases.
  assert (X : (exists v, Some (VStr (text_or_line_value (g_val g))) = Some v /\ t_nn c f (Some v) = COk y) <-> exists s, y = NVal s /\ TextOf (g_val g) s).
  { split.
    - intros (v & E & H). injection E as <-. cbn in H. injection H as <-. eexists. split; [reflexivity|]. apply text_of; auto.
    - intros (x & -> & H). apply text_of in H; auto. rewrite H. eexists. split; reflexivity. }
  destruct (tk_type (g_val g)); try exact X; (split; [intros (v & E & H); injection E as <-; cbn in H; congruence|intros ->; eexists; split; reflexivity]).
Qed.
Lemma m_opt_word g y : Fine g -> (exists v, Some (line_value (g_val g)) = Some v /\ t_opt_nn c f (Some v) = COk y) <-> exists x, y = Some x /\ SaysWord g x.
Proof.
  intro F. split.
  - intros (v & E & H). assert (N : exists x, t_nn c f (Some v) = COk x /\ y = Some x).
    { rewrite word_cases in E. destruct (tk_type (g_val g)); injection E as <-; cbn in H |- *; injection H as <-; eauto. }
    destruct N as (x & N & ->). exists x. split; auto. apply (m_word g x F). eauto.
  - intros (x & -> & H). apply (m_word g x F) in H as (v & E & H). exists v. split; auto. unfold t_opt_nn. rewrite H. injection E as <-. rewrite word_cases. destruct (tk_type (g_val g)); reflexivity.
Qed.
Lemma m_opt_name g y : Fine g -> accepts K_line_or_na (tk_type (g_val g)) = true ->
  (exists v, Some (line_value (g_val g)) = Some v /\ t_opt_na c f (Some v) = COk y) <-> exists x, y = Some x /\ SaysName g x.
Proof.
  intros (_ & F & _) A. unfold SaysName, SaysText. rewrite word_cases. destruct (tk_type (g_val g)) eqn:K; try discriminate A.
  - split.
    + intros (v & E & H). injection E as <-. cbn in H. injection H as <-. eexists. split; reflexivity.
    + intros (x & -> & ->). eexists. split; reflexivity.
  - split.
    + intros (v & E & H). injection E as <-. cbn in H. injection H as <-. eexists. split; [reflexivity|]. eexists. split; [reflexivity|]. apply text_of; auto.
    + intros (x & -> & s & -> & H). apply text_of in H; auto. rewrite H. eexists. split; reflexivity.
Qed.
Lemma m_date g y : (exists v, option_map VDate (good (datetime_from_str (tk_value (g_val g)))) = Some v /\ t_date c f (Some v) = COk y) <-> SaysDate g y.
Proof.
  unfold SaysDate. destruct (datetime_from_str _) as [d|e]; cbn.
  - split; [intros (v & E & H); injection E as <-; cbn in H; congruence|]. intro E. injection E as ->. eexists. split; reflexivity.
  - split; [intros (v & E & _)|intro E]; discriminate E.
Qed.
Lemma m_opt_date g y : (exists v, option_map VDate (good (datetime_from_str (tk_value (g_val g)))) = Some v /\ t_opt_date c f (Some v) = COk y) <-> exists x, y = Some x /\ SaysDate g x.
Proof.
  unfold SaysDate. destruct (datetime_from_str _) as [d|e]; cbn.
  - split; [intros (v & E & H); injection E as <-; cbn in H; injection H as <-; eauto|]. intros (x & -> & E). injection E as ->. eexists. split; reflexivity.
  - split; [intros (v & E & _)|intros (x & _ & E)]; discriminate E.
Qed.
Lemma m_opt_version g y : (exists v, option_map VVersion (good (version_from_string (tk_value (g_val g)))) = Some v /\ t_opt_version c f (Some v) = COk y) <-> exists x, y = Some x /\ SaysVersion g x.
Proof.
  unfold SaysVersion. destruct (version_from_string _) as [d|e]; cbn.
  - split; [intros (v & E & H); injection E as <-; cbn in H; injection H as <-; eauto|]. intros (x & -> & E). injection E as ->. eexists. split; reflexivity.
  - split; [intros (v & E & _)|intros (x & _ & E)]; discriminate E.
Qed.
Lemma m_actor g y : (exists v, option_map VActor (good (parse_actor (tk_value (g_val g)))) = Some v /\ t_actor c f (Some v) = COk y) <-> SaysActor g y.
Proof.
  unfold SaysActor. destruct (parse_actor _) as [d|e]; cbn.
  - split; [intros (v & E & H); injection E as <-; cbn in H; congruence|]. intro E. injection E as ->. eexists. split; reflexivity.
  - split; [intros (v & E & _)|intro E]; discriminate E.
Qed.
Lemma m_opt_actor g y : (exists v, good (actor_value (g_val g)) = Some v /\ t_opt_actor c f (Some v) = COk y) <-> exists x, y = Some x /\ SaysActorOrNot g x.
Proof.
  unfold SaysActorOrNot, SaysActor, actor_value.
  assert (X : (exists v, good (do a <- parse_actor (tk_value (g_val g)); Ok (VActor a)) = Some v /\ t_opt_actor c f (Some v) = COk y)
              <-> exists x, y = Some x /\ exists a, x = AVal a /\ parse_actor (tk_value (g_val g)) = Ok a).
  { destruct (parse_actor _) as [a|e]; cbn.
    - split; [intros (v & E & H); injection E as <-; cbn in H; injection H as <-; eauto 6|]. intros (x & -> & b & -> & E). injection E as ->. eexists. split; reflexivity.
    - split; [intros (v & E & _)|intros (x & _ & b & _ & E)]; discriminate E. }
  destruct (tk_type (g_val g)); try exact X.
  split; [intros (v & E & H); injection E as <-; cbn in H; injection H as <-; eauto|]. intros (x & -> & ->). eexists. split; reflexivity.
Qed.
Lemma m_analyzed g y : (exists v, (if str_eqb (tk_value (g_val g)) $"true" then Some (VBool true) else if str_eqb (tk_value (g_val g)) $"false" then Some (VBool false) else None) = Some v
    /\ t_files_analyzed c f (Some v) = COk y) <-> SaysAnalyzed g y.
Proof.
  unfold SaysAnalyzed. destruct (str_eqb _ $"true") eqn:A; [|destruct (str_eqb _ $"false") eqn:B].
  - apply str_eqb_eq in A. rewrite A. split; [intros (v & E & H); injection E as <-; cbn in H; injection H as <-; reflexivity|]. destruct y; [|discriminate]. intros _. eexists. split; reflexivity.
  - apply str_eqb_eq in B. rewrite B. split; [intros (v & E & H); injection E as <-; cbn in H; injection H as <-; reflexivity|]. destruct y; [discriminate|]. intros _. eexists. split; reflexivity.
  - apply str_eqb_neq in A, B. split; [intros (v & E & _); discriminate E|]. destruct y; congruence.
Qed.
Lemma m_opt_purpose g y : (exists v, option_map VPurpose (enum_lookup purpose_all purpose_name (replace $"-" $"_" (tk_value (g_val g)))) = Some v /\ t_opt_purpose c f (Some v) = COk y)
  <-> exists x, y = Some x /\ SaysPurpose g x.
Proof.
  unfold SaysPurpose. split.
  - intros (v & E & H). destruct (enum_lookup _ _ _) as [p|] eqn:L; [|discriminate E]. injection E as <-. cbn in H. injection H as <-. exists p. split; auto. apply purpose_lookup. exact L.
  - intros (x & -> & H). apply purpose_lookup in H. rewrite H. eexists. split; reflexivity.
Qed.
Lemma m_ann_type g y : (exists v, option_map VAnnType (enum_lookup annotation_type_all annotation_type_name (tk_value (g_val g))) = Some v /\ t_ann_type c f (Some v) = COk y)
  <-> SaysAnnotationType g y.
Proof.
  unfold SaysAnnotationType. split.
  - intros (v & E & H). destruct (enum_lookup _ _ _) as [p|] eqn:L; [|discriminate E]. injection E as <-. cbn in H. injection H as <-. apply atype_lookup. exact L.
  - intros H. apply atype_lookup in H. rewrite H. eexists. split; reflexivity.
Qed.
Lemma digits_val s n : dec_val s = Some n -> s <> [] /\ forallb is_digit s = true.
Proof.
  destruct s as [|x s]; [discriminate|]. intro H. split; [discriminate|]. unfold dec_val in H. revert H. generalize 0%N. generalize (x :: s). clear. intro l.
  induction l as [|y l IH]; intros a H; [reflexivity|]. cbn [dec_val_from] in H. cbn [forallb]. destruct (digit_val y) eqn:D; [|discriminate H]. rewrite (IH _ H). unfold is_digit. rewrite D. reflexivity.
Qed.
Lemma range_text v a b : strip v = v -> (range_of v = Some (VRange a b) <-> exists x y m n, v = x ++ $":" ++ y /\ dec_val x = Some m /\ dec_val y = Some n /\ (a, b) = (Z.of_N m, Z.of_N n)).
Proof.
  intro S. unfold range_of. rewrite S. split.
  - destruct (re_match range_re v) as [g|] eqn:E; [|discriminate]. intro H.
    assert (Hv : stripped v) by (rewrite <- S; apply strip_stripped).
    apply re_match_sound in E as (u & rest & Ev & M). cbn [range_re pcats Matches] in M.
    destruct M as (u1 & u2 & g1 & g2 & -> & _ & (h & _ & H1) & (u3 & u4 & g3 & g4 & -> & _ & H3 & (u5 & u6 & g5 & g6 & -> & _ & (h' & _ & H5) & (-> & _ & R)))).
    apply Matches_plus in H1 as (N1 & D1 & _). apply Matches_plus in H5 as (N5 & D5 & _). apply Matches_lit in H3 as [-> _].
    assert (R' : rest = []).
    { destruct R as [->| ->]; auto. exfalso. destruct Hv as [_ Hv]. specialize (Hv LF (u1 ++ lit ":" ++ u5 ++ [])). rewrite Ev in Hv. discriminate (Hv eq_refl). }
    subst rest. rewrite !app_nil_r in Ev. change (lit ":" ++ u5) with (#":" :: u5) in Ev.
    assert (SP : split_on #":" v = [u1; u5]).
    { apply split_two. repeat split; auto; [apply (class_no_colon is_digit)|apply (class_no_colon is_digit)]; auto; vm_compute; reflexivity. }
    rewrite SP in H. cbn [hd last] in H. destruct (dec_val u1) as [m|] eqn:A; [|discriminate H]. destruct (dec_val u5) as [n|] eqn:B; [|discriminate H].
    exists u1, u5, m, n. repeat split; auto. congruence.
  - intros (x & y & m & n & E & A & B & R). change ($":" ++ y) with (#":" :: y) in E. pose proof (digits_val _ _ A) as [A1 A2]. pose proof (digits_val _ _ B) as [B1 B2].
    destruct (range_matched x y A1 B1 A2 B2) as [g G]. rewrite E, G.
    assert (SP : split_on #":" (x ++ #":" :: y) = [x; y]).
    { apply split_two. repeat split; auto; [apply (class_no_colon is_digit)|apply (class_no_colon is_digit)]; auto; vm_compute; reflexivity. }
    rewrite SP. cbn [hd last]. rewrite A, B. congruence.
Qed.
Lemma range_is v x : range_of v = Some x -> exists a b, x = VRange a b.
Proof. unfold range_of. destruct (re_match _ _); [|discriminate]. destruct (dec_val _); [|discriminate]. destruct (dec_val _); [|discriminate]. intro H. injection H as <-. eauto. Qed.
Lemma m_range g y : Fine g -> accepts K_line (tk_type (g_val g)) = true -> (exists v, range_of (tk_value (g_val g)) = Some v /\ t_range c f (Some v) = COk y) <-> SaysRange g y.
Proof.
  intros (_ & [_ F] & _) A. assert (K : tk_type (g_val g) = TT_LINE) by (destruct (tk_type (g_val g)); try discriminate A; reflexivity). specialize (F K). unfold SaysRange. split.
  - intros (v & E & H). destruct (range_is _ _ E) as (a & b & ->). cbn in H. injection H as <-. apply range_text; auto.
  - intro H. destruct y as [a b]. apply range_text in H; auto. exists (VRange a b). split; auto.
Qed.
Lemma m_opt_range g y : Fine g -> accepts K_line (tk_type (g_val g)) = true ->
  (exists v, range_of (tk_value (g_val g)) = Some v /\ t_opt_range c f (Some v) = COk y) <-> exists x, y = Some x /\ SaysRange g x.
Proof.
  intros F A. split.
  - intros (v & E & H). destruct (range_is _ _ E) as (a & b & ->). cbn in H. injection H as <-. exists (a, b). split; auto. apply (m_range g (a, b) F A). exists (VRange a b). auto.
  - intros (x & -> & H). apply (m_range g x F A) in H as (v & E & H). destruct (range_is _ _ E) as (a & b & ->). cbn in H. injection H as <-. exists (VRange a b). auto.
Qed.
(** groups that a match always sets *)
Fixpoint must (n : nat) (r : prx) : bool :=
  match r with PCat a b => must n a || must n b | PGroup m a => Nat.eqb m n || must n a | _ => false end.
Lemma must_group n r : must n r = true -> forall u rest gs, Matches r u rest gs -> exists x, group n gs = Some x.
Proof.
  intro H. assert (X : forall u rest gs, Matches r u rest gs -> In n (map fst gs)).
  { revert H. induction r as [| | |a IHa b IHb| |m a IHa|]; cbn [must Matches]; try discriminate; intros H u rest gs M.
    - destruct M as (u1 & u2 & g1 & g2 & -> & -> & M1 & M2). rewrite map_app, in_app_iff. apply orb_true_iff in H as [H|H]; [right; eapply IHa; eauto|left; eapply IHb; eauto].
    - destruct M as (g & -> & M). cbn [map fst In]. apply orb_true_iff in H as [H|H]; [left; apply Nat.eqb_eq; exact H|right; eapply IHa; eauto]. }
  intros u rest gs M. specialize (X u rest gs M). unfold group. clear M. induction gs as [|[m v] gs IH]; [destruct X|]. cbn [find fst]. destruct (Nat.eqb m n) eqn:E; [eauto|].
  apply IH. destruct X as [X|X]; auto. cbn in X. apply Nat.eqb_neq in E. contradiction.
Qed.
Lemma re_group n r v g : must n r = true -> re_match r v = Some g -> exists x, group n g = Some x.
Proof. intros M H. apply re_match_sound in H as (u & rest & _ & H). eapply must_group; eauto. Qed.
Lemma code_text v x : code_of v = Some x <-> exists m, re_match verif_code_re v = Some m /\ group 1 m = Some (vc_value x)
    /\ match group 3 m with Some (c :: y) => vc_excluded x = split_on #"," (c :: y) | _ => vc_excluded x = [] end.
Proof.
  unfold code_of. destruct (re_match verif_code_re v) as [g|] eqn:E; [|split; [discriminate|intros (m & H & _); discriminate H]].
  destruct (re_group 1 verif_code_re v g eq_refl E) as [y G]. unfold group_or_empty. rewrite G. split.
  - intro H. injection H as <-. exists g. cbn [vc_value vc_excluded]. repeat split; auto. destruct (group 3 g) as [[|]|]; reflexivity.
  - intros (m & H & A & B). injection H as <-. destruct x as [xv xe]. cbn [vc_value vc_excluded] in *. rewrite G in A. injection A as ->. f_equal. f_equal.
    destruct (group 3 g) as [[|]|]; auto.
Qed.
Lemma m_opt_code g y : (exists v, option_map VVerif (code_of (tk_value (g_val g))) = Some v /\ t_opt_verif c f (Some v) = COk y) <-> exists x, y = Some x /\ SaysCode g x.
Proof.
  unfold SaysCode. split.
  - intros (v & E & H). destruct (code_of _) as [x|] eqn:C; [|discriminate E]. injection E as <-. cbn in H. injection H as <-. exists x. split; auto. apply code_text. exact C.
  - intros (x & -> & H). apply code_text in H. rewrite H. eexists. split; reflexivity.
Qed.
(** licenses *)
Lemma license_text k l : quiet_license O k = Some l <->
  match l with
  | Some x => match tk_type k with
              | TT_NO_ASSERTION => x = NNoAssertion
              | TT_NONE => x = NNone
              | _ => exists e, x = NVal e /\ strip (tk_value k) <> [] /\ o_lic_parse O (tk_value k) = Ok e
              end
  | None => tk_type k <> TT_NO_ASSERTION /\ tk_type k <> TT_NONE /\ strip (tk_value k) = []
  end.
Proof.
  unfold quiet_license, license_value.
  assert (X : forall T, T = tk_type k -> T <> TT_NO_ASSERTION -> T <> TT_NONE ->
    (match (match licensing_parse O (JStr (tk_value k)) with
      | Ok (Some e) => Ok ([], Some (NVal e))
      | Ok None => Ok ([], None)
      | Raise (EExpr m) => Ok ([$"Error while parsing license expression: " ++ tk_value k ++ $": " ++ m], None)
      | Raise e => Raise e
      end) with Ok ([], l) => Some l | _ => None end = Some l <->
     match l with
     | Some x => exists e, x = NVal e /\ strip (tk_value k) <> [] /\ o_lic_parse O (tk_value k) = Ok e
     | None => T <> TT_NO_ASSERTION /\ T <> TT_NONE /\ strip (tk_value k) = []
     end)).
  { intros T _ A B. cbn [licensing_parse]. destruct (strip (tk_value k)) as [|s0 s1].
    - destruct l as [x|].
      + split; [discriminate|]. intros (e & _ & N & _). congruence.
      + split; auto.
    - destruct (o_lic_parse O (tk_value k)) as [e|e]; cbn [bind].
      + destruct l as [x|].
        * split; [intro H; injection H as <-; exists e; repeat split; auto; discriminate|]. intros (e' & -> & _ & H). injection H as <-. reflexivity.
        * split; [discriminate|]. intros (_ & _ & H). discriminate H.
      + destruct e; (split; [discriminate|]; destruct l as [x|]; [intros (e' & _ & _ & H); discriminate H|intros (_ & _ & H); discriminate H]). }
  destruct (tk_type k) eqn:K; try (specialize (X _ eq_refl ltac:(discriminate) ltac:(discriminate)); rewrite X; destruct l; tauto).
  - split; [intro H; injection H as <-; reflexivity|]. destruct l as [x|]; [intros ->; reflexivity|]. intros (N & _). congruence.
  - split; [intro H; injection H as <-; reflexivity|]. destruct l as [x|]; [intros ->; reflexivity|]. intros (_ & N & _). congruence.
Qed.
Lemma license_says g l : quiet_license O (g_val g) = Some l <-> SaysOptLicense O g l.
Proof. rewrite license_text. unfold SaysOptLicense, SaysLicense. reflexivity. Qed.
Lemma m_opt_license g y : (exists v, option_map license_tval (quiet_license O (g_val g)) = Some v /\ t_opt_license c f (Some v) = COk y) <-> SaysOptLicense O g y.
Proof.
  rewrite <- license_says. split.
  - intros (v & E & H). destruct (quiet_license O (g_val g)) as [l|]; [|discriminate E]. injection E as <-. f_equal. destruct l as [[e| |]|]; cbn in H; injection H as <-; reflexivity.
  - intros ->. eexists. split; [reflexivity|]. destruct y as [[e| |]|]; reflexivity.
Qed.
(** ** Items of lists *)
Lemma e_line g y : (exists x, Some (VStrs [tk_value (g_val g)]) = Some (VStrs [x]) /\ x = y) <-> SaysLine g y.
Proof. unfold SaysLine. split; [intros (x & E & <-); congruence|]. intros ->. eexists. split; reflexivity. Qed.
Lemma e_text g y : Fine g -> (exists x, Some (VStrs [text_or_line_value (g_val g)]) = Some (VStrs [x]) /\ x = y) <-> SaysText g y.
Proof. intros (_ & F & _). unfold SaysText. rewrite <- (text_of _ _ F). split; [intros (x & E & <-); congruence|]. intros ->. eexists. split; reflexivity. Qed.
Lemma e_license g y : (exists x, option_map (fun l => VLics [l]) (quiet_license O (g_val g)) = Some (VLics [x]) /\ x = Some y) <-> SaysLicense O g y.
Proof.
  change (SaysLicense O g y) with (SaysOptLicense O g (Some y)). rewrite <- license_says. split.
  - intros (x & E & ->). destruct (quiet_license O (g_val g)) as [l|]; [|discriminate E]. injection E as <-. reflexivity.
  - intros ->. eexists. split; reflexivity.
Qed.
Lemma e_type g y : (exists x, option_map (fun t => VTypes [t]) (enum_lookup file_type_all file_type_name (strip (tk_value (g_val g)))) = Some (VTypes [x]) /\ x = y) <-> SaysFileType g y.
Proof.
  unfold SaysFileType. rewrite <- ftype_lookup. split.
  - intros (x & E & ->). destruct (enum_lookup _ _ _) as [l|]; [|discriminate E]. injection E as <-. reflexivity.
  - intros ->. eexists. split; reflexivity.
Qed.
Lemma e_actor g y : (exists x, option_map (fun a => VActors [a]) (good (parse_actor (tk_value (g_val g)))) = Some (VActors [x]) /\ x = y) <-> SaysActor g y.
Proof.
  unfold SaysActor. destruct (parse_actor _) as [a|e]; cbn.
  - split; [intros (x & E & <-); congruence|]. intro E. injection E as ->. eauto.
  - split; [intros (x & E & _)|intro E]; discriminate E.
Qed.
Lemma checksum_text_iff s x : tv_parse_checksum s = Ok x <-> ChecksumText s x.
Proof.
  unfold tv_parse_checksum, ChecksumText. split.
  - destruct (split_on #":" s) as [|a [|b [|]]] eqn:E; try discriminate. destruct (enum_lookup _ _ _) as [al|] eqn:L; [|discriminate]. intro H. injection H as <-.
    apply split_two in E as (-> & A & B). exists a, b. repeat split; auto. apply alg_lookup. exact L.
  - intros (a & b & -> & A & B & L & V). change ($":" ++ b) with (#":" :: b). assert (E : split_on #":" (a ++ #":" :: b) = [a; b]) by (apply split_two; auto).
    rewrite E. apply alg_lookup in L. rewrite L, <- V. destruct x; reflexivity.
Qed.
Lemma e_checksum g y : (exists x, option_map (fun c => VChecksums [c]) (good (tv_parse_checksum (tk_value (g_val g)))) = Some (VChecksums [x]) /\ x = y) <-> SaysChecksum g y.
Proof.
  unfold SaysChecksum. rewrite <- checksum_text_iff. destruct (tv_parse_checksum _) as [a|e]; cbn.
  - split; [intros (x & E & <-); congruence|]. intro E. injection E as ->. eauto.
  - split; [intros (x & E & _)|intro E]; discriminate E.
Qed.
Lemma doc_ref_text v x : doc_ref_of v = Some x <-> exists m a b, re_match ext_doc_ref_re v = Some m /\ group 1 m = Some a /\ group 2 m = Some b
    /\ strip a = edr_id x ++ $" " ++ edr_uri x /\ ~ In #" " (edr_id x) /\ ~ In #" " (edr_uri x) /\ ChecksumText (strip b) (edr_checksum x).
Proof.
  unfold doc_ref_of. destruct (re_match ext_doc_ref_re v) as [g|] eqn:E; [|split; [discriminate|intros (m & a & b & H & _); discriminate H]].
  destruct (re_group 1 ext_doc_ref_re v g eq_refl E) as [y G]. destruct (re_group 2 ext_doc_ref_re v g eq_refl E) as [z G2]. unfold group_or_empty. rewrite G, G2. split.
  - destruct (split_on #" " (strip y)) as [|id [|uri [|]]] eqn:S; try discriminate. apply split_two in S as (S & A & B).
    destruct (tv_parse_checksum (strip z)) as [c0|] eqn:K; [|discriminate]. intro H. injection H as <-. exists g, y, z. cbn [edr_id edr_uri edr_checksum].
    repeat split; auto. apply checksum_text_iff. exact K.
  - intros (m & a & b & H & A & B & S & N1 & N2 & K). injection H as <-. assert (a = y) by congruence. assert (b = z) by congruence. subst a b.
    change ($" " ++ edr_uri x) with (#" " :: edr_uri x) in S. assert (SP : split_on #" " (strip y) = [edr_id x; edr_uri x]) by (apply split_two; auto).
    rewrite SP. apply checksum_text_iff in K. rewrite K. destruct x; reflexivity.
Qed.
Lemma e_doc_ref g y : (exists x, option_map (fun r => VDocRefs [r]) (doc_ref_of (tk_value (g_val g))) = Some (VDocRefs [x]) /\ x = y) <-> SaysDocRef g y.
Proof.
  unfold SaysDocRef. rewrite <- doc_ref_text. destruct (doc_ref_of _) as [a|]; cbn.
  - split; [intros (x & E & <-); congruence|]. intro E. injection E as ->. eauto.
  - split; [intros (x & E & _)|intro E]; discriminate E.
Qed.
Lemma words_iff s a b d : split_on #" " s = [a; b; d] <-> Words s a b d.
Proof.
  unfold Words. split.
  - intro H. pose proof (split_on_parts #" " s) as HF. pose proof (join_split #" " s) as HJ. rewrite H in *.
    apply Forall_cons_iff in HF as [H1 HF]. apply Forall_cons_iff in HF as [H2 HF]. apply Forall_cons_iff in HF as [H3 _]. repeat split; auto.
  - intros (-> & A & B & D). exact (split_three a b d A B D).
Qed.
Lemma comment_of g x : Fine g -> (option_map text_or_line_value (g_com g) = x <-> SaysComment g x).
Proof.
  intros (_ & _ & F). unfold SaysComment. destruct (g_com g) as [k|]; cbn [option_map]; [|split; congruence]. specialize (F k eq_refl). split.
  - intros <-. eexists. split; [reflexivity|]. apply text_of; auto.
  - intros (s & -> & H). apply text_of in H; auto. congruence.
Qed.
Lemma ref_text g x : Fine g -> (ext_ref_of (tk_value (g_val g)) (option_map text_or_line_value (g_com g)) = Some x <-> SaysRef g x).
Proof.
  intro F. unfold ext_ref_of, SaysRef. split.
  - destruct (split_on _ _) as [|a [|b [|d [|]]]] eqn:S; try discriminate. apply words_iff in S. destruct (enum_lookup _ _ _) as [l|] eqn:L; [|discriminate].
    intro H. assert (H' : x = {| er_category := l; er_type := b; er_locator := d; er_comment := option_map text_or_line_value (g_com g) |}) by (cbn [option_map] in H; congruence). subst x.
    cbn [er_type er_locator er_comment er_category]. split; [|apply comment_of; auto]. exists a. split; auto. apply cat_lookup. exact L.
  - intros ((a & W & L) & C). apply words_iff in W. rewrite W. apply cat_lookup in L. rewrite L. apply comment_of in C; auto. rewrite C. destruct x; reflexivity.
Qed.
Lemma e_ref g y : Fine g -> (exists x, option_map (fun r => VExtRefs [r]) (ext_ref_of (tk_value (g_val g)) (option_map text_or_line_value (g_com g))) = Some (VExtRefs [x]) /\ x = y) <-> SaysRef g y.
Proof.
  intro F. rewrite <- (ref_text g y F). destruct (ext_ref_of _ _) as [a|]; cbn.
  - split; [intros (x & E & <-); congruence|]. intro E. injection E as ->. eauto.
  - split; [intros (x & E & _)|intro E]; discriminate E.
Qed.
End Meanings.
