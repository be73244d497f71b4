(** The attributes that are taken from an arbitrary text. *)
From Verif Require Import Py PyFacts PyRe PyReFacts PyReSound Data Oracles Basics Json Construct JsonConv JsonParse JsonSpec JsonRead
  TvWriter TvLexer TvSpec TvTokSpec TvLexFacts TvLexValues TvFieldFacts TvSpecialFacts TvParser TvParseFacts TvErrors TvRepeat TvRaises TvReadSpec
  TvRead TvRead2 TvRead3 TvRead4 TvRead5 TvRead6 TvRead7 TvRead8 TvStreamSpec.

(** ** Tokens *)
Definition Normal (k : token) : Prop := FineTok k /\ forall t, tk_type k = TT_TAG t -> k = tag_tok t.
Lemma other_normal t v : t <> TT_TEXT -> t <> TT_LINE -> (forall x, t <> TT_TAG x) -> Normal {| tk_type := t; tk_value := v |}.
Proof. intros A B C. split; [split; intro H; cbn in H; contradiction|]. intros x H. cbn in H. destruct (C x H). Qed.
Lemma first_rule_normal rules s k n m dl : Forall (fun r => forall x k n m dl, matched (fst r) s = Some x -> snd r x = (Some k, n, m, dl) -> Normal k) rules ->
  first_rule rules s = (Some k, n, m, dl) -> Normal k.
Proof.
  induction rules as [|[r a] rules IH]; cbn [first_rule]; intros F H.
  - injection H as <- _ _ _. apply other_normal; discriminate.
  - apply Forall_cons_iff in F as [F1 F2]. destruct (matched r s) as [x|] eqn:E; [eapply F1; eauto|auto].
Qed.
Lemma tag_name_stripped t : strip (tag_name t) = tag_name t.
Proof. destruct t; vm_compute; reflexivity. Qed.
Lemma reserved_normal v w : (w = v \/ w = strip v) -> Normal {| tk_type := match reserved v with Some t => t | None => TT_UNKNOWN_TAG end; tk_value := w |}.
Proof.
  intro W. unfold reserved. destruct (str_eqb v _); [apply other_normal; discriminate|]. destruct (str_eqb v _); [apply other_normal; discriminate|].
  destruct (enum_lookup tag_all tag_name v) as [t|] eqn:E; [|apply other_normal; discriminate]. split; [split; discriminate|]. intros x H. cbn [tk_type] in H. injection H as <-.
  unfold enum_lookup in E. apply find_some in E as [_ E]. apply str_eqb_eq in E. subst v. unfold tag_tok. f_equal. destruct W as [->| ->]; [reflexivity|]. apply tag_name_stripped.
Qed.
Definition Reading (m : lmode) : Prop := match m with LInitial => True | LText r => exists u, r = $"<text>" ++ u end.
Lemma rstrip_spaces s w : forallb is_space w = true -> rstrip (s ++ w) = rstrip s.
Proof.
  intro H. unfold rstrip. rewrite rev_app_distr, dropwhile_app; auto. apply forallb_forall. intros x Hx. rewrite forallb_forall in H. apply H. apply in_rev. exact Hx.
Qed.
Lemma text_stripped u m rest gs : Matches text_end_re m rest gs -> strip (($"<text>" ++ u) ++ m) = $"<text>" ++ u ++ $"</text>".
Proof.
  unfold text_end_re. cbn [pcats Matches]. intros (u1 & u3 & g1 & g2 & -> & _ & H1 & [H3 _]). apply Matches_lit in H1 as [-> _].
  rewrite <- app_assoc. unfold strip. assert (L : lstrip ($"<text>" ++ u ++ $"</text>" ++ u3) = $"<text>" ++ u ++ $"</text>" ++ u3) by reflexivity. rewrite L.
  rewrite !app_assoc. rewrite rstrip_spaces by exact H3. rewrite <- !app_assoc. apply rstrip_id. intros c s' E.
  assert (E' : ($"<text>" ++ u ++ $"</text") ++ [#">"] = s' ++ [c]) by (rewrite <- E, <- !app_assoc; reflexivity).
  apply app_inj_tail in E' as [_ <-]. reflexivity.
Qed.
Lemma lex_step_normal mode s k n m dl : Reading mode -> lex_step mode s = (Some k, n, m, dl) -> Normal k.
Proof.
  intro R. destruct mode as [|read]; cbn [lex_step]; intro H.
  - eapply first_rule_normal; [|exact H]. clear H. unfold initial_rules.
    repeat apply Forall_cons; try apply Forall_nil; cbn [fst snd]; intros x k' n' m' dl' Hm E; unfold emit, drop in E; try discriminate E;
      try (injection E as <- _ _ _; apply other_normal; discriminate).
    + injection E as <- _ _ _. apply reserved_normal. right. reflexivity.
    + injection E as <- _ _ _. pose proof (reserved_normal (value_of x) (value_of x) (or_introl eq_refl)) as N. destruct (reserved (value_of x)) as [t|]; [exact N|].
      split; [|discriminate]. split; [discriminate|]. intros _. apply strip_id, strip_stripped.
  - unfold text_step in H. destruct (matched text_end_re s) as [x|] eqn:E; [|discriminate]. apply matched_sound in E as (rest & gs & _ & M). injection H as <- _ _ _.
    destruct R as [u ->]. split; [|discriminate]. split; [|discriminate]. intros _. exists u. cbn [tk_value]. eapply text_stripped. exact M.
Qed.
Lemma first_rule_reading rules s k n m dl : Forall (fun r => forall x k n m dl, snd r x = (k, n, m, dl) -> Reading m) rules ->
  first_rule rules s = (k, n, m, dl) -> Reading m.
Proof.
  induction rules as [|[r a] rules IH]; cbn [first_rule]; intros F H.
  - injection H as _ _ <- _. exact I.
  - apply Forall_cons_iff in F as [F1 F2]. destruct (matched r s) as [x|] eqn:E; [eapply F1; eauto|auto].
Qed.
Lemma lex_step_reading mode s k n m dl : Reading mode -> lex_step mode s = (k, n, m, dl) -> Reading m.
Proof.
  intro R. destruct mode as [|read]; cbn [lex_step]; intro H.
  - eapply first_rule_reading; [|exact H]. clear H. unfold initial_rules.
    repeat apply Forall_cons; try apply Forall_nil; cbn [fst snd]; intros x k' n' m' dl' E; unfold emit, drop in E; injection E as _ _ <- _; try exact I.
    exists []. reflexivity.
  - unfold text_step in H. destruct (matched text_end_re s) as [x|] eqn:E; injection H as _ _ <- _; [exact I|]. destruct R as [u ->]. exists (u ++ firstn 1 s). rewrite <- app_assoc. reflexivity.
Qed.
Lemma lex_normal s : forall skip m line, Reading m -> Forall (fun x => Normal (fst x)) (lex skip m line s).
Proof.
  induction s as [|c s IH]; intros skip m line R; cbn [lex]; [constructor|]. destruct skip as [|skip]; [|apply IH; exact R].
  destruct (lex_step m (c :: s)) as [[[t n] m'] dl] eqn:E. pose proof (lex_step_reading _ _ _ _ _ _ R E) as R'. destruct t as [k|]; [|apply IH; exact R'].
  constructor; [|apply IH; exact R']. cbn [fst]. eapply lex_step_normal; [exact R|exact E].
Qed.
Lemma tokens_normal text : Forall Normal (tokens text).
Proof. unfold tokens. apply Forall_map, lex_normal. exact I. Qed.

(** ** What the automaton does, as a list of events *)
Inductive event := Ev_act (g : grp) (line : N) | Ev_err (t : tag) (line : N) | Ev_unknown (line : N).
Definition attr (t : tag) (v : token) (c : option token) : grp := {| g_tag := t; g_val := v; g_com := c |}.
(** the events when the next attribute begins *)
Definition done (m : pmode) : list event :=
  match m with
  | M_Base => []
  | M_Tag t n | M_CommentTag t n _ | M_Error t n => [Ev_err t n]
  | M_Val t n v => [Ev_act (attr t v None) n]
  | M_Comment t n v c => [Ev_act (attr t v (Some c)) n]
  | M_Unknown n | M_UnknownVal n => [Ev_unknown n]
  end.
Definition bad_token (m : pmode) (t : tag) (n : N) (k : token) (line : N) : pmode * list event :=
  if has_error_rule t then if starts_attribute k then (enter k line, [Ev_err t n]) else (M_Error t n, []) else (M_Base, []).
Definition next (m : pmode) (k : token) (line : N) : pmode * list event :=
  match m with
  | M_Base => (enter k line, [])
  | M_Tag t n =>
      if match value_kind t with Some vk => accepts vk (tk_type k) | None => false end then (M_Val t n k, [])
      else bad_token m t n k line
  | M_Val t n v =>
      if starts_attribute k then (enter k line, done m)
      else if match tk_type k, comment_tag t with TT_TAG c, Some c' => tag_eqb c c' | _, _ => false end
      then (M_CommentTag t n v, []) else bad_token m t n k line
  | M_CommentTag t n v => if accepts K_text_or_line (tk_type k) then (M_Comment t n v k, []) else bad_token m t n k line
  | M_Comment t n v c => if starts_attribute k then (enter k line, done m) else bad_token m t n k line
  | M_Unknown n =>
      if starts_attribute k then (enter k line, done m)
      else if unknown_accepts (tk_type k) then (M_UnknownVal n, []) else (M_Base, [])
  | M_UnknownVal n => if starts_attribute k then (enter k line, done m) else (M_Base, [])
  | M_Error t n => if starts_attribute k then (enter k line, done m) else (m, [])
  end.
Fixpoint events (m : pmode) (l : list (token * N)) : list event :=
  match l with
  | [] => match m with M_Base | M_Tag _ _ | M_CommentTag _ _ _ => [] | _ => done m end
  | (k, line) :: l' => let (m', es) := next m k line in es ++ events m' l'
  end.
Section WithOracles.
Variable O : oracles.
Definition happen (e : event) (st : pstate) : result pstate :=
  match e with
  | Ev_act g n => act O (g_tag g) n (g_val g) (g_com g) st
  | Ev_err t n => error_action t n st
  | Ev_unknown n => Ok (unknown_tag_action n st)
  end.
Fixpoint happens (es : list event) (st : pstate) : result pstate :=
  match es with [] => Ok st | e :: es' => do st' <- happen e st; happens es' st' end.
Lemma happens_app a b st : happens (a ++ b) st = do st' <- happens a st; happens b st'.
Proof. revert st. induction a as [|e a IH]; intro st; [reflexivity|]. cbn [app happens]. destruct (happen e st); cbn [bind]; auto. Qed.
Lemma step_next m st k line : step O m st k line = (do st' <- happens (snd (next m k line)) st; Ok (fst (next m k line), st')).
Proof.
  assert (R : forall t n m', recover t n k line st = (do st' <- happens (snd (bad_token m' t n k line)) st; Ok (fst (bad_token m' t n k line), st'))).
  { intros t n m'. unfold recover, bad_token. destruct (has_error_rule t); [|reflexivity]. destruct (starts_attribute k); [|reflexivity]. cbn [happens happen fst snd].
    destruct (error_action t n st); reflexivity. }
  destruct m; cbn [step next]; auto.
  - destruct (value_kind t) as [vk|]; [|apply R]. destruct (accepts vk (tk_type k)); [reflexivity|apply R].
  - destruct (starts_attribute k); [cbn [done fst snd happens happen attr g_tag g_val g_com]; destruct (act O t line0 v None st); reflexivity|].
    destruct (match tk_type k with TT_TAG c => _ | _ => _ end); [reflexivity|apply R].
  - destruct (accepts _ _); [reflexivity|apply R].
  - destruct (starts_attribute k); [cbn [done fst snd happens happen attr g_tag g_val g_com]; destruct (act O t line0 v (Some c) st); reflexivity|apply R].
  - destruct (starts_attribute k); [reflexivity|]. destruct (unknown_accepts _); reflexivity.
  - destruct (starts_attribute k); reflexivity.
  - destruct (starts_attribute k); [|reflexivity]. cbn [done fst snd happens happen]. destruct (error_action t line0 st); reflexivity.
Qed.
Lemma run_events l : forall m st, run O m st l = happens (events m l) st.
Proof.
  induction l as [|[k line] l IH]; intros m st.
  - destruct m; cbn [run at_end events done happens happen attr g_tag g_val g_com]; auto.
    + destruct (act O t line v None st); reflexivity.
    + destruct (act O t line v (Some c) st); reflexivity.
    + destruct (error_action t line st); reflexivity.
  - cbn [run events]. rewrite step_next. destruct (next m k line) as [m' es]. cbn [fst snd]. rewrite happens_app. destruct (happens es st); cbn [bind]; auto.
Qed.

(** ** Events that leave no trace *)
Definition inside (t : tag) : bool := negb (is_creation_info_tag t) && negb (is_start_tag t).
(** only attributes and broken attributes of elements *)
Fixpoint sift (es : list event) : option (list (grp * N) * bool) :=
  match es with
  | [] => Some ([], false)
  | e :: es' =>
      match e, sift es' with
      | Ev_act g n, Some (gs, b) => Some ((g, n) :: gs, b)
      | Ev_err t _, Some (gs, _) => if inside t then Some (gs, true) else None
      | _, _ => None
      end
  end.
Definition is_start (x : grp * N) : bool := is_start_tag (g_tag (fst x)).
(** *** an event that is not allowed leaves a message *)
Definition fatal (e : event) : bool := match e with Ev_act _ _ => false | Ev_err t _ => negb (inside t) | Ev_unknown _ => true end.
Lemma construct_bad st st' : construct_current_element st = Ok st' -> Bad st -> Bad st'.
Proof. intros H B. apply construct_kept in H as [_ H]. apply Told_Bad. auto. Qed.
Lemma error_kept t n st st' : error_action t n st = Ok st' -> (Bad st -> Bad st') /\ (inside t = false -> Bad st').
Proof.
  unfold error_action, inside. destruct (is_creation_info_tag t); cbn [negb andb].
  { intro H. assert (E : st' = log_ci [$"Error while parsing " ++ tag_name t ++ $": Token did not match specified grammar rule. Line: " ++ line_str n] st) by congruence. subst st'.
    split; [intro B; eapply Ext_Bad; [apply Ext_log_ci|exact B]|]. intros _. apply bad_log_ci. }
  destruct (is_start_tag t) eqn:S; cbn [negb andb].
  - destruct (tag_data_model_field t) as [[[c|] f]|]; try discriminate. unfold initialize_new_current_element.
    destruct (construct_current_element st) as [st1|] eqn:E; [|discriminate]. cbn [bind]. intro H.
    assert (B : Bad st').
    { match type of H with Ok ?x = _ => assert (Hx : st' = x) by congruence end. subst st'. apply bad_log_cur. discriminate. }
    split; intros _; exact B.
  - cbn [bind]. intro H. match type of H with Ok ?x = _ => assert (Hx : st' = x) by congruence end. subst st'.
    split; [intro B; eapply Ext_Bad; [apply Ext_log_cur|exact B]|discriminate].
Qed.

Lemma fatal_sift es : existsb fatal es = true <-> sift es = None.
Proof.
  induction es as [|e es IH]; cbn [existsb sift]; [split; discriminate|]. rewrite orb_true_iff, IH. destruct e as [g n|t n|n]; cbn [fatal].
  - destruct (sift es) as [[gs b]|]; split; auto; [intros [H|H]; discriminate|discriminate].
  - destruct (sift es) as [[gs b]|]; [|destruct (inside t); split; auto]. destruct (inside t); cbn [negb]; split; auto; [intros [H|H]; discriminate|discriminate].
  - destruct (sift es) as [[gs b]|]; split; auto.
Qed.
Lemma happen_bad e st st' : happen e st = Ok st' -> (Bad st -> Bad st') /\ (fatal e = true -> Bad st').
Proof.
  destruct e as [g n|t n|n]; cbn [happen fatal].
  - intro H. split; [|discriminate]. apply (act_kept O _ _ _ _ _ _ H).
  - intro H. apply error_kept in H as [A B]. split; auto. intro F. apply B. destruct (inside t); [discriminate|reflexivity].
  - intro H. assert (E : st' = unknown_tag_action n st) by congruence. subst st'. split; intros _; apply bad_log.
Qed.
Lemma happens_bad es : forall st st', happens es st = Ok st' -> (Bad st -> Bad st') /\ (existsb fatal es = true -> Bad st').
Proof.
  induction es as [|e es IH]; intros st st' H; cbn [happens existsb] in *; [split; [congruence|discriminate]|].
  destruct (happen e st) as [st1|] eqn:E; [|discriminate]. cbn [bind] in H. apply happen_bad in E as [E1 E2]. apply IH in H as [H1 H2]. split; auto.
  rewrite orb_true_iff. intros [F|F]; auto.
Qed.
(** *** broken attributes: the message is raised with the next element *)
Lemma start_act t n k c st st' : is_start_tag t = true -> act O t n k c st = Ok st' -> exists cl st1, initialize_new_current_element cl st = Ok st1 /\ Ext st1 st'.
Proof.
  intros Hs H.
  assert (G : forall shown v, generic_value t n shown v st = Ok st' -> exists cl st1, initialize_new_current_element cl st = Ok st1 /\ Ext st1 st').
  { intros shown v K. unfold generic_value in K. rewrite Hs in K. destruct (tag_data_model_field t) as [[[x|] f]|]; try discriminate K.
    destruct (initialize_new_current_element x st) as [st1|] eqn:E; [|discriminate K]. cbn [bind] in K. exists x, st1. split; auto.
    eapply in_class_ext; [|exact K]. intros st2 X. apply set_cur_ext in X. apply X. }
  destruct t; try discriminate Hs; cbn [act] in H; try (eapply G; exact H).
  - unfold annotator_action in H. destruct (initialize_new_current_element C_Annotation st) as [st1|] eqn:E; [|discriminate H]. cbn [bind] in H. exists C_Annotation, st1. split; auto.
    apply set_cur_ext in H. apply H.
  - unfold relationship_action in H. destruct (initialize_new_current_element C_Relationship st) as [st1|] eqn:E; [|discriminate H]. cbn [bind] in H. exists C_Relationship, st1. split; auto.
    destruct (split_on _ _) as [|a [|b [|d [|]]]]; try (injection H as <-; apply Ext_log_cur). cbv zeta in H.
    match type of H with Ok (with_cur _ ?y) = _ => assert (E1 : Ext st1 y) by (destruct (enum_lookup rel_type_all rel_type_name b); [apply Ext_cur|apply Ext_log_cur]); revert E1 H; generalize y end.
    intros st2 E1 H. injection H as <-. eapply Ext_trans; [exact E1|]. constructor; cbn; auto; try (exists []; rewrite app_nil_r; auto; fail).
    intros m Hm. destruct (option_map _ c); repeat apply has_set; exact Hm.
Qed.
Definition Warned (st : pstate) : Prop := ps_cur_log st <> [].
Lemma ext_warned st st' : Ext st st' -> Warned st -> Warned st'.
Proof. intros [_ _ [m E] _ _ _] H. unfold Warned. rewrite E. apply app_ne. exact H. Qed.
Lemma start_warned t n k c st st' : is_start_tag t = true -> act O t n k c st = Ok st' -> ps_class st' <> None /\ (Warned st -> Bad st').
Proof.
  intros Hs H. apply start_act in H as (cl & st1 & I1 & E); auto. unfold initialize_new_current_element in I1.
  destruct (construct_current_element st) as [st2|] eqn:C; [|discriminate I1]. cbn [bind] in I1. injection I1 as <-. split; [rewrite (ex_class _ _ E); discriminate|].
  intro W. eapply Ext_Bad; [exact E|]. destruct (ps_class st) as [c0|] eqn:K.
  - assert (B : Bad st) by (right; right; split; [exact W|congruence]). apply construct_kept in C as [_ C]. apply C in B. unfold Told in B. unfold Bad. cbn.
    destruct B as [B|B]; auto.
  - unfold construct_current_element in C. rewrite K in C. injection C as <-. right. right. split; [exact W|discriminate].
Qed.
Lemma warn es : forall st st' gs b, happens es st = Ok st' -> sift es = Some (gs, b) -> Warned st \/ b = true ->
  existsb is_start gs = true \/ ps_class st <> None -> Bad st'.
Proof.
  induction es as [|e es IH]; intros st st' gs b H S W K; cbn [happens sift] in *.
  - injection H as <-. injection S as <- <-. destruct W as [W|W]; [|discriminate]. destruct K as [K|K]; [discriminate|]. right. right. split; auto.
  - destruct (happen e st) as [st1|] eqn:E; [|discriminate]. cbn [bind] in H. destruct e as [g n|t n|n]; cbn [happen] in E.
    + destruct (sift es) as [[gs' b']|] eqn:S'; [|discriminate]. injection S as <- <-. cbn [existsb] in K. destruct (is_start_tag (g_tag g)) eqn:St.
      * apply (start_warned _ _ _ _ _ _ St) in E as [E1 E2]. destruct W as [W|W]; [apply (proj1 (happens_bad es st1 st' H)); auto|]. eapply IH; eauto.
      * apply act_ext in E; [|exact St]. eapply IH; [exact H|reflexivity| |].
        -- destruct W as [W|W]; auto. left. eapply ext_warned; eauto.
        -- unfold is_start in K at 1. cbn [fst] in K. rewrite St in K. cbn [orb] in K. rewrite (ex_class _ _ E). exact K.
    + destruct (sift es) as [[gs' b']|] eqn:S'; [|discriminate]. destruct (inside t) eqn:In; [|discriminate]. injection S as <- <-.
      unfold inside in In. apply andb_true_iff in In as [I1 I2]. unfold error_action in E. destruct (is_creation_info_tag t); [discriminate I1|]. destruct (is_start_tag t); [discriminate I2|]. cbn [bind] in E.
      match type of E with Ok ?x = _ => assert (Hx : st1 = x) by congruence end. subst st1. eapply IH; [exact H|reflexivity| |exact K].
      left. unfold Warned. cbn. apply log_ne.
    + destruct (sift es) as [[gs' b']|]; discriminate.
Qed.
(** *** without elements, nobody sees it *)
Definition mute (st : pstate) : pstate :=
  {| ps_log := ps_log st; ps_class := ps_class st; ps_cur_log := []; ps_cur := ps_cur st; ps_ci_log := ps_ci_log st; ps_ci := ps_ci st; ps_built := ps_built st |}.
Lemma finish_mute st : ps_class st = None -> finish (mute st) = finish st.
Proof.
  intro C. unfold finish, construct_current_element. change (ps_class (mute st)) with (ps_class st). rewrite C. cbn [bind].
  change (ps_ci_log (mute st)) with (ps_ci_log st). destruct (ps_ci_log st); cbn; reflexivity.
Qed.
Definition of_document (t : tag) : bool := is_creation_info_tag t || tag_eqb t T_SPDXID.
Definition rmap {A B} (f : A -> B) (r : result A) : result B := match r with Ok a => Ok (f a) | Raise e => Raise e end.
Lemma act_mute t n k c st : of_document t = true -> act O t n k c (mute st) = rmap mute (act O t n k c st).
Proof.
  intro D.
  assert (S : forall shown v, set_ci t n shown v (mute st) = rmap mute (set_ci t n shown v st)).
  { intros shown v. unfold set_ci. change (ps_ci (mute st)) with (ps_ci st). destruct (set_value t n shown v (ps_ci st)) as [[ms d]|]; reflexivity. }
  assert (P : forall name v, append_ci name v (mute st) = rmap mute (append_ci name v st)).
  { intros name v. unfold append_ci. change (ps_ci (mute st)) with (ps_ci st). destruct (append_val (assoc name (ps_ci st)) v); reflexivity. }
  destruct t; try discriminate D; cbn [act]; auto.
  - unfold spdx_id_action. change (ps_ci (mute st)) with (ps_ci st). destruct (assoc $"spdx_id" (ps_ci st)); reflexivity.
  - unfold external_document_ref. destruct (re_match ext_doc_ref_re (tk_value k)) as [g|]; [|reflexivity]. destruct (split_on _ _) as [|a [|b [|]]]; try reflexivity.
    destruct (tv_parse_checksum _); [|reflexivity]. cbn [bind]. apply P.
  - destruct (parse_actor (tk_value k)); [|reflexivity]. cbn [bind]. apply P.
Qed.
Lemma act_stray t n k c st st' vk : value_kind t = Some vk -> of_document t = false -> is_start_tag t = false -> ps_class st = None -> act O t n k c st = Ok st' -> Bad st'.
Proof.
  intros V D S K H. left.
  assert (I1 : forall cl x body, ps_class x = None -> in_class cl n x body = Ok st' -> ps_log st' <> []).
  { intros cl x body Kx X. unfold in_class, matches_class in X. rewrite Kx in X. injection X as <-. cbn. apply log_ne. }
  assert (G : forall shown v x, ps_class x = None -> generic_value t n shown v x = Ok st' -> ps_log st' <> []).
  { intros shown v x Kx X. unfold generic_value in X. rewrite S in X. destruct (tag_data_model_field t) as [[[cl|] f]|]; try discriminate X. cbn [bind] in X. eapply I1; eauto. }
  assert (L : forall k0, generic_license O t n k0 st = Ok st' -> ps_log st' <> []).
  { intros k0 X. unfold generic_license in X. destruct (license_value O k0) as [[ms l]|]; [|discriminate]. cbn [bind] in X. eapply (G _ _ (log_cur ms st)); [exact K|exact X]. }
  assert (LL : forall cl name, license_list O cl name n k st = Ok st' -> ps_log st' <> []).
  { intros cl name X. unfold license_list in X. destruct (license_value O k) as [[ms l]|]; [|discriminate]. cbn [bind] in X. eapply (I1 _ (log_cur ms st)); [exact K|exact X]. }
  destruct t; try discriminate D; try discriminate S; try discriminate V; cbn [act] in H;
    try (eapply G; [exact K|exact H]; fail); try (eapply L; exact H; fail); try (eapply LL; exact H; fail);
    try (eapply I1; [exact K|exact H]; fail).
  all: try (destruct (actor_value k); [|discriminate H]; cbn [bind] in H; eapply G; [exact K|exact H]; fail).
  unfold pkg_attribution_text, matches_class in H. rewrite K in H. apply append_cur_ext in H. destruct (ex_log _ _ H) as [m ->]. apply app_ne. cbn. apply log_ne.
Qed.
End WithOracles.
