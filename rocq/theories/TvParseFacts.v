(** How the parser runs on written attributes. *)
From Verif Require Import Py PyFacts PyRe PyReFacts Data Oracles Basics BasicsSpec ActorFacts Json Construct JsonParse JsonSpec JsonRound
  TvWriter TvLexer TvSpec TvTokSpec TvLexFacts TvLexValues TvParser.

(** ** Attributes *)
Definition flat (g : grp) : list token :=
  tag_tok (g_tag g) :: g_val g ::
  match g_com g, comment_tag (g_tag g) with Some c, Some t => [tag_tok t; c] | _, _ => [] end.
Definition flats (gs : list grp) : list token := List.concat (map flat gs).
Lemma flats_app a b : flats (a ++ b) = flats a ++ flats b.
Proof. unfold flats. rewrite map_app, concat_app. reflexivity. Qed.

Section WithOracles.
Variable O : oracles.

Definition Acts (g : grp) (st st' : pstate) : Prop := forall line, act O (g_tag g) line (g_val g) (g_com g) st = Ok st'.
Inductive Runs : list grp -> pstate -> pstate -> Prop :=
| Runs_nil : forall st, Runs [] st st
| Runs_cons : forall g gs st st1 st', Acts g st st1 -> Runs gs st1 st' -> Runs (g :: gs) st st'.
Lemma Runs_app a b st st1 st2 : Runs a st st1 -> Runs b st1 st2 -> Runs (a ++ b) st st2.
Proof. induction 1; cbn [app]; auto. intro H'. econstructor; eauto. Qed.

(** the attribute that is still to be completed *)
Definition Pending (m : pmode) (st st1 : pstate) : Prop :=
  match m with
  | M_Base => st = st1
  | M_Val t tl v => act O t tl v None st = Ok st1
  | M_Comment t tl v c => act O t tl v (Some c) st = Ok st1
  | _ => False
  end.
Lemma step_tag m st st1 t vk line : Pending m st st1 -> value_kind t = Some vk ->
  step O m st (tag_tok t) line = Ok (M_Tag t line, st1).
Proof.
  intros H Hk. unfold tag_tok. destruct m; cbn [Pending] in H; try contradiction; cbn [step].
  - subst. unfold enter. cbn [tk_type]. rewrite Hk. reflexivity.
  - unfold starts_attribute, enter. cbn [tk_type]. rewrite Hk, H. reflexivity.
  - unfold starts_attribute, enter. cbn [tk_type]. rewrite Hk, H. reflexivity.
Qed.
Lemma comment_tag_kind t t' : comment_tag t = Some t' -> value_kind t' = None.
Proof. destruct t; cbn; intro H; try discriminate; injection H as <-; reflexivity. Qed.
Lemma run_groups gs : forall m st st1 st' l, Pending m st st1 -> Runs gs st1 st' -> Forall Good gs -> map fst l = flats gs ->
  run O m st l = Ok st'.
Proof.
  induction gs as [|g gs IH]; intros m st st1 st' l Hp Hr Hg Hl.
  - inversion Hr; subst. destruct l; [|discriminate]. destruct m; cbn [Pending] in Hp; try contradiction; cbn [run at_end]; congruence.
  - inversion Hr as [|? ? ? st2 ? Ha Hr']; subst. inversion Hg as [|? ? Hgood Hg']; subst.
    destruct Hgood as [(vk & Hk & Hv) Hc]. destruct g as [t v c]. cbn [g_tag g_val g_com] in *.
    unfold flats in Hl. cbn [map List.concat] in Hl. fold (flats gs) in Hl. unfold flat in Hl. cbn [g_tag g_val g_com] in Hl.
    destruct l as [|[k1 l1] l]; [discriminate|]. cbn [map fst app] in Hl. injection Hl as -> Hl.
    destruct l as [|[k2 l2] l]; [discriminate|]. cbn [map fst app] in Hl. injection Hl as -> Hl.
    cbn [run]. rewrite (step_tag m st st1 t vk l1 Hp Hk). cbn [bind]. cbn [run step]. rewrite Hk, Hv. cbn [bind].
    destruct c as [c|].
    + destruct Hc as [Hc1 Hc2]. destruct (comment_tag t) as [t'|] eqn:Et; [|congruence]. cbn [app] in Hl.
      destruct l as [|[k3 l3] l]; [discriminate|]. cbn [map fst] in Hl. injection Hl as -> Hl.
      destruct l as [|[k4 l4] l]; [discriminate|]. cbn [map fst] in Hl. injection Hl as -> Hl.
      cbn [run]. change (step O (M_Val t l1 v) st1 (tag_tok t') l3) with
        (if starts_attribute (tag_tok t') then do st <- act O t l1 v None st1; Ok (enter (tag_tok t') l3, st)
         else if match tk_type (tag_tok t'), comment_tag t with TT_TAG c, Some c' => tag_eqb c c' | _, _ => false end
         then Ok (M_CommentTag t l1 v, st1) else recover t l1 (tag_tok t') l3 st1).
      unfold starts_attribute, tag_tok. cbn [tk_type]. rewrite (comment_tag_kind _ _ Et), Et.
      unfold tag_eqb. destruct (tag_eq_dec t' t'); [|congruence]. cbn [bind run step]. rewrite Hc2. cbn [bind].
      apply (IH _ _ st2); auto. exact (Ha l1).
    + apply (IH _ _ st2); auto. exact (Ha l1).
Qed.

(** ** Writing and reading back *)
Definition Steps (w : result pystr) (st st' : pstate) : Prop :=
  exists s gs, w = Ok s /\ ~ In CR s /\ Reads s (flats gs) /\ Forall Good gs /\ Runs gs st st'.
Lemma Steps_nil st : Steps (Ok []) st st.
Proof. exists [], []. split; auto. split; [intros []|]. split; [exact Reads_nil|]. auto using Runs_nil. Qed.
Lemma Steps_LF st : Steps write_separator st st.
Proof. exists [LF], []. split; auto. split; [intros [H|[]]; discriminate|]. split; [exact Reads_LF|]. auto using Runs_nil. Qed.
Lemma Steps_heading u st : has_char LF u = false -> has_char CR u = false -> Steps (Ok (#"#" :: u ++ [LF])) st st.
Proof.
  intros H1 H2. apply has_char_false in H1, H2. exists (#"#" :: u ++ [LF]), []. split; auto. split.
  - intros [K|K]; [discriminate|]. apply in_app_iff in K as [K|[K|[]]]; [contradiction|discriminate].
  - split; [apply Reads_comment; auto|]. split; auto using Runs_nil.
Qed.
Lemma Steps_seq w w' st st1 st2 : Steps w st st1 -> Steps w' st1 st2 -> Steps (do a <- w; do b <- w'; Ok (a ++ b)) st st2.
Proof.
  intros (s & gs & -> & H1 & H2 & H3 & H4) (s' & gs' & -> & K1 & K2 & K3 & K4). exists (s ++ s'), (gs ++ gs').
  split; [reflexivity|]. split; [rewrite in_app_iff; tauto|]. rewrite flats_app.
  split; [apply Reads_app; auto|]. split; [apply Forall_app; auto|]. eapply Runs_app; eauto.
Qed.
Lemma Steps_writes w ws st st1 st2 : Steps w st st1 -> Steps (writes ws) st1 st2 -> Steps (writes (w :: ws)) st st2.
Proof. intros H H'. cbn [writes]. eapply Steps_seq; eauto. Qed.
Lemma Steps_done st : Steps (writes []) st st.
Proof. apply Steps_nil. Qed.
Lemma writes_one w s : w = Ok s -> writes [w] = Ok s.
Proof. intros ->. cbn. rewrite app_nil_r. reflexivity. Qed.
Lemma tag_name_CR t : ~ In CR (tag_name t).
Proof. apply has_char_false. destruct t; reflexivity. Qed.
Lemma Steps_field t vk v k st st' : ValTok v k -> ~ In CR v -> value_kind t = Some vk -> accepts vk (tk_type k) = true ->
  (forall line, act O t line k None st = Ok st') -> Steps (write_value (tag_name t) v) st st'.
Proof.
  intros Hv Hc Hk Ha H. exists (tag_name t ++ $": " ++ v ++ [LF]), [{| g_tag := t; g_val := k; g_com := None |}].
  split; [reflexivity|]. split.
  - rewrite !in_app_iff. intros [K|[K|[K|[K|[]]]]]; [apply tag_name_CR in K; auto| |contradiction|discriminate].
    revert K. apply has_char_false. reflexivity.
  - split; [|split].
    + apply Reads_field. exact Hv.
    + repeat constructor. exists vk. auto.
    + econstructor; [|constructor]. exact H.
Qed.
Lemma Reads_two s1 s2 a b c d : Reads s1 [a; b] -> Reads s2 [c; d] -> Reads (s1 ++ s2) [a; b; c; d].
Proof. intros H H'. change [a; b; c; d] with ([a; b] ++ [c; d]). apply Reads_app; auto. Qed.
(** a value followed by a comment *)
Lemma Steps_field_comment t t' vk v k c kc st st' : ValTok v k -> ~ In CR v -> value_kind t = Some vk -> accepts vk (tk_type k) = true ->
  comment_tag t = Some t' -> ValTok c kc -> ~ In CR c -> accepts K_text_or_line (tk_type kc) = true ->
  (forall line, act O t line k (Some kc) st = Ok st') ->
  Steps (writes [write_value (tag_name t) v; write_value (tag_name t') c]) st st'.
Proof.
  intros Hv Hc Hk Ha Ht Hv' Hc' Ha' H.
  exists ((tag_name t ++ $": " ++ v ++ [LF]) ++ tag_name t' ++ $": " ++ c ++ [LF]), [{| g_tag := t; g_val := k; g_com := Some kc |}].
  split; [unfold write_value; cbn [writes bind]; rewrite !app_nil_r; reflexivity|]. split.
  - assert (F : forall x y, ~ In CR y -> ~ In CR (tag_name x ++ $": " ++ y ++ [LF])).
    { intros x y Hy. rewrite !in_app_iff. intros [K|[K|[K|[K|[]]]]]; [apply tag_name_CR in K; auto| |contradiction|discriminate].
      revert K. apply has_char_false. reflexivity. }
    rewrite in_app_iff. intros [K|K]; revert K; apply F; auto.
  - split; [|split].
    + unfold flats. cbn [map List.concat]. unfold flat. cbn [g_tag g_val g_com]. rewrite Ht, app_nil_r. apply Reads_two; apply Reads_field; auto.
    + repeat constructor; cbn [g_tag g_val g_com]; [exists vk; auto|congruence|auto].
    + econstructor; [|constructor]. exact H.
Qed.

(** ** Dictionaries *)
(** the entries that are present *)
Fixpoint table (l : list (pystr * option tval)) : tdict :=
  match l with
  | [] => []
  | (k, Some v) :: l' => (k, v) :: table l'
  | (_, None) :: l' => table l'
  end.
Lemma table_app a b : table (a ++ b) = table a ++ table b.
Proof. induction a as [|[k [v|]] a IH]; cbn [app table]; auto. rewrite IH. reflexivity. Qed.
Lemma table_fresh k l : str_in k (map fst l) = false -> assoc k (table l) = None.
Proof.
  induction l as [|[k' v] l IH]; auto. cbn [map fst]. intro H. unfold str_in in H. cbn [existsb] in H. apply orb_false_iff in H as [H1 H2].
  destruct v; cbn [table assoc]; [rewrite H1|]; auto.
Qed.
Lemma dict_set_new {A} k (v : A) d : assoc k d = None -> dict_set k v d = d ++ [(k, v)].
Proof.
  induction d as [|[k' v'] d IH]; cbn [assoc dict_set app]; auto. destruct (str_eqb k k'); [discriminate|]. intro H. rewrite IH; auto.
Qed.
Lemma dict_set_last {A} k (v w : A) d : assoc k d = None -> dict_set k v (d ++ [(k, w)]) = d ++ [(k, v)].
Proof.
  induction d as [|[k' v'] d IH]; cbn [assoc dict_set app].
  - rewrite str_eqb_refl. reflexivity.
  - destruct (str_eqb k k'); [discriminate|]. intro H. rewrite IH; auto.
Qed.
Lemma assoc_last {A} k (w : A) d : assoc k d = None -> assoc k (d ++ [(k, w)]) = Some w.
Proof.
  induction d as [|[k' v'] d IH]; cbn [assoc app].
  - rewrite str_eqb_refl. reflexivity.
  - destruct (str_eqb k k'); [discriminate|auto].
Qed.
Definition keys_distinct (l : list (pystr * option tval)) : bool :=
  (fix go l := match l with [] => true | k :: l' => negb (str_in k l') && go l' end) (map fst l).
Lemma table_assoc k l : keys_distinct l = true -> assoc k (table l) = match assoc k l with Some v => v | None => None end.
Proof.
  unfold keys_distinct. induction l as [|[k' v] l IH]; cbn [map fst]; intro H; auto. apply andb_true_iff in H as [H1 H2].
  apply negb_true_iff in H1. cbn [assoc]. destruct (str_eqb k k') eqn:E.
  - apply str_eqb_eq in E. subst k'. destruct v; cbn [table assoc]; [rewrite str_eqb_refl; reflexivity|apply table_fresh; auto].
  - destruct v; cbn [table assoc]; rewrite ?E; auto.
Qed.
Lemma table_known keys l : forallb (fun k => str_in k keys) (map fst l) = true ->
  find (fun kv => negb (str_in (fst kv) keys)) (table l) = None.
Proof.
  induction l as [|[k [v|]] l IH]; cbn [map fst forallb table find]; auto; intro H; apply andb_true_iff in H as [H1 H2]; auto.
  rewrite H1. cbn [negb]. auto.
Qed.
Lemma kwargs_table {A} cls req opt l (c : chk A) : keys_distinct l = true -> forallb (fun k => str_in k (req ++ opt)) (map fst l) = true ->
  forallb (fun k => match assoc k l with Some (Some _) => true | _ => false end) req = true ->
  kwargs cls req opt (table l) c = construct cls c.
Proof.
  intros H1 H2 H3. unfold kwargs. rewrite table_known by exact H2.
  assert (E : filter (fun k => match assoc k (table l) with Some _ => false | None => true end) req = []).
  { clear H2. induction req as [|k req IH]; auto. cbn [forallb] in H3. apply andb_true_iff in H3 as [H3 H4]. cbn [filter].
    rewrite table_assoc by auto. destruct (assoc k l) as [[v|]|]; try discriminate. apply IH; auto. }
  rewrite E. reflexivity.
Qed.

(** ** States *)
(** no element under construction *)
Definition base (ci : tdict) (b : built) : pstate :=
  {| ps_log := []; ps_class := None; ps_cur_log := []; ps_cur := []; ps_ci_log := []; ps_ci := ci; ps_built := b |}.
(** an element of class c under construction *)
Definition est (b : built) (ci : tdict) (c : clazz) (l : list (pystr * option tval)) : pstate :=
  {| ps_log := []; ps_class := Some c; ps_cur_log := []; ps_cur := table l; ps_ci_log := []; ps_ci := ci; ps_built := b |}.
(** completing the current element gives the elements b *)
Definition Closed (st : pstate) (ci : tdict) (b : built) : Prop := ps_ci st = ci /\ construct_current_element st = Ok (base ci b).
Lemma Closed_init st ci b c : Closed st ci b -> initialize_new_current_element c st = Ok (est b ci c []).
Proof. intros [_ H]. unfold initialize_new_current_element. rewrite H. reflexivity. Qed.
Lemma clazz_eqb_refl c : clazz_eqb c c = true.
Proof. unfold clazz_eqb. destruct (clazz_eq_dec c c); congruence. Qed.
Lemma in_class_est b ci c line l f : in_class c line (est b ci c l) f = f (est b ci c l).
Proof. unfold in_class, matches_class. cbn [ps_class est]. rewrite clazz_eqb_refl. reflexivity. Qed.
Lemma set_cur_est b ci c l t line shown v : str_in (get_property_name t) (map fst l) = false ->
  set_cur t line shown (Ok v) (est b ci c l) = Ok (est b ci c (l ++ [(get_property_name t, Some v)])).
Proof.
  intro H. unfold set_cur, set_value. cbn [ps_cur est]. rewrite table_fresh by exact H. cbn [bind].
  unfold log_cur, with_cur, est. cbn. rewrite dict_set_new by (apply table_fresh; exact H). rewrite table_app. reflexivity.
Qed.
Lemma with_cur_est b ci c l k v : str_in k (map fst l) = false ->
  with_cur (dict_set k v (table l)) (est b ci c l) = est b ci c (l ++ [(k, Some v)]).
Proof. intro H. unfold with_cur, est. cbn. rewrite dict_set_new by (apply table_fresh; exact H). rewrite table_app. reflexivity. Qed.

End WithOracles.
