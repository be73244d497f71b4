(** The tag-value parser stops with a KeyError only at malformed relationships. *)
From Verif Require Import Py Data Oracles Basics BasicsSpec JsonSpec TvWriter TvLexer TvParser TvSpec TvTokSpec.
From Verif Require Import PyFacts TvErrors TvRaises.

Lemma opens_starts k : opens (tk_type k) = starts_attribute k.
Proof. unfold starts_attribute. destruct (tk_type k) as [[]| | | | | | | | | | |]; reflexivity. Qed.
Definition dead (q : list ttype) : bool := negb (complete q) && negb (cut_off q).
(** the tokens seen since the tag of a relationship *)
Inductive Has : pmode -> list ttype -> Prop :=
| Has_tag n : Has (M_Tag T_Relationship n) []
| Has_val n v : Has (M_Val T_Relationship n v) [TT_LINE]
| Has_ctag n v : Has (M_CommentTag T_Relationship n v) [TT_LINE; TT_TAG T_RelationshipComment]
| Has_com n v c : accepts K_text_or_line (tk_type c) = true -> Has (M_Comment T_Relationship n v c) [TT_LINE; TT_TAG T_RelationshipComment; tk_type c]
| Has_err n q : dead q = true -> Has (M_Error T_Relationship n) q.
Ltac kinds b := destruct b as [[]| | | | | | | | | | |].
Lemma dead_more q x : dead q = true -> dead (q ++ [x]) = true.
Proof.
  unfold dead. destruct q as [|a [|b [|c [|d q]]]]; cbn [app]; intro H; try discriminate H.
  - destruct a; try reflexivity. discriminate H.
  - destruct a; try reflexivity. kinds b; try reflexivity. discriminate H.
  - destruct a; try reflexivity. kinds b; try reflexivity. destruct c; try reflexivity.
  - destruct a; try reflexivity. kinds b; try reflexivity. destruct c; reflexivity.
Qed.
Section WithOracles.
Variable O : oracles.
Lemma step_has m st k n q : Has m q -> opens (tk_type k) = false -> exists m', step O m st k n = Ok (m', st) /\ Has m' (q ++ [tk_type k]).
Proof.
  intros H E. pose proof E as E'. rewrite opens_starts in E'. destruct H as [n0|n0 v|n0 v|n0 v c A|n0 q D]; cbn [step value_kind comment_tag]; unfold recover, has_error_rule; try rewrite E'.
  - destruct (tk_type k) as [t| | | | | | | | | | |] eqn:T; cbn [accepts]; eexists; (split; [reflexivity|]); cbn [app]; constructor; reflexivity.
  - destruct (tk_type k) as [t| | | | | | | | | | |] eqn:T; try (eexists; split; [reflexivity|]; constructor; reflexivity).
    unfold tag_eqb. destruct (tag_eq_dec t T_RelationshipComment) as [->|N]; eexists; (split; [reflexivity|]); [constructor|]. constructor. destruct t; try reflexivity. contradiction.
  - destruct (accepts K_text_or_line (tk_type k)) eqn:A; eexists; (split; [reflexivity|]); cbn [app]; [constructor; exact A|]. constructor.
    destruct (tk_type k); try reflexivity; discriminate A.
  - eexists. split; [reflexivity|]. constructor. cbn [app]. unfold dead. destruct (tk_type c); reflexivity.
  - eexists. split; [reflexivity|]. constructor. apply dead_more. exact D.
Qed.
Definition Ct (m : pmode) : Prop := match m with M_CommentTag t _ _ => t <> T_SPDXID | _ => True end.
Definition bare_id (m : pmode) : bool := match m with M_Tag T_SPDXID _ => true | _ => false end.
Lemma has_rule t : t <> T_SPDXID -> has_error_rule t = true.
Proof. destruct t; try reflexivity. contradiction. Qed.
Lemma step_opens m st k n : Ct m -> bare_id m = false -> opens (tk_type k) = true ->
  (exists e, step O m st k n = Raise e) \/ exists st', step O m st k n = Ok (enter k n, st').
Proof.
  intros C S E. pose proof E as E'. rewrite opens_starts in E'.
  assert (B : forall r : result pstate, (exists e, (do st <- r; Ok (enter k n, st)) = Raise e) \/ exists st', (do st <- r; Ok (enter k n, st)) = Ok (enter k n, st'))
    by (intros [x|e]; cbn [bind]; eauto).
  assert (V : forall vk, accepts vk (tk_type k) = false) by (intros []; destruct (tk_type k); try reflexivity; discriminate E).
  assert (R : forall t tl, t <> T_SPDXID -> (exists e, recover t tl k n st = Raise e) \/ exists st', recover t tl k n st = Ok (enter k n, st'))
    by (intros t tl Z; unfold recover; rewrite E', (has_rule t Z); apply B).
  destruct m as [|t tl|t tl v|t tl v|t tl v c|tl|tl|t tl]; cbn [step]; try rewrite E'; eauto.
  - destruct (value_kind t) as [vk|]; [rewrite V|]; apply R; intros ->; discriminate S.
  - rewrite V. apply R. exact C.
Qed.
Lemma enter_ct k n : Ct (enter k n).
Proof. unfold enter. destruct (tk_type k); try exact I. destruct (value_kind t); exact I. Qed.
Lemma enter_bare k n : bare_id (enter k n) = true -> tk_type k = TT_TAG T_SPDXID.
Proof. unfold enter. destruct (tk_type k) as [[]| | | | | | | | | | |]; cbn; try discriminate. reflexivity. Qed.
Lemma recover_ct t tl k n st m' st' : recover t tl k n st = Ok (m', st') -> Ct m' /\ (bare_id m' = true -> tk_type k = TT_TAG T_SPDXID).
Proof.
  unfold recover. destruct (has_error_rule t); [destruct (starts_attribute k)|].
  - destruct (error_action t tl st); cbn [bind]; intro H; [|discriminate]. assert (M : m' = enter k n) by congruence. subst. split; [apply enter_ct|apply enter_bare].
  - intro H. injection H as <- <-. split; [exact I|discriminate].
  - intro H. injection H as <- <-. split; [exact I|discriminate].
Qed.
Lemma step_ct m st k n m' st' : step O m st k n = Ok (m', st') -> Ct m -> Ct m' /\ (bare_id m' = true -> tk_type k = TT_TAG T_SPDXID).
Proof.
  assert (B : forall r : result pstate, (do st <- r; Ok (enter k n, st)) = Ok (m', st') -> Ct m' /\ (bare_id m' = true -> tk_type k = TT_TAG T_SPDXID)).
  { intros [x|e] H; cbn [bind] in H; [|discriminate]. assert (M : m' = enter k n) by congruence. subst. split; [apply enter_ct|apply enter_bare]. }
  intros H C. destruct m as [|t tl|t tl v|t tl v|t tl v c|tl|tl|t tl]; cbn [step] in H.
  - apply (B (Ok st)). exact H.
  - destruct (match value_kind t with Some vk => accepts vk (tk_type k) | None => false end); [|eapply recover_ct; exact H].
    injection H as <- <-. split; [exact I|discriminate].
  - destruct (starts_attribute k); [eapply B; exact H|]. destruct (match tk_type k with TT_TAG c => _ | _ => _ end) eqn:X; [|eapply recover_ct; exact H].
    injection H as <- <-. split; [|discriminate]. intros ->. destruct (tk_type k); discriminate X.
  - destruct (accepts _ _); [|eapply recover_ct; exact H]. injection H as <- <-. split; [exact I|discriminate].
  - destruct (starts_attribute k); [eapply B; exact H|eapply recover_ct; exact H].
  - destruct (starts_attribute k); [apply (B (Ok (unknown_tag_action tl st))); exact H|]. destruct (unknown_accepts _); injection H as <- <-; (split; [exact I|discriminate]).
  - destruct (starts_attribute k); [apply (B (Ok (unknown_tag_action tl st))); exact H|]. injection H as <- <-; (split; [exact I|discriminate]).
  - destruct (starts_attribute k); [eapply B; exact H|]. injection H as <- <-. split; [exact I|discriminate].
Qed.

(** ** A malformed relationship is not read *)
Definition ttypes (l : list (token * N)) : list ttype := map (fun x => tk_type (fst x)) l.
Lemma has_fails l : forall m st q, Has m q -> complete (q ++ own (ttypes l)) = false -> (existsb opens (ttypes l) = false -> cut_off (q ++ own (ttypes l)) = false) ->
  exists e, run O m st l = Raise e.
Proof.
  induction l as [|[k n] l IH]; intros m st q H C U; cbn [ttypes map fst own existsb] in C, U.
  - rewrite app_nil_r in *. specialize (U eq_refl). destruct H; try discriminate; cbn [run at_end]; [destruct (tk_type c); discriminate|]. eexists. reflexivity.
  - change (map (fun x => tk_type (fst x)) l) with (ttypes l) in *. rewrite run_cons. destruct (opens (tk_type k)) eqn:E.
    + rewrite app_nil_r in *. pose proof E as E'. rewrite opens_starts in E'.
      destruct H; try discriminate; cbn [step value_kind]; unfold recover, has_error_rule; try rewrite E'.
      * assert (V : accepts K_line (tk_type k) = false) by (destruct (tk_type k); try reflexivity; discriminate E). rewrite V. eexists. reflexivity.
      * assert (V : accepts K_text_or_line (tk_type k) = false) by (destruct (tk_type k); try reflexivity; discriminate E). rewrite V. eexists. reflexivity.
      * destruct (tk_type c); discriminate.
      * eexists. reflexivity.
    + destruct (step_has m st k n q H E) as (m' & -> & H'). cbn [bind]. cbn [orb] in U. eapply IH; [exact H'| |]; rewrite <- app_assoc; assumption.
Qed.
Lemma malformed_fails pre : forall m st k n l, tk_type k = TT_TAG T_Relationship -> Malformed (ttypes l) -> Ct m ->
  (pre = [] -> bare_id m = false) -> (forall b x, pre = b ++ [x] -> tk_type (fst x) <> TT_TAG T_SPDXID) ->
  exists e, run O m st (pre ++ (k, n) :: l) = Raise e.
Proof.
  induction pre as [|[k0 n0] pre IH]; intros m st k n l K M C Z Y; cbn [app]; rewrite run_cons.
  - destruct (step_opens m st k n C (Z eq_refl)) as [(e & ->)|(st' & ->)]; [rewrite K; reflexivity|eexists; reflexivity|]. cbn [bind].
    unfold enter. rewrite K. cbn [value_kind]. destruct M as [M1 M2]. eapply has_fails; [constructor| |]; assumption.
  - destruct (step O m st k0 n0) as [[m' st']|e] eqn:E; [|eexists; reflexivity]. cbn [bind]. destruct (step_ct _ _ _ _ _ _ E C) as [C' B].
    apply IH; auto.
    + intros ->. destruct (bare_id m') eqn:X; [|reflexivity]. destruct (Y [] (k0, n0) eq_refl). apply B. reflexivity.
    + intros b x ->. apply (Y ((k0, n0) :: b) x eq_refl).
Qed.

(** ** The KeyError comes from a malformed relationship *)
Hypothesis HO : forall s e, o_lic_parse O s = Raise e -> exists m, e = EExpr m.
Definition Since (m : pmode) (seen : list ttype) : Prop :=
  exists before q, seen = before ++ TT_TAG T_Relationship :: q /\ existsb opens q = false /\ Has m q.
Definition about_relationship (m : pmode) : bool :=
  match m with M_Tag T_Relationship _ | M_Val T_Relationship _ _ | M_CommentTag T_Relationship _ _ | M_Comment T_Relationship _ _ _ | M_Error T_Relationship _ => true | _ => false end.
Lemma existsb_snoc {A} (f : A -> bool) l x : existsb f (l ++ [x]) = existsb f l || f x.
Proof. rewrite existsb_app. cbn. rewrite orb_false_r. reflexivity. Qed.
Lemma enter_about k n : about_relationship (enter k n) = true -> tk_type k = TT_TAG T_Relationship /\ enter k n = M_Tag T_Relationship n.
Proof. unfold enter. destruct (tk_type k) as [[]| | | | | | | | | | |]; cbn; try discriminate. auto. Qed.
Lemma recover_about t tl k n st m' st' : t <> T_Relationship -> recover t tl k n st = Ok (m', st') -> about_relationship m' = true -> m' = enter k n.
Proof.
  intros T. unfold recover. destruct (has_error_rule t); [destruct (starts_attribute k)|].
  - destruct (error_action t tl st); cbn [bind]; intros H A; [congruence|discriminate].
  - intros H A. injection H as <- <-. destruct t; try discriminate A. contradiction.
  - intros H A. injection H as <- <-. discriminate A.
Qed.
Lemma not_about t : (match t with T_Relationship => true | _ => false end) = false -> t <> T_Relationship.
Proof. intros H ->. discriminate. Qed.
Lemma step_about m st k n m' st' : about_relationship m = false -> step O m st k n = Ok (m', st') -> about_relationship m' = true -> m' = enter k n.
Proof.
  assert (B : forall r : result pstate, (do st <- r; Ok (enter k n, st)) = Ok (m', st') -> m' = enter k n) by (intros [x|e] H; cbn [bind] in H; [congruence|discriminate]).
  intros N H A. destruct m as [|t tl|t tl v|t tl v|t tl v c|tl|tl|t tl]; cbn [step about_relationship] in *.
  - congruence.
  - destruct (match value_kind t with Some vk => accepts vk (tk_type k) | None => false end); [|eapply recover_about; [apply not_about; exact N|exact H|exact A]].
    injection H as <- <-. cbn in A. rewrite A in N. discriminate.
  - destruct (starts_attribute k); [eapply B; exact H|]. destruct (match tk_type k with TT_TAG c => _ | _ => _ end) eqn:X; [|eapply recover_about; [apply not_about; exact N|exact H|exact A]].
    injection H as <- <-. cbn in A. rewrite A in N. discriminate.
  - destruct (accepts _ _); [|eapply recover_about; [apply not_about; exact N|exact H|exact A]]. injection H as <- <-. cbn in A. rewrite A in N. discriminate.
  - destruct (starts_attribute k); [eapply B; exact H|eapply recover_about; [apply not_about; exact N|exact H|exact A]].
  - destruct (starts_attribute k); [congruence|]. destruct (unknown_accepts _); injection H as <- <-; discriminate A.
  - destruct (starts_attribute k); [congruence|]. injection H as <- <-; discriminate A.
  - destruct (starts_attribute k); [eapply B; exact H|]. injection H as <- <-. cbn in A. rewrite A in N. discriminate.
Qed.
Lemma error_action_other t line st : t <> T_Relationship -> Clean st -> Safe (error_action t line st).
Proof.
  intros T C. unfold error_action. cbv zeta. destruct (is_creation_info_tag t); [apply clean_log_ci; exact C|].
  destruct (is_start_tag t) eqn:E; [|apply clean_log_cur; exact C].
  destruct t; try discriminate E; cbn [tag_data_model_field]; try contradiction;
    (apply safe_bind; [apply initialize_safe; exact C|intros st' C'; apply clean_log_cur; exact C']).
Qed.
Lemma own_all q : existsb opens q = false -> own q = q.
Proof. induction q as [|x q IH]; cbn; [reflexivity|]. destruct (opens x); [discriminate|]. intro H. cbn in H. rewrite IH; auto. Qed.
Lemma own_app q x r : existsb opens q = false -> opens x = true -> own (q ++ x :: r) = q.
Proof. intros H X. induction q as [|y q IH]; cbn in *; [rewrite X; reflexivity|]. destruct (opens y); [discriminate|]. rewrite IH; auto. Qed.
Lemma has_about m q : Has m q -> Ct m /\ bare_id m = false.
Proof. destruct 1; cbn; split; auto; discriminate. Qed.
Lemma parsing_bind k n r e : Safe r -> (do st <- r; Ok (enter k n, st)) = Raise e -> Parsing e.
Proof. destruct r as [st|x]; cbn; intros S H; [discriminate|]. injection H as <-. exact S. Qed.
Lemma recover_other t tl k n st e : t <> T_Relationship -> Clean st -> recover t tl k n st = Raise e -> Parsing e.
Proof.
  intros T C. unfold recover. destruct (has_error_rule t); [|discriminate]. destruct (starts_attribute k); [|discriminate]. apply parsing_bind. apply error_action_other; assumption.
Qed.
Lemma step_other m st k n e : about_relationship m = false -> ModeOk m -> Clean st -> step O m st k n = Raise e -> Parsing e.
Proof.
  intros N M C H. destruct m as [|t tl|t tl v|t tl v|t tl v c|tl|tl|t tl]; cbn [step about_relationship] in *; try (apply not_about in N).
  - discriminate.
  - destruct (match value_kind t with Some vk => accepts vk (tk_type k) | None => false end); [discriminate|]. eapply recover_other; eassumption.
  - destruct (starts_attribute k).
    + destruct M as [(vk & A & B) D]. eapply parsing_bind; [|exact H]. eapply act_safe; eauto.
    + destruct (match tk_type k with TT_TAG c => _ | _ => _ end); [discriminate|]. eapply recover_other; eassumption.
  - destruct (accepts _ _); [discriminate|]. eapply recover_other; eassumption.
  - destruct (starts_attribute k); [|eapply recover_other; eassumption]. destruct M as [(vk & A & B) D]. eapply parsing_bind; [|exact H]. eapply act_safe; eauto.
  - destruct (starts_attribute k); [discriminate|]. destruct (unknown_accepts _); discriminate.
  - destruct (starts_attribute k); discriminate.
  - destruct (starts_attribute k); [|discriminate]. eapply parsing_bind; [|exact H]. apply error_action_other; assumption.
Qed.
Definition At (ts : list ttype) : Prop := exists before after, ts = before ++ TT_TAG T_Relationship :: after /\ Malformed after.
Lemma step_key m st k n e seen l : Since m seen -> ModeOk m -> Clean st -> step O m st k n = Raise e -> Parsing e \/ KeyRel e /\ At (seen ++ tk_type k :: l).
Proof.
  intros (before & q & -> & Q & H) M C R. destruct (opens (tk_type k)) eqn:E.
  2: { destruct (step_has m st k n q H E) as (m' & X & _). congruence. }
  pose proof E as E'. rewrite opens_starts in E'.
  assert (B : complete q = false -> At ((before ++ TT_TAG T_Relationship :: q) ++ tk_type k :: l)).
  { intro Z. exists before, (q ++ tk_type k :: l). split; [rewrite <- app_assoc; reflexivity|]. split; [rewrite own_app; assumption|]. intro U. rewrite existsb_app in U. cbn in U. rewrite E in U.
    rewrite orb_true_r in U. discriminate. }
  assert (K : forall tl, recover T_Relationship tl k n st = Raise e -> KeyRel e) by (intros tl X; unfold recover, has_error_rule in X; rewrite E' in X; cbn in X; injection X as <-; reflexivity).
  destruct H as [n0|n0 v|n0 v|n0 v c A|n0 q D]; cbn [step value_kind] in R; try rewrite E' in R.
  - assert (V : accepts K_line (tk_type k) = false) by (destruct (tk_type k); try reflexivity; discriminate E). rewrite V in R. right. split; [eapply K; exact R|]. apply B. reflexivity.
  - left. destruct M as [(vk & A & X) D]. eapply parsing_bind; [|exact R]. eapply act_safe; eauto.
  - assert (V : accepts K_text_or_line (tk_type k) = false) by (destruct (tk_type k); try reflexivity; discriminate E). rewrite V in R. right. split; [eapply K; exact R|]. apply B. reflexivity.
  - left. destruct M as [(vk & A' & X) D]. eapply parsing_bind; [|exact R]. eapply act_safe; eauto.
  - right. split; [cbn in R; injection R as <-; reflexivity|]. apply B. unfold dead in D. apply andb_prop in D as [D _]. destruct (complete q); [discriminate|reflexivity].
Qed.
Lemma end_key m st e seen : (about_relationship m = true -> Since m seen) -> ModeOk m -> Clean st -> at_end O m st = Raise e -> Parsing e \/ KeyRel e /\ At seen.
Proof.
  intros SI M C R. destruct m as [|t tl|t tl v|t tl v|t tl v c|tl|tl|t tl]; cbn [at_end] in R; try discriminate R.
  - left. destruct M as [(vk & A & X) D]. assert (Z : Safe (act O t tl v None st)) by (eapply act_safe; eauto). rewrite R in Z. exact Z.
  - left. destruct M as [(vk & A & X) D]. assert (Z : Safe (act O t tl v (Some c) st)) by (eapply act_safe; eauto). rewrite R in Z. exact Z.
  - destruct (tag_eq_dec t T_Relationship) as [->|N].
    + right. split; [cbn in R; injection R as <-; reflexivity|]. destruct (SI eq_refl) as (before & q & -> & Q & H). inversion H as [| | | |n0 q0 D]; subst.
      unfold dead in D. apply andb_prop in D as [D1 D2]. exists before, q. split; [reflexivity|]. unfold Malformed. rewrite (own_all q Q).
      split; [destruct (complete q); [discriminate|reflexivity]|]. intros _. destruct (cut_off q); [discriminate|reflexivity].
    + left. assert (Z : Safe (error_action t tl st)) by (apply error_action_other; assumption). rewrite R in Z. exact Z.
Qed.
Lemma run_key l : forall m st seen e, ModeOk m -> Clean st -> Forall (fun x => Sound (fst x)) l -> (about_relationship m = true -> Since m seen) ->
  run O m st l = Raise e -> Parsing e \/ KeyRel e /\ At (seen ++ ttypes l).
Proof.
  induction l as [|[k n] l IH]; intros m st seen e M C F SI R.
  - cbn [ttypes map]. rewrite app_nil_r. eapply end_key; eassumption.
  - apply Forall_cons_iff in F as [F1 F2]. rewrite run_cons in R. pose proof (step_ok O HO m st k n M C F1) as SO.
    change (ttypes ((k, n) :: l)) with (tk_type k :: ttypes l). destruct (step O m st k n) as [[m' st']|x] eqn:E; cbn [bind] in R.
    + destruct SO as [M' C']. replace (seen ++ tk_type k :: ttypes l) with ((seen ++ [tk_type k]) ++ ttypes l) by (rewrite <- app_assoc; reflexivity).
      eapply IH; [exact M'|exact C'|exact F2| |exact R]. intro A. destruct (about_relationship m) eqn:Am.
      * destruct (SI eq_refl) as (before & q & -> & Q & H). destruct (opens (tk_type k)) eqn:X.
        -- destruct (has_about m q H) as [Hc Hb]. destruct (step_opens m st k n Hc Hb X) as [(e' & Z)|(st2 & Z)]; [congruence|]. assert (m' = enter k n) by congruence. subst m'.
           destruct (enter_about k n A) as [T ->]. exists (before ++ TT_TAG T_Relationship :: q), []. rewrite T. split; [reflexivity|]. split; [reflexivity|constructor].
        -- destruct (step_has m st k n q H X) as (m2 & Z & H'). assert (m' = m2) by congruence. subst m2. exists before, (q ++ [tk_type k]). split; [rewrite <- app_assoc; reflexivity|].
           split; [rewrite existsb_snoc, Q, X; reflexivity|exact H'].
      * assert (m' = enter k n) by (eapply step_about; eassumption). subst m'. destruct (enter_about k n A) as [T ->]. exists seen, []. rewrite T. split; [reflexivity|]. split; [reflexivity|constructor].
    + assert (x = e) by congruence. subst x. destruct (about_relationship m) eqn:Am; [eapply step_key; eauto|]. left. eapply step_other; eassumption.
Qed.
Theorem file_raises text e : tv_parse_from_file O text = Raise e ->
  (exists ms, e = EParsing ms)
  \/ e = EKey $"Relationship" /\ exists before after, token_types text = before ++ TT_TAG T_Relationship :: after /\ Malformed after.
Proof.
  intro H. unfold tv_parse_from_file, tv_parse in H. destruct (run O M_Base init_state (tokenize (universal_newlines text))) as [st|x] eqn:R; cbn [bind] in H.
  - left. pose proof (run_calm O HO (tokenize (universal_newlines text)) M_Base init_state I) as K. rewrite R in K. pose proof (finish_calm st) as F. rewrite H in F. apply F.
    apply K; [split; apply listed_nil|apply lex_sound].
  - assert (x = e) by congruence. subst x. eapply (run_key _ M_Base init_state []) in R; [exact R|exact I|split; apply listed_nil|apply lex_sound|discriminate].
Qed.
Theorem malformed_not_read text before after : token_types text = before ++ TT_TAG T_Relationship :: after -> Malformed after ->
  (forall b, before <> b ++ [TT_TAG T_SPDXID]) -> exists e, tv_parse_from_file O text = Raise e.
Proof.
  intros E M Z. unfold tv_parse_from_file, tv_parse, token_types in *. set (l := tokenize (universal_newlines text)) in *.
  apply map_eq_app in E as (pre & rest & El & <- & E). destruct rest as [|[k n] rest]; [discriminate|]. cbn [map fst] in E.
  assert (K : tk_type k = TT_TAG T_Relationship) by congruence. assert (A : ttypes rest = after) by (unfold ttypes; congruence). subst after.
  destruct (malformed_fails pre M_Base init_state k n rest K M I) as (e & R).
  - reflexivity.
  - intros b x -> X. apply (Z (ttypes b)). unfold ttypes. rewrite map_app. cbn. rewrite X. reflexivity.
  - rewrite El, R. eexists. reflexivity.
Qed.
End WithOracles.
