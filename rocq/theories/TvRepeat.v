(** Repeated tags: the parser never forgets a message or a value of the current element. *)
From Verif Require Import Py PyFacts PyRe Data Oracles Basics BasicsSpec Json Construct JsonConv JsonParse JsonSpec
  TvWriter TvLexer TvSpec TvTokSpec TvLexFacts TvLexValues TvParser TvParseFacts TvErrors.

(** ** What is kept *)
Definition has {A} (k : pystr) (d : list (pystr * A)) : Prop := assoc k d <> None.
Lemma has_set_same {A} k (v : A) d : has k (dict_set k v d).
Proof. unfold has. rewrite assoc_dict_set_same. discriminate. Qed.
Lemma has_set {A} k k' (v : A) d : has k d -> has k (dict_set k' v d).
Proof.
  intro H. destruct (str_eqb k k') eqn:E.
  - apply str_eqb_eq in E. subst k'. apply has_set_same.
  - apply str_eqb_neq in E. unfold has. rewrite assoc_dict_set_other; auto.
Qed.
(** st' is st with more messages and more values *)
Record Ext (st st' : pstate) : Prop := {
  ex_log : exists m, ps_log st' = ps_log st ++ m;
  ex_class : ps_class st' = ps_class st;
  ex_cur_log : exists m, ps_cur_log st' = ps_cur_log st ++ m;
  ex_cur : forall k, has k (ps_cur st) -> has k (ps_cur st');
  ex_ci_log : exists m, ps_ci_log st' = ps_ci_log st ++ m;
  ex_ci : forall k, has k (ps_ci st) -> has k (ps_ci st') }.
Lemma Ext_refl st : Ext st st.
Proof. constructor; auto; exists []; rewrite app_nil_r; auto. Qed.
Lemma Ext_trans a b c : Ext a b -> Ext b c -> Ext a c.
Proof.
  intros [(m1 & A1) A2 (m2 & A3) A4 (m3 & A5) A6] [(n1 & B1) B2 (n2 & B3) B4 (n3 & B5) B6]. constructor; auto; try congruence.
  - exists (m1 ++ n1). rewrite B1, A1, app_assoc. reflexivity.
  - exists (m2 ++ n2). rewrite B3, A3, app_assoc. reflexivity.
  - exists (m3 ++ n3). rewrite B5, A5, app_assoc. reflexivity.
Qed.
Lemma Ext_log m st : Ext st (log m st).
Proof. constructor; cbn; auto; try (exists []; rewrite app_nil_r; auto; fail). exists m. auto. Qed.
Lemma Ext_log_cur m st : Ext st (log_cur m st).
Proof. constructor; cbn; auto; try (exists []; rewrite app_nil_r; auto; fail). exists m. auto. Qed.
Lemma Ext_log_ci m st : Ext st (log_ci m st).
Proof. constructor; cbn; auto; try (exists []; rewrite app_nil_r; auto; fail). exists m. auto. Qed.
Lemma Ext_cur k v st : Ext st (with_cur (dict_set k v (ps_cur st)) st).
Proof. constructor; cbn; auto; try (exists []; rewrite app_nil_r; auto; fail). intros. apply has_set. auto. Qed.
Lemma Ext_cur_same st : Ext st (with_cur (ps_cur st) st).
Proof. constructor; cbn; auto; try (exists []; rewrite app_nil_r; auto; fail). Qed.
Lemma Ext_ci k v st : Ext st (with_ci (dict_set k v (ps_ci st)) st).
Proof. constructor; cbn; auto; try (exists []; rewrite app_nil_r; auto; fail). intros. apply has_set. auto. Qed.
Lemma Ext_ci_same st : Ext st (with_ci (ps_ci st) st).
Proof. constructor; cbn; auto; try (exists []; rewrite app_nil_r; auto; fail). Qed.

(** a message that will be raised *)
Definition Bad (st : pstate) : Prop := ps_log st <> [] \/ ps_ci_log st <> [] \/ (ps_cur_log st <> [] /\ ps_class st <> None).
Lemma app_ne {A} (l m : list A) : l <> [] -> l ++ m <> [].
Proof. destruct l; [congruence|discriminate]. Qed.
Lemma Ext_Bad st st' : Ext st st' -> Bad st -> Bad st'.
Proof.
  intros [(m1 & A1) A2 (m2 & A3) A4 (m3 & A5) A6] [H|[H|[H K]]]; [left|right; left|right; right; split]; rewrite ?A1, ?A3, ?A5, ?A2; auto using app_ne.
Qed.

(** ** Setting values *)
Lemma set_value_cases t line shown v d ms d' : set_value t line shown v d = Ok (ms, d') ->
  (has (get_property_name t) d /\ ms = [multiple_values t line] /\ d' = d)
  \/ (assoc (get_property_name t) d = None /\ exists x, v = Ok x /\ ms = [] /\ d' = dict_set (get_property_name t) x d)
  \/ (assoc (get_property_name t) d = None /\ (exists m, ms = [m]) /\ d' = d).
Proof.
  unfold set_value, has. destruct (assoc (get_property_name t) d) eqn:E.
  - intro H. injection H as <- <-. left. split; [discriminate|]. auto.
  - destruct v as [x|[]]; intro H; try discriminate H; injection H as <- <-; right; eauto 8.
Qed.
Lemma set_cur_ext t line shown v st st' : set_cur t line shown v st = Ok st' ->
  Ext st st' /\ (has (get_property_name t) (ps_cur st') \/ ps_cur_log st' <> []) /\ (has (get_property_name t) (ps_cur st) -> ps_cur_log st' <> []).
Proof.
  unfold set_cur. destruct (set_value t line shown v (ps_cur st)) as [[ms d]|] eqn:E; [|discriminate]. cbn [bind]. intro H. injection H as <-.
  assert (X : forall m : pystr, ps_cur_log st ++ [m] <> []) by (intros m K; apply app_eq_nil in K as [_ K]; discriminate).
  destruct (set_value_cases _ _ _ _ _ _ _ E) as [(H1 & -> & ->)|[(H1 & x & _ & -> & ->)|(H1 & (m & ->) & ->)]].
  - split; [eapply Ext_trans; [apply Ext_cur_same|apply Ext_log_cur]|]. split; [left; exact H1|]. intros _. cbn. apply X.
  - split; [eapply Ext_trans; [apply Ext_cur|apply Ext_log_cur]|]. split; [left; cbn; apply has_set_same|]. intro K. contradiction.
  - split; [eapply Ext_trans; [apply Ext_cur_same|apply Ext_log_cur]|]. split; [right; cbn; apply X|]. intro K. contradiction.
Qed.
Lemma set_ci_ext t line shown v st st' : set_ci t line shown v st = Ok st' ->
  Ext st st' /\ (has (get_property_name t) (ps_ci st') \/ ps_ci_log st' <> []) /\ (has (get_property_name t) (ps_ci st) -> ps_ci_log st' <> []).
Proof.
  unfold set_ci. destruct (set_value t line shown v (ps_ci st)) as [[ms d]|] eqn:E; [|discriminate]. cbn [bind]. intro H. injection H as <-.
  assert (X : forall m : pystr, ps_ci_log st ++ [m] <> []) by (intros m K; apply app_eq_nil in K as [_ K]; discriminate).
  destruct (set_value_cases _ _ _ _ _ _ _ E) as [(H1 & -> & ->)|[(H1 & x & _ & -> & ->)|(H1 & (m & ->) & ->)]].
  - split; [eapply Ext_trans; [apply Ext_ci_same|apply Ext_log_ci]|]. split; [left; exact H1|]. intros _. cbn. apply X.
  - split; [eapply Ext_trans; [apply Ext_ci|apply Ext_log_ci]|]. split; [left; cbn; apply has_set_same|]. intro K. contradiction.
  - split; [eapply Ext_trans; [apply Ext_ci_same|apply Ext_log_ci]|]. split; [right; cbn; apply X|]. intro K. contradiction.
Qed.
Lemma append_cur_ext name v st st' : append_cur name v st = Ok st' -> Ext st st'.
Proof. unfold append_cur. destruct (append_val _ v); [|discriminate]. cbn [bind]. intro H. injection H as <-. apply Ext_cur. Qed.
Lemma append_ci_ext name v st st' : append_ci name v st = Ok st' -> Ext st st'.
Proof. unfold append_ci. destruct (append_val _ v); [|discriminate]. cbn [bind]. intro H. injection H as <-. apply Ext_ci. Qed.
Lemma in_class_ext c line st f st' : (forall st', f st = Ok st' -> Ext st st') -> in_class c line st f = Ok st' -> Ext st st'.
Proof. intro H. unfold in_class. destruct (matches_class c st); auto. intro K. injection K as <-. apply Ext_log. Qed.
Section WithOracles.
Variable O : oracles.
Lemma generic_ext t line shown v st st' : is_start_tag t = false -> generic_value t line shown v st = Ok st' -> Ext st st'.
Proof.
  unfold generic_value. intros ->. destruct (tag_data_model_field t) as [[[c|] f]|]; try discriminate. cbn [bind]. apply in_class_ext.
  intros st1 H. apply set_cur_ext in H. apply H.
Qed.
Lemma log_ne (l : list pystr) m : l ++ [m] <> [].
Proof. intro K. apply app_eq_nil in K as [_ K]. discriminate. Qed.
Lemma license_list_ext c name line k st st' : license_list O c name line k st = Ok st' -> Ext st st'.
Proof.
  unfold license_list. destruct (license_value O k) as [[ms l]|]; [|discriminate]. cbn [bind]. intro H. eapply Ext_trans; [apply (Ext_log_cur ms)|].
  eapply in_class_ext; [|exact H]. intros st1 K. eapply append_cur_ext. exact K.
Qed.
Lemma generic_license_ext t line k st st' : is_start_tag t = false -> generic_license O t line k st = Ok st' -> Ext st st'.
Proof.
  intro Hs. unfold generic_license. destruct (license_value O k) as [[ms l]|]; [|discriminate]. cbn [bind]. intro H.
  eapply Ext_trans; [apply (Ext_log_cur ms)|]. eapply generic_ext; eauto.
Qed.
Ltac inj H := injection H as <-.
Lemma external_document_ref_ext line v st st' : external_document_ref line v st = Ok st' -> Ext st st'.
Proof.
  intro H. unfold external_document_ref in H. destruct (re_match ext_doc_ref_re v) as [g|]; [|inj H; apply Ext_log_ci].
  destruct (split_on _ _) as [|a [|b [|]]]; try (inj H; apply Ext_log_ci). destruct (tv_parse_checksum _); [|discriminate]. cbn [bind] in H.
  eapply append_ci_ext. exact H.
Qed.
Lemma pkg_attribution_ext line v st st' : pkg_attribution_text line v st = Ok st' -> Ext st st'.
Proof.
  intro H. unfold pkg_attribution_text in H. destruct (matches_class C_Package st); [eapply append_cur_ext; exact H|].
  eapply Ext_trans; [apply (Ext_log [class_message C_Package line] st)|eapply append_cur_ext; exact H].
Qed.
Lemma act_ext t line k c st st' : is_start_tag t = false -> act O t line k c st = Ok st' -> Ext st st'.
Proof.
  intros Hs H. destruct t; try discriminate Hs; cbn [act] in H;
  try (apply generic_ext in H; [exact H|reflexivity]; fail);
  try (apply generic_license_ext in H; [exact H|reflexivity]; fail);
  try (apply set_ci_ext in H; apply H; fail);
  try (unfold text_list in H; eapply in_class_ext; [|exact H]; intros st1 K; eapply append_cur_ext; exact K; fail);
  try (eapply license_list_ext; exact H; fail);
  try (eapply in_class_ext; [|exact H]; intros st1 K; apply set_cur_ext in K; apply K; fail).
  all: try (injection H as <-; unfold spdx_id_action; destruct (assoc _ (ps_ci st)); [apply Ext_cur|apply Ext_ci]; fail).
  all: try (eapply external_document_ref_ext; exact H; fail).
  all: try (eapply pkg_attribution_ext; exact H; fail).
  all: try (destruct (parse_actor _); [|discriminate]; cbn [bind] in H; eapply append_ci_ext; exact H; fail).
  all: try (destruct (actor_value k); [|discriminate]; cbn [bind] in H; eapply generic_ext; [|exact H]; reflexivity).
  all: eapply in_class_ext; [|exact H]; intros st1 K; cbv beta zeta in K; repeat first
    [ progress (inj K); first [apply Ext_log_cur | apply Ext_cur]
    | eapply append_cur_ext; exact K
    | discriminate K
    | match type of K with context [match ?x with _ => _ end] => destruct x end
    | match type of K with context [tv_parse_checksum ?x] => destruct (tv_parse_checksum x) end; cbn [bind] in K ].
Qed.

(** ** Beginning an element *)
Record Kept (st st' : pstate) : Prop := {
  kp_bad : Bad st -> Bad st';
  kp_ci : forall k, has k (ps_ci st) -> has k (ps_ci st') }.
Lemma Ext_Kept st st' : Ext st st' -> Kept st st'.
Proof. intro H. split; [apply Ext_Bad; exact H|apply H]. Qed.
Lemma Kept_trans a b c : Kept a b -> Kept b c -> Kept a c.
Proof. intros [A1 A2] [B1 B2]. split; auto. Qed.
(** the parser's own message, or one about the document *)
Definition Told (st : pstate) : Prop := ps_log st <> [] \/ ps_ci_log st <> [].
Lemma Told_Bad st : Told st -> Bad st.
Proof. intros [H|H]; [left|right; left]; auto. Qed.
Lemma build_contains_same i st : ps_ci (build_contains i st) = ps_ci st /\ (Told st -> Told (build_contains i st)).
Proof.
  unfold build_contains. destruct (b_packages (ps_built st)) as [l|]; [|auto]. destruct (rev l); [split; auto; intros [H|H]; [left|right]; cbn; auto using app_ne|].
  destruct (rel_in _ _); auto.
Qed.
Lemma build_same c st st' : build_element c st = Ok st' -> ps_ci st' = ps_ci st /\ (Told st -> Told st').
Proof.
  intro H. assert (A : forall ms b, ps_ci (log ms (with_built b st)) = ps_ci st /\ (Told st -> Told (log ms (with_built b st)))).
  { intros ms b. split; auto. intros [T|T]; [left|right]; cbn; auto using app_ne. }
  assert (A' : forall ms, ps_ci (log ms st) = ps_ci st /\ (Told st -> Told (log ms st))).
  { intros ms. split; auto. intros [T|T]; [left|right]; cbn; auto using app_ne. }
  assert (B : forall b, ps_ci (with_built b st) = ps_ci st /\ (Told st -> Told (with_built b st))) by (intro b; auto).
  destruct c; cbn [build_element] in H; unfold add_element in H; destruct (_ (ps_cur st)) as [x|[]]; try discriminate H; injection H as <-; auto.
  destruct (build_contains_same (fi_id x) (with_built (set_files (b_files (ps_built st) ++ [x]) (ps_built st)) st)) as [H1 H2]. split; auto.
Qed.
Lemma construct_kept st st' : construct_current_element st = Ok st' -> ps_ci st' = ps_ci st /\ (Bad st -> Told st').
Proof.
  unfold construct_current_element. destruct (ps_class st) as [c|] eqn:Ec.
  - unfold raise_if_named. destruct (ps_cur_log st) as [|m ms] eqn:El.
    + destruct (build_element c st) as [st1|] eqn:E; [|discriminate]. cbn [bind]. intro H. inj H. apply build_same in E as [E1 E2].
      split; [exact E1|]. intros [B|[B|[B _]]]; [apply E2; left; auto|apply E2; right; auto|congruence].
    + cbn [bind]. intro H. inj H. split; auto. intros _. left. cbn. apply log_ne.
  - intro H. inj H. split; auto. intros [B|[B|[_ B]]]; [left|right|congruence]; auto.
Qed.
Lemma initialize_kept c st st' : initialize_new_current_element c st = Ok st' -> Kept st st' /\ ps_class st' <> None.
Proof.
  unfold initialize_new_current_element. destruct (construct_current_element st) as [st1|] eqn:E; [|discriminate]. cbn [bind]. intro H. inj H.
  apply construct_kept in E as [E1 E2]. split; [|discriminate]. split.
  - intro B. apply E2 in B as [B|B]; [left|right; left]; auto.
  - cbn. rewrite E1. auto.
Qed.
Lemma act_kept t line k c st st' : act O t line k c st = Ok st' -> Kept st st'.
Proof.
  destruct (is_start_tag t) eqn:Hs; [|intro H; apply Ext_Kept; eapply act_ext; eauto]. intro H.
  assert (G : forall shown v, generic_value t line shown v st = Ok st' -> Kept st st').
  { intros shown v K. unfold generic_value in K. rewrite Hs in K. destruct (tag_data_model_field t) as [[[x|] f]|]; try discriminate K.
    destruct (initialize_new_current_element x st) as [st1|] eqn:E; [|discriminate K]. cbn [bind] in K. apply initialize_kept in E as [E _].
    eapply Kept_trans; [exact E|]. apply Ext_Kept. eapply in_class_ext; [|exact K]. intros st2 L. apply set_cur_ext in L. apply L. }
  destruct t; try discriminate Hs; cbn [act] in H; try (eapply G; exact H; fail).
  - destruct (annotator_action line (tk_value k) st) as [st2|] eqn:E; [|discriminate H]. inj H. unfold annotator_action in E.
    destruct (initialize_new_current_element C_Annotation st) as [st1|] eqn:Ei; [|discriminate E]. cbn [bind] in E. apply initialize_kept in Ei as [Ei _].
    eapply Kept_trans; [exact Ei|]. apply Ext_Kept. apply set_cur_ext in E. apply E.
  - unfold relationship_action in H. destruct (initialize_new_current_element C_Relationship st) as [st1|] eqn:Ei; [|discriminate H]. cbn [bind] in H.
    apply initialize_kept in Ei as [Ei _]. eapply Kept_trans; [exact Ei|]. apply Ext_Kept. clear Ei.
    destruct (split_on _ _) as [|a [|b [|d [|]]]]; try (inj H; apply Ext_log_cur). cbv zeta in H.
    match type of H with Ok (with_cur _ ?y) = _ => assert (E1 : Ext st1 y) by (destruct (enum_lookup rel_type_all rel_type_name b); [apply Ext_cur|apply Ext_log_cur]); revert E1 H; generalize y end.
    intros st2 E1 H. inj H. eapply Ext_trans; [exact E1|]. constructor; cbn; auto; try (exists []; rewrite app_nil_r; auto; fail).
    intros n Hn. destruct (option_map _ c); repeat apply has_set; exact Hn.
Qed.
Lemma acts_kept gs : forall lines st st', acts O gs lines st = Ok st' -> Kept st st'.
Proof.
  induction gs as [|g gs IH]; intros lines st st' H; cbn [acts] in H; [inj H; apply Ext_Kept, Ext_refl|].
  destruct lines as [|n lines]; [discriminate H|]. destruct (act O (g_tag g) n (g_val g) (g_com g) st) as [st1|] eqn:E; [|discriminate H]. cbn [bind] in H.
  eapply Kept_trans; [eapply act_kept; exact E|eapply IH; exact H].
Qed.
Lemma acts_ext gs : forall lines st st', (forall g, In g gs -> is_start_tag (g_tag g) = false) -> acts O gs lines st = Ok st' -> Ext st st'.
Proof.
  induction gs as [|g gs IH]; intros lines st st' Hs H; cbn [acts] in H; [inj H; apply Ext_refl|].
  destruct lines as [|n lines]; [discriminate H|]. destruct (act O (g_tag g) n (g_val g) (g_com g) st) as [st1|] eqn:E; [|discriminate H]. cbn [bind] in H.
  eapply Ext_trans; [eapply act_ext; [|exact E]; apply Hs; left; reflexivity|eapply IH; [|exact H]]. intros x Hx. apply Hs. right. exact Hx.
Qed.
Lemma finish_bad st : Bad st -> exists e, finish st = Raise e.
Proof.
  intro B. unfold finish. destruct (construct_current_element st) as [st1|e] eqn:E; [|exists e; reflexivity]. cbn [bind]. apply construct_kept in E as [_ E]. apply E in B.
  assert (L : ps_log (match ps_ci_log st1 with [] => st1 | ms => log [$"Error while parsing CreationInfo: " ++ show_list ms] st1 end) <> []).
  { destruct (ps_ci_log st1) eqn:F; [|cbn; apply log_ne]. destruct B as [B|B]; congruence. }
  unfold raise_if. destruct (ps_log _) as [|m ms]; [congruence|]. eexists. reflexivity.
Qed.

(** ** Values that occur once *)
Record Once (n : pystr) (st st' : pstate) : Prop := {
  on_first : Bad st' \/ (ps_class st' <> None /\ has n (ps_cur st'));
  on_again : ps_class st <> None -> has n (ps_cur st) -> Bad st' }.
Lemma in_class_once c line n st f st' : (f st = Ok st' -> Ext st st' /\ (has n (ps_cur st') \/ ps_cur_log st' <> []) /\ (has n (ps_cur st) -> ps_cur_log st' <> [])) ->
  in_class c line st f = Ok st' -> Once n st st'.
Proof.
  intros H K. unfold in_class, matches_class in K. destruct (ps_class st) as [c'|] eqn:Ec.
  - destruct (clazz_eqb c c').
    + destruct (H K) as (E & A & B). apply ex_class in E. rewrite Ec in E. split.
      * destruct A as [A|A]; [right; split; auto; congruence|left; right; right; split; auto; congruence].
      * intros _ C. right. right. split; [auto|congruence].
    + inj K. split; [left|intros _ _]; left; cbn; apply log_ne.
  - inj K. split; [left|intros _ _]; left; cbn; apply log_ne.
Qed.
Lemma generic_once t line shown v st st' : is_start_tag t = false -> generic_value t line shown v st = Ok st' -> Once (get_property_name t) st st'.
Proof.
  unfold generic_value. intros ->. destruct (tag_data_model_field t) as [[[c|] f]|]; try discriminate. cbn [bind]. apply in_class_once. apply set_cur_ext.
Qed.
Lemma generic_license_once t line k st st' : is_start_tag t = false -> generic_license O t line k st = Ok st' -> Once (get_property_name t) st st'.
Proof.
  intro Hs. unfold generic_license. destruct (license_value O k) as [[ms l]|]; [|discriminate]. cbn [bind]. intro H. apply generic_once in H; auto.
  destruct H as [H1 H2]. split; auto.
Qed.
Lemma once_log n m st : has n (ps_cur st) \/ assoc n (ps_cur st) = None ->
  Ext st (log_cur [m] st) /\ (has n (ps_cur (log_cur [m] st)) \/ ps_cur_log (log_cur [m] st) <> []) /\ (has n (ps_cur st) -> ps_cur_log (log_cur [m] st) <> []).
Proof. intros _. split; [apply Ext_log_cur|]. split; [right|intros _]; cbn; apply log_ne. Qed.
Lemma once_set n v st : assoc n (ps_cur st) = None -> let st' := with_cur (dict_set n v (ps_cur st)) st in
  Ext st st' /\ (has n (ps_cur st') \/ ps_cur_log st' <> []) /\ (has n (ps_cur st) -> ps_cur_log st' <> []).
Proof. intros H. cbv zeta. split; [apply Ext_cur|]. split; [left; cbn; apply has_set_same|]. intro K. contradiction. Qed.
(** the argument under which the value is stored *)
Definition stored_name (t : tag) : pystr := match t with T_PackageVerificationCode => $"verification_code" | _ => get_property_name t end.
Lemma act_once t line k c st st' : In t element_tags -> act O t line k c st = Ok st' -> Once (stored_name t) st st'.
Proof.
  intros Ht H. unfold element_tags in Ht. repeat (destruct Ht as [<-|Ht]; [|]); [.. |destruct Ht]; cbn [act] in H;
  try (apply generic_once in H; [exact H|reflexivity]; fail);
  try (apply generic_license_once in H; [exact H|reflexivity]; fail);
  try (eapply in_class_once; [|exact H]; apply set_cur_ext; fail);
  try (destruct (actor_value k); [|discriminate]; cbn [bind] in H; eapply generic_once; [|exact H]; reflexivity).
  - change (stored_name T_FilesAnalyzed) with $"files_analyzed". eapply in_class_once; [|exact H]. intro K. cbv beta in K.
    destruct (assoc _ (ps_cur st)) eqn:E; [inj K; eapply once_log; left; unfold has; congruence|].
    destruct (str_eqb _ _); [inj K; apply once_set; exact E|]. destruct (str_eqb _ _); inj K; [apply once_set; exact E|apply once_log; auto].
  - change (stored_name T_PackageVerificationCode) with $"verification_code". eapply in_class_once; [|exact H]. intro K. cbv beta in K.
    destruct (assoc _ (ps_cur st)) eqn:E; [inj K; eapply once_log; left; unfold has; congruence|].
    destruct (re_match _ _); inj K; [apply once_set; exact E|apply once_log; auto].
  - cbn [stored_name]. eapply in_class_once; [|exact H]. intro K. cbv beta zeta in K.
    destruct (assoc _ (ps_cur st)) eqn:E; [inj K; eapply once_log; left; unfold has; congruence|].
    destruct (re_match _ _); [|inj K; apply once_log; auto]. destruct (dec_val _); [|discriminate]. destruct (dec_val _); [|discriminate]. inj K. apply once_set. exact E.
  - cbn [stored_name]. eapply in_class_once; [|exact H]. intro K. cbv beta zeta in K.
    destruct (assoc _ (ps_cur st)) eqn:E; [inj K; eapply once_log; left; unfold has; congruence|].
    destruct (re_match _ _); [|inj K; apply once_log; auto]. destruct (dec_val _); [|discriminate]. destruct (dec_val _); [|discriminate]. inj K. apply once_set. exact E.
Qed.
Lemma act_document_once t line k c st st' : In t document_tags -> act O t line k c st = Ok st' ->
  (Bad st' \/ has (get_property_name t) (ps_ci st')) /\ (has (get_property_name t) (ps_ci st) -> Bad st').
Proof.
  intros Ht H. assert (E : exists shown v, set_ci t line shown v st = Ok st').
  { unfold document_tags in Ht. repeat (destruct Ht as [<-|Ht]; [|]); [.. |destruct Ht]; cbn [act] in H; eauto. }
  destruct E as (shown & v & E). apply set_ci_ext in E as (_ & A & B). split.
  - destruct A as [A|A]; auto. left. right. left. exact A.
  - intro C. right. left. auto.
Qed.

(** ** A tag given twice *)
Lemma start_tags_spec t : is_start_tag t = true <-> In t start_tags.
Proof. split; [destruct t; try discriminate; intros _; cbn; auto 10|intro H; unfold start_tags in H; repeat (destruct H as [<-|H]; [reflexivity|]); destruct H]. Qed.
Lemma bind_raise {A B} (r : result A) (f : A -> result B) : (forall a, r = Ok a -> exists e, f a = Raise e) -> exists e, bind r f = Raise e.
Proof. intro H. destruct r as [a|e]; [apply H; reflexivity|exists e; reflexivity]. Qed.
Lemma split_lines {A B} (l : list A) (a b : list B) : List.length l = List.length (a ++ b) -> exists la lb, l = la ++ lb /\ List.length la = List.length a.
Proof.
  intro H. exists (firstn (List.length a) l), (skipn (List.length a) l). split; [symmetry; apply firstn_skipn|]. apply firstn_length_le. rewrite H, app_length. lia.
Qed.
Lemma repeated_element_tag text pre g1 mid g2 post : Attributes text (pre ++ g1 :: mid ++ g2 :: post) ->
  In (g_tag g1) element_tags -> g_tag g2 = g_tag g1 -> (forall g, In g mid -> ~ In (g_tag g) start_tags) -> exists e, tv_parse O text = Raise e.
Proof.
  intros H Ht E2 Hm. destruct (attributes_run O _ _ H) as (lines & L & ->). apply bind_raise. intros st6 R.
  destruct (split_lines _ _ _ L) as (l1 & l2 & -> & L1). rewrite acts_app in R by exact L1. destruct (acts O pre l1 init_state) as [st1|]; [|discriminate R]. cbn [bind] in R.
  rewrite !app_length, L1 in L. cbn [List.length] in L. destruct l2 as [|n1 l2]; [discriminate R|]. cbn [acts] in R.
  destruct (act O (g_tag g1) n1 (g_val g1) (g_com g1) st1) as [st2|] eqn:A1; [|discriminate R]. cbn [bind] in R.
  assert (L' : List.length l2 = List.length (mid ++ g2 :: post)) by (cbn [List.length] in L; lia).
  destruct (split_lines _ _ _ L') as (l3 & l4 & -> & L3). rewrite acts_app in R by exact L3. destruct (acts O mid l3 st2) as [st3|] eqn:A2; [|discriminate R]. cbn [bind] in R.
  destruct l4 as [|n2 l4]; [discriminate R|]. cbn [acts] in R.
  destruct (act O (g_tag g2) n2 (g_val g2) (g_com g2) st3) as [st4|] eqn:A3; [|discriminate R]. cbn [bind] in R.
  apply finish_bad. apply (kp_bad _ _ (acts_kept _ _ _ _ R)).
  assert (X : Ext st2 st3). { eapply acts_ext; [|exact A2]. intros g Hg. destruct (is_start_tag (g_tag g)) eqn:S; auto. apply start_tags_spec in S. destruct (Hm g Hg S). }
  destruct (act_once _ _ _ _ _ _ Ht A1) as [[B|[C D]] _].
  - apply (kp_bad _ _ (act_kept _ _ _ _ _ _ A3)). apply (Ext_Bad _ _ X B).
  - rewrite E2 in A3. eapply (on_again _ _ _ (act_once _ _ _ _ _ _ Ht A3)); [rewrite (ex_class _ _ X); exact C|apply (ex_cur _ _ X); exact D].
Qed.
Lemma repeated_document_tag text pre g1 mid g2 post : Attributes text (pre ++ g1 :: mid ++ g2 :: post) ->
  In (g_tag g1) document_tags -> g_tag g2 = g_tag g1 -> exists e, tv_parse O text = Raise e.
Proof.
  intros H Ht E2. destruct (attributes_run O _ _ H) as (lines & L & ->). apply bind_raise. intros st6 R.
  destruct (split_lines _ _ _ L) as (l1 & l2 & -> & L1). rewrite acts_app in R by exact L1. destruct (acts O pre l1 init_state) as [st1|]; [|discriminate R]. cbn [bind] in R.
  rewrite !app_length, L1 in L. cbn [List.length] in L. destruct l2 as [|n1 l2]; [discriminate R|]. cbn [acts] in R.
  destruct (act O (g_tag g1) n1 (g_val g1) (g_com g1) st1) as [st2|] eqn:A1; [|discriminate R]. cbn [bind] in R.
  assert (L' : List.length l2 = List.length (mid ++ g2 :: post)) by (cbn [List.length] in L; lia).
  destruct (split_lines _ _ _ L') as (l3 & l4 & -> & L3). rewrite acts_app in R by exact L3. destruct (acts O mid l3 st2) as [st3|] eqn:A2; [|discriminate R]. cbn [bind] in R.
  destruct l4 as [|n2 l4]; [discriminate R|]. cbn [acts] in R.
  destruct (act O (g_tag g2) n2 (g_val g2) (g_com g2) st3) as [st4|] eqn:A3; [|discriminate R]. cbn [bind] in R.
  apply finish_bad. apply (kp_bad _ _ (acts_kept _ _ _ _ R)). pose proof (acts_kept _ _ _ _ A2) as X.
  destruct (act_document_once _ _ _ _ _ _ Ht A1) as [[B|D] _].
  - apply (kp_bad _ _ (act_kept _ _ _ _ _ _ A3)). apply (kp_bad _ _ X B).
  - rewrite E2 in A3. eapply (act_document_once _ _ _ _ _ _ Ht A3). apply (kp_ci _ _ X). exact D.
Qed.
End WithOracles.
