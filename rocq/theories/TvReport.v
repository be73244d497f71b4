(** One mistake in an otherwise correct tag-value text: exactly one message is reported. *)
From Verif Require Import Py PyFacts PyRe Data Oracles Basics Json Construct JsonConv JsonParse JsonSpec
  TvWriter TvLexer TvSpec TvTokSpec TvLexFacts TvLexValues TvParser TvParseFacts TvErrors TvRepeat TvReadSpec TvRead TvRead2 TvRead3 TvLines.

(** ** States with messages *)
(** [st] with more messages, and other elements *)
Definition shift (L C D : list pystr) (b : built) (st : pstate) : pstate :=
  {| ps_log := L ++ ps_log st; ps_class := ps_class st; ps_cur_log := C ++ ps_cur_log st; ps_cur := ps_cur st;
     ps_ci_log := D ++ ps_ci_log st; ps_ci := ps_ci st; ps_built := b |}.
Section Shift.
Variables (L C D : list pystr) (b : built).
Notation sh := (shift L C D b).
Lemma sh_log m st : log m (sh st) = sh (log m st).
Proof. unfold log, shift. cbn. rewrite app_assoc. reflexivity. Qed.
Lemma sh_log_cur m st : log_cur m (sh st) = sh (log_cur m st).
Proof. unfold log_cur, shift. cbn. rewrite app_assoc. reflexivity. Qed.
Lemma sh_log_ci m st : log_ci m (sh st) = sh (log_ci m st).
Proof. unfold log_ci, shift. cbn. rewrite app_assoc. reflexivity. Qed.
Lemma sh_with_cur d st : with_cur d (sh st) = sh (with_cur d st). Proof. reflexivity. Qed.
Lemma sh_with_ci d st : with_ci d (sh st) = sh (with_ci d st). Proof. reflexivity. Qed.
Lemma sh_cur st : ps_cur (sh st) = ps_cur st. Proof. reflexivity. Qed.
Lemma sh_ci st : ps_ci (sh st) = ps_ci st. Proof. reflexivity. Qed.
Lemma sh_class c st : matches_class c (sh st) = matches_class c st. Proof. reflexivity. Qed.
Lemma set_cur_shift t line shown v st : set_cur t line shown v (sh st) = map_ok sh (set_cur t line shown v st).
Proof. unfold set_cur. rewrite sh_cur. destruct (set_value t line shown v (ps_cur st)) as [[ms d]|]; cbn [bind map_ok]; [|reflexivity]. rewrite sh_with_cur, sh_log_cur. reflexivity. Qed.
Lemma set_ci_shift t line shown v st : set_ci t line shown v (sh st) = map_ok sh (set_ci t line shown v st).
Proof. unfold set_ci. rewrite sh_ci. destruct (set_value t line shown v (ps_ci st)) as [[ms d]|]; cbn [bind map_ok]; [|reflexivity]. rewrite sh_with_ci, sh_log_ci. reflexivity. Qed.
Lemma append_cur_shift n v st : append_cur n v (sh st) = map_ok sh (append_cur n v st).
Proof. unfold append_cur. rewrite sh_cur. destruct (append_val _ v); reflexivity. Qed.
Lemma append_ci_shift n v st : append_ci n v (sh st) = map_ok sh (append_ci n v st).
Proof. unfold append_ci. rewrite sh_ci. destruct (append_val _ v); reflexivity. Qed.
Lemma in_class_shift c line st body : body (sh st) = map_ok sh (body st) -> in_class c line (sh st) body = map_ok sh (in_class c line st body).
Proof. intro H. unfold in_class. rewrite sh_class. destruct (matches_class c st); [exact H|]. rewrite sh_log. reflexivity. Qed.
Lemma generic_shift t line shown v st : is_start_tag t = false -> generic_value t line shown v (sh st) = map_ok sh (generic_value t line shown v st).
Proof.
  intro H. unfold generic_value. destruct (tag_data_model_field t) as [[[c|] n]|]; [|reflexivity..]. rewrite H. cbn [bind]. apply in_class_shift, set_cur_shift.
Qed.
Variable O : oracles.
Lemma generic_license_shift t line k st : is_start_tag t = false -> generic_license O t line k (sh st) = map_ok sh (generic_license O t line k st).
Proof. intro H. unfold generic_license. destruct (license_value O k) as [[ms l]|]; cbn [bind]; [|reflexivity]. rewrite sh_log_cur. apply generic_shift. exact H. Qed.
Lemma license_list_shift c n line k st : license_list O c n line k (sh st) = map_ok sh (license_list O c n line k st).
Proof. unfold license_list. destruct (license_value O k) as [[ms l]|]; cbn [bind]; [|reflexivity]. rewrite sh_log_cur. apply in_class_shift, append_cur_shift. Qed.
Lemma act_shift t line k c st : is_start_tag t = false -> act O t line k c (sh st) = map_ok sh (act O t line k c st).
Proof.
  intro S. destruct t; try discriminate S; cbn [act];
  try (apply set_ci_shift); try (apply generic_shift; reflexivity); try (apply generic_license_shift; reflexivity); try apply license_list_shift;
  try (unfold text_list; apply in_class_shift, append_cur_shift); try (apply in_class_shift, set_cur_shift).
  all: try (destruct (actor_value k); cbn [bind]; [apply generic_shift|]; reflexivity).
  all: try (unfold checksum_action; apply in_class_shift; destruct (tv_parse_checksum _); cbn [bind]; [apply append_cur_shift|reflexivity]).
  all: try (unfold snippet_range; apply in_class_shift; cbv beta zeta; rewrite sh_cur; destruct (assoc _ _); [rewrite sh_log_cur; reflexivity|];
            destruct (re_match _ _); [|rewrite sh_log_cur; reflexivity]; destruct (dec_val _); [|reflexivity]; destruct (dec_val _); reflexivity).
  all: try reflexivity.
  - unfold spdx_id_action. rewrite sh_ci, sh_cur. destruct (assoc _ _); reflexivity.
  - unfold external_document_ref. destruct (re_match _ _) as [g|]; [|rewrite sh_log_ci; reflexivity].
    destruct (split_on _ _) as [|x [|y [|z l]]]; try (rewrite sh_log_ci; reflexivity). destruct (tv_parse_checksum _); cbn [bind]; [apply append_ci_shift|reflexivity].
  - destruct (parse_actor _); cbn [bind]; [apply append_ci_shift|reflexivity].
  - unfold files_analyzed. apply in_class_shift. cbv beta. rewrite sh_cur. destruct (assoc _ _); [rewrite sh_log_cur; reflexivity|].
    destruct (str_eqb _ _); [reflexivity|]. destruct (str_eqb _ _); [reflexivity|]. rewrite sh_log_cur. reflexivity.
  - unfold verification_code. apply in_class_shift. cbv beta. rewrite sh_cur. destruct (assoc _ _); [rewrite sh_log_cur; reflexivity|].
    destruct (re_match _ _); [reflexivity|]. rewrite sh_log_cur. reflexivity.
  - unfold pkg_external_ref. apply in_class_shift. cbv beta. destruct (split_on _ _) as [|x [|y [|z [|u l]]]]; try (rewrite sh_log_cur; reflexivity).
    destruct (enum_lookup _ _ _); [apply append_cur_shift|]. rewrite sh_log_cur. reflexivity.
  - unfold pkg_attribution_text. rewrite sh_class. destruct (matches_class _ _); [|rewrite sh_log]; apply append_cur_shift.
  - unfold file_type_action. apply in_class_shift. cbv beta. destruct (enum_lookup _ _ _); [apply append_cur_shift|]. rewrite sh_log_cur. reflexivity.
Qed.
(** what a tag that begins an element does after the previous element is built *)
Definition started (t : tag) (line : N) (k : token) (comment : option token) (st : pstate) : result pstate :=
  let v := tk_value k in
  let txt := text_or_line_value k in
  match t with
  | T_Annotator => set_cur T_Annotator line v (do a <- parse_actor v; Ok (VActor a)) st
  | T_Relationship =>
      match split_on #" " v with
      | [id; ty; related] =>
          let st := match enum_lookup rel_type_all rel_type_name ty with
                    | Some t => with_cur (dict_set $"relationship_type" (VRelType t) (ps_cur st)) st
                    | None => log_cur [$"Invalid RelationshipType " ++ ty ++ $". Line: " ++ line_str line] st
                    end in
          let r := if str_eqb related $"NONE" then VNone
                   else if str_eqb related $"NOASSERTION" then VNoAssertion else VStr related in
          let d := dict_set $"spdx_element_id" (VStr id) (dict_set $"related_spdx_element_id" r (ps_cur st)) in
          Ok (with_cur (match option_map text_or_line_value comment with Some c => dict_set $"comment" (VStr c) d | None => d end) st)
      | _ => Ok (log_cur [$"Relationship couldn't be split in spdx_element_id, relationship_type and related_spdx_element. Line: "
                          ++ line_str line] st)
      end
  | T_PackageName => in_class C_Package line st (set_cur t line txt (Ok (VStr txt)))
  | T_FileName => in_class C_File line st (set_cur t line txt (Ok (VStr txt)))
  | T_SnippetSPDXID => in_class C_Snippet line st (set_cur t line txt (Ok (VStr txt)))
  | T_LicenseID => in_class C_Extracted line st (set_cur t line txt (Ok (VStr txt)))
  | _ => Ok st
  end.
Lemma started_shift t line k c st : started t line k c (sh st) = map_ok sh (started t line k c st).
Proof.
  destruct t; cbn [started]; try reflexivity; try (apply in_class_shift, set_cur_shift); try apply set_cur_shift.
  destruct (split_on _ _) as [|x [|y [|z [|u l]]]]; try (rewrite sh_log_cur; reflexivity). destruct (enum_lookup _ _ _); [reflexivity|].
  rewrite sh_log_cur. reflexivity.
Qed.
End Shift.
Lemma act_started O t line k c : is_start_tag t = true -> exists cl, forall st,
  act O t line k c st = (do st1 <- construct_current_element st; started t line k c (with_class cl st1)).
Proof.
  intro S. destruct t; try discriminate S; cbn [act started]; unfold generic_value, annotator_action, relationship_action, initialize_new_current_element;
  eexists; intro st; cbn [tag_data_model_field is_start_tag]; destruct (construct_current_element st); reflexivity.
Qed.

(** ** Building elements *)
Definition told (c : clazz) (m : list pystr) : pystr := $"Error while parsing " ++ clazz_name c ++ $": " ++ show_list m.
Lemma construct_shift L D b st s1 : quiet st -> sane (ps_built st) -> sane b -> flush st = Some s1 ->
  exists b', sane b' /\ sane (ps_built s1) /\ construct_current_element (shift L [] D b st) = Ok (shift L [] D b' s1).
Proof.
  intros Q S Sb F. destruct (ps_class st) as [c|] eqn:K.
  - rewrite (flush_class c st Q S K) in F. destruct (make c (ps_cur st)) as [e|] eqn:M; [|discriminate F]. cbn [option_map] in F. injection F as <-.
    exists (add e b). split; [apply add_sane; exact Sb|]. split; [cbn; apply add_sane; exact S|].
    assert (B : build_element c (shift L [] D b st) = Ok (with_built (add e b) (shift L [] D b st))).
    { destruct c; cbn [make] in M; unfold build_element, add_element; rewrite (sh_cur L [] D b).
      - destruct (construct_file _); [|discriminate M]. cbn in M. injection M as <-. f_equal. apply (contains_add _ (shift L [] D b st)). exact Sb.
      - destruct (construct_annotation _); [|discriminate M]. cbn in M. injection M as <-. reflexivity.
      - destruct (construct_relationship _); [|discriminate M]. cbn in M. injection M as <-. reflexivity.
      - destruct (construct_snippet _); [|discriminate M]. cbn in M. injection M as <-. reflexivity.
      - destruct (construct_package _); [|discriminate M]. cbn in M. injection M as <-. reflexivity.
      - destruct (construct_extracted _); [|discriminate M]. cbn in M. injection M as <-. reflexivity. }
    destruct Q as (Q1 & Q2 & Q3). unfold construct_current_element. cbn [shift ps_class ps_cur_log]. rewrite K, Q2. cbn [app raise_if_named]. 
    change {| ps_log := L ++ ps_log st; ps_class := ps_class st; ps_cur_log := [] ++ ps_cur_log st; ps_cur := ps_cur st;
              ps_ci_log := D ++ ps_ci_log st; ps_ci := ps_ci st; ps_built := b |} with (shift L [] D b st).
    rewrite B. cbn [bind]. reflexivity.
  - rewrite flush_none in F by (try exact K; apply Q). injection F as <-. exists b. split; [exact Sb|]. split; [exact S|].
    unfold construct_current_element. cbn [shift ps_class]. rewrite K. reflexivity.
Qed.
Lemma construct_told c m D b st s1 : quiet st -> sane (ps_built st) -> ps_class st = Some c -> flush st = Some s1 ->
  sane (ps_built s1) /\ construct_current_element (shift [] [m] D b st) = Ok (shift [told c [m]] [] D b s1).
Proof.
  intros Q S K F. rewrite (flush_class c st Q S K) in F. destruct (make c (ps_cur st)) as [e|] eqn:M; [|discriminate F]. cbn [option_map] in F. injection F as <-.
  split; [cbn; apply add_sane; exact S|]. destruct Q as (Q1 & Q2 & Q3).
  unfold construct_current_element. cbn [shift ps_class ps_cur_log]. rewrite K, Q2. cbn [app raise_if_named bind]. unfold log, new_element, shift, with_built. cbn. rewrite Q1. reflexivity.
Qed.

Section WithOracles.
Variable O : oracles.
Lemma effect_inside g st st' : is_start_tag (g_tag g) = false -> effect O g st = Some st' -> ps_class st' = ps_class st /\ ps_built st' = ps_built st.
Proof.
  intros S. assert (X : starts g = false). { unfold starts. destruct (is_in (g_tag g) start_tags) eqn:I; [|reflexivity]. destruct (g_tag g); discriminate. }
  rewrite starts_slot in X. unfold effect. destruct (slot_of (g_tag g)); try discriminate X; try discriminate.
  - destruct (put_once _ _ _); [|discriminate]. intro H. injection H as <-. auto.
  - destruct (put_more _ _ _); [|discriminate]. intro H. injection H as <-. auto.
  - destruct (matches_class _ _); [|discriminate]. destruct (put_once _ _ _); [|discriminate]. intro H. injection H as <-. auto.
  - destruct (matches_class _ _); [|discriminate]. destruct (put_more _ _ _); [|discriminate]. intro H. injection H as <-. auto.
  - intro H. injection H as <-. unfold spdx_id_action. destruct (assoc _ _); auto.
Qed.
Lemma effect_start g st st' : is_start_tag (g_tag g) = true -> effect O g st = Some st' -> exists s1, flush st = Some s1 /\ ps_built st' = ps_built s1.
Proof.
  intros S. assert (X : starts g = true) by (unfold starts; destruct (g_tag g); try discriminate S; reflexivity).
  rewrite starts_slot in X. unfold effect. destruct (slot_of (g_tag g)); try discriminate X; (destruct (flush st) as [s1|]; [|discriminate]).
  - destruct (put_once _ _ _); [|discriminate]. intro H. injection H as <-. exists s1. auto.
  - destruct (rel_put _ _); [|discriminate]. intro H. injection H as <-. exists s1. auto.
Qed.
(** an attribute after the messages *)
Lemma step_after g line L D b st st' : quiet st -> sane (ps_built st) -> sane b -> effect O g st = Some st' ->
  exists b', sane b' /\ sane (ps_built st') /\ act O (g_tag g) line (g_val g) (g_com g) (shift L [] D b st) = Ok (shift L [] D b' st').
Proof.
  intros Q S Sb E. pose proof E as A. apply (act_effect O g line st st' Q) in A as [A _]. destruct (is_start_tag (g_tag g)) eqn:T.
  - destruct (effect_start _ _ _ T E) as (s1 & F & B). destruct (construct_shift L D b st s1 Q S Sb F) as (b' & Sb' & S1 & K).
    destruct (act_started O (g_tag g) line (g_val g) (g_com g) T) as (cl & X). exists b'. split; [exact Sb'|]. split; [rewrite B; exact S1|].
    apply flush_iff in F as [F _]. rewrite X, F in A. cbn [bind] in A. rewrite X, K. cbn [bind]. change (with_class cl (shift L [] D b' s1)) with (shift L [] D b' (with_class cl s1)).
    rewrite started_shift, A. reflexivity.
  - destruct (effect_inside _ _ _ T E) as [_ B]. exists b. split; [exact Sb|]. split; [rewrite B; exact S|]. rewrite act_shift by exact T. rewrite A. reflexivity.
Qed.
Lemma acts_after gs : forall lines L D b st st', List.length lines = List.length gs -> quiet st -> sane (ps_built st) -> sane b -> effects O gs st = Some st' ->
  exists b', sane b' /\ acts O gs lines (shift L [] D b st) = Ok (shift L [] D b' st').
Proof.
  induction gs as [|g gs IH]; intros [|n lines] L D b st st' Hl Q S Sb E; try discriminate Hl; cbn [effects acts] in *.
  - injection E as <-. exists b. auto.
  - destruct (effect O g st) as [st1|] eqn:E1; [|discriminate E]. destruct (step_after g n L D b st st1 Q S Sb E1) as (b1 & Sb1 & S1 & ->). cbn [bind].
    apply (IH lines L D b1 st1 st'); auto. eapply effect_quiet; eauto.
Qed.
(** an attribute after a message about the current element *)
Lemma acts_told c m gs : forall lines D b st st', List.length lines = List.length gs -> quiet st -> sane (ps_built st) -> sane b -> ps_class st = Some c ->
  effects O gs st = Some st' ->
  exists b', sane b' /\ (acts O gs lines (shift [] [m] D b st) = Ok (shift [] [m] D b' st') /\ ps_class st' = Some c
                         \/ acts O gs lines (shift [] [m] D b st) = Ok (shift [told c [m]] [] D b' st')).
Proof.
  induction gs as [|g gs IH]; intros [|n lines] D b st st' Hl Q S Sb K E; try discriminate Hl; cbn [effects acts] in *.
  - injection E as <-. exists b. auto.
  - injection Hl as Hl. destruct (effect O g st) as [st1|] eqn:E1; [|discriminate E]. pose proof E1 as A. apply (act_effect O g n st st1 Q) in A as [A _].
    pose proof (effect_quiet _ _ _ _ Q E1) as Q1. destruct (is_start_tag (g_tag g)) eqn:T.
    + destruct (effect_start _ _ _ T E1) as (s1 & F & B). destruct (construct_told c m D b st s1 Q S K F) as [S1 X].
      destruct (act_started O (g_tag g) n (g_val g) (g_com g) T) as (cl & Y). apply flush_iff in F as [F _]. rewrite Y, F in A. cbn [bind] in A. rewrite Y, X. cbn [bind].
      change (with_class cl (shift [told c [m]] [] D b s1)) with (shift [told c [m]] [] D b (with_class cl s1)). rewrite started_shift, A. cbn [map_ok bind].
      destruct (acts_after gs lines [told c [m]] D b st1 st') as (b' & Sb' & Z); auto; [rewrite B; exact S1|]. exists b'. auto.
    + destruct (effect_inside _ _ _ T E1) as [C1 B1]. rewrite act_shift by exact T. rewrite A. cbn [map_ok bind]. apply IH; auto; congruence.
Qed.

(** ** The end *)
Lemma finish_after x b st d : quiet st -> sane (ps_built st) -> sane b -> ending st = Some d -> finish (shift [x] [] [] b st) = Raise (EParsing [x]).
Proof.
  intros Q S Sb E. unfold ending in E. destruct (flush st) as [s1|] eqn:F; [|discriminate E]. destruct (construct_shift [x] [] b st s1 Q S Sb F) as (b' & _ & _ & K).
  destruct (flush_quiet _ _ Q F) as (Q1 & Q2 & Q3). unfold finish. rewrite K. cbn [bind shift ps_ci_log app]. rewrite Q3. cbv beta zeta iota. unfold raise_if. cbn [shift ps_log app]. rewrite Q1. reflexivity.
Qed.
Lemma finish_info m b st d : quiet st -> sane (ps_built st) -> sane b -> ending st = Some d ->
  finish (shift [] [] [m] b st) = Raise (EParsing [$"Error while parsing CreationInfo: " ++ show_list [m]]).
Proof.
  intros Q S Sb E. unfold ending in E. destruct (flush st) as [s1|] eqn:F; [|discriminate E]. destruct (construct_shift [] [m] b st s1 Q S Sb F) as (b' & _ & _ & K).
  destruct (flush_quiet _ _ Q F) as (Q1 & Q2 & Q3). unfold finish. rewrite K. cbn [bind shift ps_ci_log app]. rewrite Q3. cbv beta zeta iota. unfold raise_if, log. cbn [shift ps_log app]. rewrite Q1. reflexivity.
Qed.
Lemma finish_told c m b st d : quiet st -> sane (ps_built st) -> ps_class st = Some c -> ending st = Some d -> finish (shift [] [m] [] b st) = Raise (EParsing [told c [m]]).
Proof.
  intros Q S K E. unfold ending in E. destruct (flush st) as [s1|] eqn:F; [|discriminate E]. destruct (construct_told c m [] b st s1 Q S K F) as [_ X].
  destruct (flush_quiet _ _ Q F) as (Q1 & Q2 & Q3). unfold finish. rewrite X. cbn [bind shift ps_ci_log app]. rewrite Q3. cbv beta zeta iota. unfold raise_if. cbn [shift ps_log app]. rewrite Q1. reflexivity.
Qed.
Lemma effects_sane gs : forall st st', quiet st -> sane (ps_built st) -> effects O gs st = Some st' -> quiet st' /\ sane (ps_built st').
Proof.
  induction gs as [|g gs IH]; intros st st' Q S E; cbn [effects] in E; [injection E as <-; auto|]. destruct (effect O g st) as [st1|] eqn:E1; [|discriminate E].
  apply (IH st1); auto; [eapply effect_quiet; eauto|]. destruct (step_after g 0%N [] [] _ st st1 Q S S E1) as (_ & _ & S1 & _). exact S1.
Qed.
Lemma effects_app a b st : effects O (a ++ b) st = match effects O a st with Some s => effects O b s | None => None end.
Proof. revert st. induction a as [|g a IH]; intro st; cbn [app effects]; [reflexivity|]. destruct (effect O g st); auto. Qed.

(** ** One mistake *)
Inductive Noise (st : pstate) : pstate -> exn -> Prop :=
| Noise_log m : Noise st (log [m] st) (EParsing [m])
| Noise_info m : Noise st (log_ci [m] st) (EParsing [$"Error while parsing CreationInfo: " ++ show_list [m]])
| Noise_cur c m : ps_class st = Some c -> Noise st (log_cur [m] st) (EParsing [told c [m]]).
(** what remains of a correct text after a message *)
Lemma after_noise gs2 l2 st stn st' e d : List.length l2 = List.length gs2 -> quiet st -> sane (ps_built st) -> effects O gs2 st = Some stn -> ending stn = Some d -> Noise st st' e ->
  (do s <- acts O gs2 l2 st'; finish s) = Raise e.
Proof.
  intros L2 Q S E En N. destruct (effects_sane gs2 st stn Q S E) as [Qn Sn]. pose proof Q as (Q1 & Q2 & Q3). destruct N as [m|m|c m K].
  - assert (Y : log [m] st = shift [m] [] [] (ps_built st) st) by (unfold log, shift; cbn; rewrite Q1; reflexivity). rewrite Y.
    destruct (acts_after gs2 l2 [m] [] (ps_built st) st stn L2 Q S S E) as (b' & Sb' & ->). cbn [bind]. eapply finish_after; eauto.
  - assert (Y : log_ci [m] st = shift [] [] [m] (ps_built st) st) by (unfold log_ci, shift; cbn; rewrite Q3; reflexivity). rewrite Y.
    destruct (acts_after gs2 l2 [] [m] (ps_built st) st stn L2 Q S S E) as (b' & Sb' & ->). cbn [bind]. eapply finish_info; eauto.
  - assert (Y : log_cur [m] st = shift [] [m] [] (ps_built st) st) by (unfold log_cur, shift; cbn; rewrite Q2; reflexivity). rewrite Y.
    destruct (acts_told c m gs2 l2 [] (ps_built st) st stn L2 Q S S K E) as (b' & Sb' & [[-> Kn]| ->]); cbn [bind].
    + eapply finish_told; eauto.
    + eapply finish_after; eauto.
Qed.
Lemma one_mistake one gs1 before after g gs2 d e : Attributes before gs1 -> Attributes (tag_name (g_tag g) ++ after) (g :: gs2) ->
  Attributes one (gs1 ++ gs2) -> tv_parse O one = Ok d ->
  (forall st, effects O gs1 init_state = Some st -> quiet st -> exists st', act O (g_tag g) (1 + count_lf before)%N (g_val g) (g_com g) st = Ok st' /\ Noise st st' e) ->
  tv_parse O (before ++ tag_name (g_tag g) ++ after) = Raise e.
Proof.
  intros A1 A2 A3 P H. destruct (attributes_run O _ _ A3) as (lines & Ll & R). rewrite R in P. apply parse_effects in P as (stn & E & En); [|exact Ll].
  rewrite effects_app in E. destruct (effects O gs1 init_state) as [st|] eqn:E1; [|discriminate E].
  destruct (effects_sane gs1 init_state st init_quiet ltac:(discriminate) E1) as [Q S]. destruct (effects_sane gs2 st stn Q S E) as [Qn Sn].
  destruct (numbered_run O before after gs1 g gs2 A1 A2) as (l1 & l2 & L1 & L2 & ->).
  rewrite acts_app by exact L1. apply (acts_effects O gs1 l1 init_state st L1 init_quiet) in E1 as [X _]. rewrite X. cbn [bind acts].
  destruct (H st eq_refl Q) as (st' & -> & N). cbn [bind].
  exact (after_noise gs2 l2 st stn st' e d L2 Q S E En N).
Qed.
End WithOracles.
