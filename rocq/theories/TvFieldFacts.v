(** Every kind of written attribute is read back. *)
From Verif Require Import Py PyFacts PyRe PyReFacts Data Oracles Basics BasicsSpec BasicsFacts ActorFacts Json Construct JsonConv JsonParse JsonSpec
  JsonRound TvWriter TvLexer TvSpec TvTokSpec TvLexFacts TvLexValues TvParser TvParseFacts.

Section WithOracles.
Variable O : oracles.
Notation Steps := (Steps O).

(** ** Single values *)
Lemma field_generic t vk v k x b ci c f L : ValTok v k -> ~ In CR v -> value_kind t = Some vk -> accepts vk (tk_type k) = true ->
  tag_data_model_field t = Some (Some c, f) -> is_start_tag t = false -> str_in f (map fst L) = false ->
  (forall line, exists shown, act O t line k None (est b ci c L) = generic_value t line shown (Ok x) (est b ci c L)) ->
  Steps (write_value (tag_name t) v) (est b ci c L) (est b ci c (L ++ [(f, Some x)])).
Proof.
  intros Hv Hc Hk Ha Hf Hs Hn H. eapply Steps_field; eauto. intro line. destruct (H line) as (shown & ->).
  unfold generic_value. rewrite Hf, Hs. cbn [bind]. rewrite in_class_est.
  assert (E : get_property_name t = f) by (unfold get_property_name; rewrite Hf; reflexivity).
  rewrite set_cur_est by (rewrite E; exact Hn). rewrite E. reflexivity.
Qed.
(** the first attribute of an element *)
Lemma start_generic t vk v k x st b ci c f : ValTok v k -> ~ In CR v -> value_kind t = Some vk -> accepts vk (tk_type k) = true ->
  tag_data_model_field t = Some (Some c, f) -> is_start_tag t = true -> Closed st ci b ->
  (forall line, exists shown, act O t line k None st = generic_value t line shown (Ok x) st) ->
  Steps (write_value (tag_name t) v) st (est b ci c [(f, Some x)]).
Proof.
  intros Hv Hc Hk Ha Hf Hs Hcl H. eapply Steps_field; eauto. intro line. destruct (H line) as (shown & ->).
  unfold generic_value. rewrite Hf, Hs, (Closed_init st ci b c Hcl). cbn [bind]. rewrite in_class_est.
  assert (E : get_property_name t = f) by (unfold get_property_name; rewrite Hf; reflexivity).
  rewrite set_cur_est by reflexivity. rewrite E. reflexivity.
Qed.
(** an optional attribute *)
Lemma est_none b ci c L f : est b ci c (L ++ [(f, None)]) = est b ci c L.
Proof. unfold est. rewrite table_app. cbn [table]. rewrite app_nil_r. reflexivity. Qed.
Lemma optional {A} (P : A -> Prop) (w : A -> result pystr) (inj : A -> tval) o b ci c L f : IfSome P o ->
  (forall a, P a -> Steps (w a) (est b ci c L) (est b ci c (L ++ [(f, Some (inj a))]))) ->
  Steps (match o with Some a => w a | None => Ok [] end) (est b ci c L) (est b ci c (L ++ [(f, option_map inj o)])).
Proof.
  intros H Hw. destruct o as [a|]; cbn [option_map IfSome] in *; [auto|]. rewrite est_none. apply Steps_nil.
Qed.
Lemma write_opt_eq {A} (show : A -> pystr) t (o : option A) :
  write_opt t (option_map show o) = match o with Some a => write_value t (show a) | None => Ok [] end.
Proof. destruct o; reflexivity. Qed.

(** ** Lists *)
Definition entry {A} (inj : list A -> tval) (l : list A) : option tval := match l with [] => None | _ => Some (inj l) end.
Lemma entry_snoc {A} (inj : list A -> tval) l x : entry inj (l ++ [x]) = Some (inj (l ++ [x])).
Proof. destruct l; reflexivity. Qed.
Lemma append_entry {A} (inj : list A -> tval) b ci c L f l x : str_in f (map fst L) = false ->
  (forall a, append_val (Some (inj a)) (inj [x]) = Ok (inj (a ++ [x]))) ->
  append_cur f (inj [x]) (est b ci c (L ++ [(f, entry inj l)])) = Ok (est b ci c (L ++ [(f, entry inj (l ++ [x]))])).
Proof.
  intros Hn Ha. pose proof (table_fresh f L Hn) as F. unfold append_cur. rewrite entry_snoc. destruct l as [|y l].
  - cbn [entry app]. rewrite est_none. cbn [ps_cur est]. rewrite F. cbn [append_val bind]. rewrite with_cur_est by exact Hn. reflexivity.
  - cbn [entry]. unfold est at 1. cbn [ps_cur]. rewrite table_app. cbn [table]. rewrite assoc_last by exact F. rewrite Ha. cbn [bind].
    unfold with_cur, est. cbn [ps_log ps_class ps_cur_log ps_cur ps_ci_log ps_ci ps_built]. rewrite !table_app. cbn [table]. rewrite dict_set_last by exact F. reflexivity.
Qed.
Lemma each {A} (P : A -> Prop) (w : A -> result pystr) (inj : list A -> tval) l b ci c L f : Forall P l ->
  (forall x a, P x -> Steps (w x) (est b ci c (L ++ [(f, entry inj a)])) (est b ci c (L ++ [(f, entry inj (a ++ [x]))]))) ->
  Steps (write_each w l) (est b ci c L) (est b ci c (L ++ [(f, entry inj l)])).
Proof.
  intros Hl Hw. rewrite <- (est_none b ci c L f). change (@None tval) with (entry inj []).
  replace (entry inj l) with (entry inj ([] ++ l)) by reflexivity. generalize (@nil A) as a.
  unfold write_each. induction Hl as [|x l Hx Hl IH]; intro a; cbn [map].
  - rewrite app_nil_r. apply Steps_done.
  - eapply Steps_writes; [apply Hw; exact Hx|]. specialize (IH (a ++ [x])). rewrite <- app_assoc in IH. exact IH.
Qed.

(** ** Kinds of values *)
Lemma line_CR v : Line v -> ~ In CR v.
Proof. intros (_ & H & _). exact H. Qed.
Definition line_tok (v : pystr) : token := {| tk_type := TT_LINE; tk_value := v |}.

(** texts *)
Definition text_form (v : pystr) : pystr := if has_char LF v then $"<text>" ++ v ++ $"</text>" else v.
Definition text_type (v : pystr) : ttype :=
  if has_char LF v then TT_TEXT else if str_eqb v $"NOASSERTION" then TT_NO_ASSERTION else if str_eqb v $"NONE" then TT_NONE else TT_LINE.
Definition text_tok (v : pystr) : token := {| tk_type := text_type v; tk_value := text_form v |}.
Lemma line_word v w : Line v -> In w format_words -> str_eqb v w = false.
Proof.
  intros (_ & _ & _ & S) Hw. destruct (str_eqb v w) eqn:E; [|reflexivity]. apply str_eqb_eq in E. subst w. apply str_in_In in Hw. destruct S as [S|S].
  - unfold special in S. rewrite Hw in S. discriminate S.
  - repeat (destruct S as [<-|S]; [vm_compute in Hw; discriminate Hw|]). destruct S.
Qed.
Lemma line_type v : Line v -> text_type v = TT_LINE.
Proof.
  intro H. unfold text_type. rewrite (line_word v $"NOASSERTION"), (line_word v $"NONE") by (auto; apply str_in_In; reflexivity).
  destruct H as (H & _). apply has_char_false in H. rewrite H. reflexivity.
Qed.
Lemma write_text_eq t v : write_text t v = write_value t (text_form v).
Proof.
  unfold write_text, text_form, write_value. destruct (has_char LF v); auto. rewrite <- !app_assoc. reflexivity.
Qed.
Lemma text_CR v : Text v -> ~ In CR (text_form v).
Proof.
  unfold text_form. intros [H|[H|(_ & H & _)]].
  - destruct H as (Hl & H & _). apply has_char_false in Hl. rewrite Hl. exact H.
  - destruct H as [<-|[<-|[]]]; apply has_char_false; reflexivity.
  - destruct (has_char LF v); auto. rewrite !in_app_iff. intros [K|[K|K]]; auto; revert K; apply has_char_false; reflexivity.
Qed.
Lemma ValTok_text_form v : Text v -> ValTok (text_form v) (text_tok v).
Proof.
  unfold text_tok, text_form. intros [H|[H|(H & _ & Hc)]].
  - rewrite (line_type v H). pose proof H as (Hl & _). apply has_char_false in Hl. rewrite Hl. apply ValTok_line. exact H.
  - destruct H as [<-|[<-|[]]]; [exact ValTok_noassertion|exact ValTok_none].
  - apply has_char_In in H. unfold text_type. rewrite H. apply ValTok_text. exact Hc.
Qed.
Lemma str_from_text_form v : In LF v -> str_from_text ($"<text>" ++ v ++ $"</text>") = v.
Proof.
  intro Hv. unfold str_from_text, re_match, str_from_text_re.
  rewrite pcats_cons, pm_pcat, pm_plit, startswith_app, skipn_len_app, pcats_cons, pm_pcat. cbn [pm pplus].
  destruct v as [|c v]; [destruct Hv|]. cbn [app].
  cbn [pcats].
  rewrite star_bt_longest with (a := v) (b := $"</text>") (r := ([], [(1, c :: v)])).
  - reflexivity.
  - apply forallb_forall. auto.
  - rewrite pm_plit. change (startswith $"</text>" $"</text>") with true. cbv iota.
    change (c :: v ++ $"</text>") with ((c :: v) ++ $"</text>"). rewrite firstn_len_app. reflexivity.
  - intros a' b' E _ Hlt. rewrite pm_plit. destruct (startswith $"</text>" b') eqn:F; auto. exfalso.
    apply startswith_spec in F as (r & ->). apply (f_equal (@List.length _)) in E. rewrite !app_length in E.
    change (List.length $"</text>") with 7 in E. lia.
Qed.
Lemma text_value v : Text v -> text_or_line_value (text_tok v) = v.
Proof.
  unfold text_or_line_value, text_tok, text_form, text_type. destruct (has_char LF v) eqn:E; cbn [tk_type tk_value].
  - intros _. apply str_from_text_form. apply has_char_In. exact E.
  - intros _. destruct (str_eqb v _); [reflexivity|]. destruct (str_eqb v _); reflexivity.
Qed.
Lemma text_line_value v : Text v -> v <> $"NOASSERTION" -> v <> $"NONE" -> line_value (text_tok v) = VStr v.
Proof.
  unfold line_value, text_tok, text_form, text_type. destruct (has_char LF v) eqn:E; cbn [tk_type tk_value].
  - intros _ _ _. rewrite str_from_text_form; auto. apply has_char_In. exact E.
  - intros _ N1 N2. destruct (str_eqb v $"NOASSERTION") eqn:E1; [apply str_eqb_eq in E1; contradiction|]. destruct (str_eqb v $"NONE") eqn:E2; [apply str_eqb_eq in E2; contradiction|]. reflexivity.
Qed.
Lemma text_accepts v : accepts K_text_or_line (tk_type (text_tok v)) = true /\ accepts K_line_or_na_or_none (tk_type (text_tok v)) = true.
Proof. unfold text_tok, text_type. cbn [tk_type]. destruct (has_char LF v); auto. destruct (str_eqb v _); auto. destruct (str_eqb v _); auto. Qed.

(** strings, NOASSERTION or NONE *)
Definition nn_tval (x : nn pystr) : tval := match x with NVal s => VStr s | NNoAssertion => VNoAssertion | NNone => VNone end.
Definition nn_tok (x : nn pystr) : token :=
  match x with
  | NVal s => line_tok s
  | NNoAssertion => {| tk_type := TT_NO_ASSERTION; tk_value := $"NOASSERTION" |}
  | NNone => {| tk_type := TT_NONE; tk_value := $"NONE" |}
  end.
Lemma nn_reads x : TvLine x -> ValTok (text_str x) (nn_tok x) /\ ~ In CR (text_str x) /\ line_value (nn_tok x) = nn_tval x
  /\ accepts K_line_or_na_or_none (tk_type (nn_tok x)) = true.
Proof.
  destruct x as [s| |]; cbn [TvLine text_str nn_to_str nn_tok nn_tval]; intro H.
  - split; [apply ValTok_line; auto|]. split; [apply line_CR; auto|]. auto.
  - split; [apply ValTok_noassertion|]. split; [apply has_char_false; reflexivity|]. auto.
  - split; [apply ValTok_none|]. split; [apply has_char_false; reflexivity|]. auto.
Qed.
(** text values *)
Definition tnn_tok (x : nn pystr) : token := match x with NVal s => text_tok s | _ => nn_tok x end.
Lemma write_text_value_eq t o : write_text_value t o =
  match o with Some x => write_value t (match x with NVal s => text_form s | _ => text_str x end) | None => Ok [] end.
Proof. destruct o as [[s| |]|]; cbn [write_text_value]; auto. apply write_text_eq. Qed.
Lemma tnn_reads x : TvText x -> ValTok (match x with NVal s => text_form s | _ => text_str x end) (tnn_tok x)
  /\ ~ In CR (match x with NVal s => text_form s | _ => text_str x end) /\ line_value (tnn_tok x) = nn_tval x
  /\ accepts K_line_or_na_or_none (tk_type (tnn_tok x)) = true.
Proof.
  destruct x as [s| |]; cbn [TvText tnn_tok]; intro H.
  - destruct H as (H & N1 & N2). split; [apply ValTok_text_form; auto|]. split; [apply text_CR; auto|]. split; [apply text_line_value; auto|apply text_accepts].
  - apply (nn_reads NNoAssertion I).
  - apply (nn_reads NNone I).
Qed.
(** licenses *)
Definition lic_tok (l : license) : token :=
  match l with NVal e => line_tok (o_lic_str O e) | NNoAssertion => nn_tok NNoAssertion | NNone => nn_tok NNone end.
Lemma lic_reads l : TvLicense O l -> ValTok (lic_str O l) (lic_tok l) /\ ~ In CR (lic_str O l)
  /\ license_value O (lic_tok l) = Ok ([], Some l) /\ accepts K_license (tk_type (lic_tok l)) = true.
Proof.
  destruct l as [e| |]; cbn [TvLicense]; intro H.
  - destruct H as (H1 & H2 & H3). cbn [lic_tok]. unfold lic_str. cbn [nn_to_str].
    split; [apply ValTok_line; auto|]. split; [apply line_CR; auto|]. split; auto.
    unfold license_value, line_tok. cbn [tk_type tk_value licensing_parse]. destruct H2 as (_ & _ & Hs & _). rewrite Hs.
    destruct (o_lic_str O e); [congruence|]. rewrite H1. reflexivity.
  - split; [apply ValTok_noassertion|]. split; [apply has_char_false; reflexivity|]. auto.
  - split; [apply ValTok_none|]. split; [apply has_char_false; reflexivity|]. auto.
Qed.
(** actors *)
Lemma actor_CR a : TvActor a -> ~ In CR (actor_str a).
Proof.
  intros (_ & H1 & H2). rewrite actor_str_prefix, in_app_iff. intros [K|K].
  - revert K. apply has_char_false. destruct (ac_type a); reflexivity.
  - destruct K as [K|K]; [discriminate|]. apply in_app_iff in K as [K|K]; [auto|].
    destruct (ac_email a) as [[|c e]|]; [destruct K| |destruct K]. cbn [IfSome] in H2. rewrite !in_app_iff in K.
    destruct K as [K|[K|K]]; auto; revert K; apply has_char_false; reflexivity.
Qed.
Definition act_tok (a : actor) : token := {| tk_type := actor_token (ac_type a); tk_value := actor_str a |}.
Definition ana_tok (x : na actor) : token := match x with AVal a => act_tok a | ANoAssertion => nn_tok NNoAssertion end.
Definition ana_tval (x : na actor) : tval := match x with AVal a => VActor a | ANoAssertion => VNoAssertion end.
Lemma ana_reads x : TvActorNA x -> ValTok (na_to_str actor_str x) (ana_tok x) /\ ~ In CR (na_to_str actor_str x)
  /\ actor_value (ana_tok x) = Ok (ana_tval x) /\ accepts K_actor_or_na (tk_type (ana_tok x)) = true.
Proof.
  destruct x as [a|]; cbn [TvActorNA]; intro H.
  - destruct H as [H Ht]. split; [apply ValTok_actor; apply H|]. split; [apply actor_CR; auto|]. cbn [ana_tok act_tok ana_tval].
    unfold actor_value, act_tok. cbn [tk_type tk_value]. destruct H as [H _]. apply actor_round_trip in H. rewrite H.
    destruct (ac_type a); cbn [actor_token]; [split; reflexivity|split; reflexivity|congruence].
  - split; [apply ValTok_noassertion|]. split; [apply has_char_false; reflexivity|]. auto.
Qed.
(** checksums *)
Definition tv_alg (a : checksum_alg) : pystr :=
  match a with
  | CA_BLAKE2B_256 => $"BLAKE2b-256" | CA_BLAKE2B_384 => $"BLAKE2b-384" | CA_BLAKE2B_512 => $"BLAKE2b-512"
  | CA_SHA3_256 => $"SHA3-256" | CA_SHA3_384 => $"SHA3-384" | CA_SHA3_512 => $"SHA3-512"
  | a => checksum_alg_name a
  end.
Lemma write_checksum_eq t c : write_checksum t c = write_value t (tv_alg (ck_alg c) ++ $": " ++ ck_value c).
Proof. destruct c as [[] v]; reflexivity. Qed.
Lemma tv_alg_known a : In (tv_alg a) lex_algorithms.
Proof. apply str_in_In. destruct a; reflexivity. Qed.
Lemma hex_CR h : Hex h -> ~ In CR h.
Proof.
  intros [_ H] K. rewrite forallb_forall in H. apply H in K. discriminate.
Qed.
Lemma hex_colon h : Hex h -> ~ In #":" h.
Proof. intros [_ H] K. rewrite forallb_forall in H. apply H in K. discriminate. Qed.
Lemma hex_stripped h : Hex h -> stripped h.
Proof.
  intros [Hn H]. split.
  - intros c s' ->. cbn [forallb] in H. apply andb_true_iff in H. apply hex_not_space, H.
  - intros c s' E. eapply hex_last_not_space; [split; eauto|exact E].
Qed.
Definition sum_text (c : checksum) : pystr := tv_alg (ck_alg c) ++ $": " ++ ck_value c.
Definition sum_tok (c : checksum) : token := {| tk_type := TT_CHECKSUM; tk_value := sum_text c |}.
Lemma parse_sum c : TvChecksum c -> tv_parse_checksum (sum_text c) = Ok c.
Proof.
  intro H. unfold TvChecksum in H. unfold tv_parse_checksum, sum_text. change $": " with [#":"; #" "].
  rewrite (proj2 (split_two #":" _ (tv_alg (ck_alg c)) (#" " :: ck_value c))).
  - assert (E : enum_lookup checksum_alg_all checksum_alg_name (replace $"-" $"_" (upper (tv_alg (ck_alg c)))) = Some (ck_alg c))
      by (destruct (ck_alg c); vm_compute; reflexivity).
    rewrite E, stripped_space by (apply hex_stripped; auto). destruct c; reflexivity.
  - split; [reflexivity|]. split; [apply alg_no_colon, tv_alg_known|]. intros [K|K]; [discriminate|]. revert K. apply hex_colon. exact H.
Qed.
Lemma sum_reads c : TvChecksum c -> ValTok (sum_text c) (sum_tok c) /\ ~ In CR (sum_text c).
Proof.
  intro H. split; [apply ValTok_checksum; [apply tv_alg_known|exact H]|]. unfold sum_text. rewrite !in_app_iff. intros [K|[K|K]].
  - revert K. apply has_char_false. destruct (ck_alg c); reflexivity.
  - revert K. apply has_char_false. reflexivity.
  - revert K. apply hex_CR. exact H.
Qed.
(** dates *)
Lemma date_reads d : PlainDate d -> exists v, datetime_to_iso_string d = Ok v /\ datetime_from_str v = Ok d
  /\ ValTok v {| tk_type := TT_ISO8601_DATE; tk_value := v |} /\ ~ In CR v.
Proof.
  intro H. destruct (plain_date_iso d H) as (v & _ & H1 & H2). exists v. split; auto. split; auto.
  split; [eapply ValTok_date; eauto|]. destruct (stamp_value d H) as (v' & E & L & B & _). rewrite H1 in E. injection E as <-.
  clear - L B. 
  assert (G : forall sh v, List.length v = List.length sh -> begins_like sh v = true -> ~ In CR sh -> ~ In CR v).
  { induction sh as [|x sh IH]; intros [|c u] HL HB HS K; try discriminate; [destruct K|]. cbn [begins_like] in HB. apply andb_true_iff in HB as [HB1 HB2].
    destruct K as [->|K].
    - destruct (N.eqb x #"0"); [vm_compute in HB1; discriminate|]. apply N.eqb_eq in HB1. apply HS. left. auto.
    - eapply (IH u); eauto. intro K2. apply HS. right. exact K2. }
  apply (G stamp_shape v); auto. apply has_char_false. reflexivity.
Qed.
End WithOracles.
