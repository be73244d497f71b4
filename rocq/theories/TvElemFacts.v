(** Every written element is read back. *)
From Verif Require Import Py PyFacts PyRe PyReFacts Data Oracles Basics BasicsSpec BasicsFacts ActorFacts Json Construct JsonConv JsonParse JsonSpec
  JsonRound TvWriter TvLexer TvSpec TvTokSpec TvLexFacts TvLexValues TvParser TvParseFacts TvFieldFacts.

(** ** Lines made of several words *)
Lemma word_no_space w : In w format_words -> forall c, In c w -> is_space c = false.
Proof.
  intros H c Hc. assert (K : forallb (forallb (fun c => negb (is_space c))) format_words = true) by (vm_compute; reflexivity).
  rewrite forallb_forall in K. specialize (K w H). rewrite forallb_forall in K. specialize (K c Hc). apply negb_true_iff in K. exact K.
Qed.
Lemma special_words a c r : is_space c = true -> special a = false -> special (a ++ c :: r) = false.
Proof.
  intros Hc Ha. apply special_plain in Ha as [Ha _]. unfold special. rewrite <- orb_assoc. apply orb_false_iff. split.
  - apply str_in_false. intro K. assert (F : is_space c = false) by (eapply word_no_space; [exact K|apply in_or_app; right; left; auto]).
    congruence.
  - rewrite <- (plain_stop a c r Hc) in Ha. unfold plain_start in Ha. apply negb_true_iff in Ha. exact Ha.
Qed.
Lemma unspaced_no a x : Unspaced a -> is_space x = true -> ~ In x a.
Proof. intros [_ H] Hx K. apply H in K. congruence. Qed.
Lemma unspaced_solid a : Unspaced a -> solid a = true.
Proof. intros [Hn H]. destruct a as [|c a]; [congruence|]. cbn. rewrite (H c); auto. left; auto. Qed.
Lemma unspaced_last a : Unspaced a -> forall c t, a = t ++ [c] -> is_space c = false.
Proof. intros [_ H] c t ->. apply H. apply in_or_app. right. left. auto. Qed.
Lemma line_words a r : solid a = true -> special a = false -> ~ In LF a -> ~ In CR a -> r <> [] -> ~ In LF r -> ~ In CR r ->
  (forall c t, r = t ++ [c] -> is_space c = false) -> Line (a ++ $" " ++ r).
Proof.
  intros Hs Hsp H1 H2 Hn H3 H4 Hl. assert (F : forall x, x <> #" " -> ~ In x a -> ~ In x r -> ~ In x (a ++ $" " ++ r)).
  { intros x Hx Hxa Hxr. rewrite !in_app_iff. intros [K|[K|K]]; auto. destruct K as [K|[]]; auto. }
  split; [apply F; auto; discriminate|]. split; [apply F; auto; discriminate|]. split.
  - apply strip_id. apply stripped_cat; auto; [discriminate|]. intros c t E. destruct (exists_last Hn) as (r' & x & Er).
    rewrite Er, app_assoc in E. apply app_inj_tail in E as [_ <-]. eapply Hl; eauto.
  - left. apply special_words; auto.
Qed.
Lemma hex_head_words : forallb (fun w => match w with x :: _ => negb (hex x) | [] => false end) (format_words ++ special_prefixes) = true.
Proof. vm_compute. reflexivity. Qed.
Lemma hex_special h r : Hex h -> 5 <= List.length h -> special (h ++ r) = false.
Proof.
  intros [Hn Hh] Hl. destruct h as [|c0 h]; [congruence|]. pose proof hex_head_words as W. rewrite forallb_forall in W.
  assert (H0 : hex c0 = true) by (cbn [forallb] in Hh; apply andb_true_iff in Hh; apply Hh).
  unfold special. apply orb_false_iff. split; [apply orb_false_iff; split|].
  - apply str_in_false. intro K. specialize (W _ (in_or_app _ _ _ (or_introl K))). cbn in W. rewrite H0 in W. discriminate.
  - destruct (existsb _ special_prefixes) eqn:E; auto. apply existsb_exists in E as (p & Hp & E).
    specialize (W _ (in_or_app _ _ _ (or_intror Hp))). destruct p as [|x p]; [discriminate|]. cbn in E, W.
    apply andb_true_iff in E as [E _]. apply N.eqb_eq in E. subst x. rewrite H0 in W. discriminate.
  - destruct h as [|c1 [|c2 [|c3 [|c4 h]]]]; try (cbn in Hl; lia). cbn [forallb] in Hh. rewrite !andb_true_iff in Hh.
    destruct Hh as (_ & _ & _ & _ & H4 & _).
    assert (N4 : N.eqb #"-" c4 = false) by (apply N.eqb_neq; intros <-; discriminate).
    change (stamp_shape) with ($"0000" ++ #"-" :: $"00-00T00:00:00Z"). change ((c0 :: c1 :: c2 :: c3 :: c4 :: h) ++ r) with ([c0; c1; c2; c3] ++ c4 :: h ++ r).
    cbn [app lit map list_ascii_of_string begins_like]. change (N.eqb #"-" #"0") with false. cbv iota. rewrite N4. cbn [andb]. rewrite !andb_false_r. reflexivity.
Qed.


Section WithOracles.
Variable O : oracles.
Notation Steps := (Steps O).
Section Fields.
Variables (b : built) (ci : tdict) (c : clazz) (L : list (pystr * option tval)).
Notation st := (est b ci c L).

(** an attribute whose action does not need more than the value *)
Lemma f_line t v f : Line v -> value_kind t = Some K_line -> tag_data_model_field t = Some (Some c, f) -> is_start_tag t = false ->
  str_in f (map fst L) = false -> (forall line, act O t line (line_tok v) None st = generic_value t line v (Ok (VStr v)) st) ->
  Steps (write_value (tag_name t) v) st (est b ci c (L ++ [(f, Some (VStr v))])).
Proof. intros H Hk Hf Hs Hn Ha. eapply field_generic; eauto using ValTok_line, line_CR. Qed.
Lemma f_text t v f : Text v -> value_kind t = Some K_text_or_line -> tag_data_model_field t = Some (Some c, f) -> is_start_tag t = false ->
  str_in f (map fst L) = false ->
  (forall line k, act O t line k None st = generic_value t line (text_or_line_value k) (Ok (VStr (text_or_line_value k))) st) ->
  Steps (write_text (tag_name t) v) st (est b ci c (L ++ [(f, Some (VStr v))])).
Proof.
  intros H Hk Hf Hs Hn Ha. rewrite write_text_eq. eapply field_generic; eauto using ValTok_text_form, text_CR.
  - apply text_accepts.
  - intro line. exists v. rewrite Ha, text_value by exact H. reflexivity.
Qed.
Lemma f_nn t x f : TvLine x -> value_kind t = Some K_line_or_na_or_none -> tag_data_model_field t = Some (Some c, f) -> is_start_tag t = false ->
  str_in f (map fst L) = false -> (forall line k, act O t line k None st = generic_value t line (tk_value k) (Ok (line_value k)) st) ->
  Steps (write_value (tag_name t) (text_str x)) st (est b ci c (L ++ [(f, Some (nn_tval x))])).
Proof.
  intros H Hk Hf Hs Hn Ha. destruct (nn_reads x H) as (H1 & H2 & H3 & H4). eapply field_generic; eauto.
  intro line. eexists. rewrite Ha, H3. reflexivity.
Qed.
Lemma f_text_value t o f : IfSome TvText o -> value_kind t = Some K_line_or_na_or_none -> tag_data_model_field t = Some (Some c, f) ->
  is_start_tag t = false -> str_in f (map fst L) = false ->
  (forall line k, act O t line k None st = generic_value t line (tk_value k) (Ok (line_value k)) st) ->
  Steps (write_text_value (tag_name t) o) st (est b ci c (L ++ [(f, option_map nn_tval o)])).
Proof.
  intros H Hk Hf Hs Hn Ha. rewrite write_text_value_eq. apply (optional O TvText); auto. intros x Hx.
  destruct (tnn_reads x Hx) as (H1 & H2 & H3 & H4). eapply field_generic; eauto. intro line. eexists. rewrite Ha, H3. reflexivity.
Qed.
Definition lic_tval (l : license) : tval := license_tval (Some l).
Lemma f_opt_license t o f : IfSome (TvLicense O) o -> value_kind t = Some K_license -> tag_data_model_field t = Some (Some c, f) ->
  is_start_tag t = false -> str_in f (map fst L) = false -> (forall line k, act O t line k None st = generic_license O t line k st) ->
  Steps (write_opt_license O (tag_name t) o) st (est b ci c (L ++ [(f, option_map lic_tval o)])).
Proof.
  intros H Hk Hf Hs Hn Ha. unfold write_opt_license. rewrite write_opt_eq. apply (optional O (TvLicense O)); auto. intros l Hl.
  destruct (lic_reads O l Hl) as (H1 & H2 & H3 & H4). eapply field_generic; eauto. intro line. eexists. rewrite Ha. unfold generic_license.
  rewrite H3. cbn [bind]. reflexivity.
Qed.
Lemma f_opt_actor t o f : IfSome TvActorNA o -> value_kind t = Some K_actor_or_na -> tag_data_model_field t = Some (Some c, f) ->
  is_start_tag t = false -> str_in f (map fst L) = false ->
  (forall line k, act O t line k None st = (do a <- actor_value k; generic_value t line (tk_value k) (Ok a) st)) ->
  Steps (write_actor (tag_name t) o) st (est b ci c (L ++ [(f, option_map ana_tval o)])).
Proof.
  intros H Hk Hf Hs Hn Ha. unfold write_actor. rewrite write_opt_eq. apply (optional O TvActorNA); auto. intros x Hx.
  destruct (ana_reads x Hx) as (H1 & H2 & H3 & H4). eapply field_generic; eauto. intro line. eexists. rewrite Ha, H3. cbn [bind]. reflexivity.
Qed.
(** an attribute stored with set_cur under the class *)
Lemma f_set t vk v k x f : ValTok v k -> ~ In CR v -> value_kind t = Some vk -> accepts vk (tk_type k) = true ->
  get_property_name t = f -> str_in f (map fst L) = false ->
  (forall line, exists shown, act O t line k None st = in_class c line st (set_cur t line shown (Ok x))) ->
  Steps (write_value (tag_name t) v) st (est b ci c (L ++ [(f, Some x)])).
Proof.
  intros Hv Hc Hk Ha Hf Hn H. eapply Steps_field; eauto. intro line. destruct (H line) as (shown & ->).
  rewrite in_class_est. rewrite set_cur_est by (rewrite Hf; exact Hn). rewrite Hf. reflexivity.
Qed.
Lemma f_opt_date t o f : IfSome PlainDate o -> value_kind t = Some K_date -> get_property_name t = f -> str_in f (map fst L) = false ->
  (forall line k, act O t line k None st = in_class c line st (set_cur t line (tk_value k) (date_value (tk_value k)))) ->
  Steps (write_opt_date (tag_name t) o) st (est b ci c (L ++ [(f, option_map VDate o)])).
Proof.
  intros H Hk Hf Hn Ha. unfold write_opt_date. apply (optional O PlainDate); auto. intros d Hd.
  destruct (date_reads d Hd) as (v & E1 & E2 & E3 & E4). unfold write_date. rewrite E1. cbn [bind]. eapply f_set; eauto.
  intro line. eexists. rewrite Ha. cbn [tk_value]. unfold date_value. rewrite E2. reflexivity.
Qed.
Lemma f_spdx_id v y : Line v -> assoc $"spdx_id" ci = Some y -> str_in $"spdx_id" (map fst L) = false ->
  Steps (write_value $"SPDXID" v) st (est b ci c (L ++ [($"spdx_id", Some (VStr v))])).
Proof.
  intros H Hy Hn. apply (Steps_field O T_SPDXID K_line v (line_tok v)); auto using ValTok_line, line_CR.
  intro line. cbn [act]. unfold spdx_id_action. cbn [ps_ci est]. rewrite Hy. cbn [ps_cur est line_tok tk_value].
  rewrite with_cur_est by exact Hn. reflexivity.
Qed.
(** lists *)
Lemma f_lines t l f : Forall Line l -> value_kind t = Some K_line -> str_in f (map fst L) = false ->
  (forall line k st, act O t line k None st = text_list c f line (tk_value k) st) ->
  Steps (write_each (write_value (tag_name t)) l) st (est b ci c (L ++ [(f, entry VStrs l)])).
Proof.
  intros H Hk Hn Ha. apply (each O Line); auto. intros x a Hx. eapply Steps_field; eauto using ValTok_line, line_CR. intro line.
  rewrite Ha. unfold text_list. rewrite in_class_est. apply append_entry; auto.
Qed.
Lemma f_texts t l f : Forall Text l -> value_kind t = Some K_text_or_line -> str_in f (map fst L) = false ->
  (forall line k a, act O t line k None (est b ci c (L ++ [(f, entry VStrs a)])) = append_cur f (VStrs [text_or_line_value k]) (est b ci c (L ++ [(f, entry VStrs a)]))) ->
  Steps (write_each (write_text (tag_name t)) l) st (est b ci c (L ++ [(f, entry VStrs l)])).
Proof.
  intros H Hk Hn Ha. apply (each O Text); auto. intros x a Hx. rewrite write_text_eq. eapply Steps_field; eauto using ValTok_text_form, text_CR.
  - apply text_accepts.
  - intro line. rewrite Ha, text_value by exact Hx. apply append_entry; auto.
Qed.
Lemma f_checksums t l : Forall TvChecksum l -> value_kind t = Some K_checksum -> str_in $"checksums" (map fst L) = false ->
  (forall line k st, act O t line k None st = checksum_action c line (tk_value k) st) ->
  Steps (write_each (write_checksum (tag_name t)) l) st (est b ci c (L ++ [($"checksums", entry VChecksums l)])).
Proof.
  intros H Hk Hn Ha. apply (each O TvChecksum); auto. intros x a Hx. rewrite write_checksum_eq. destruct (sum_reads x Hx) as (H1 & H2).
  eapply Steps_field; eauto. intro line. rewrite Ha. unfold checksum_action. rewrite in_class_est. cbn [tk_value sum_tok].
  unfold sum_tok. cbn [tk_value]. rewrite parse_sum by exact Hx. cbn [bind]. apply append_entry; auto.
Qed.
Definition VLicenses (l : list license) : tval := VLics (map Some l).
Lemma f_licenses t l f : Forall (TvLicense O) l -> value_kind t = Some K_license -> str_in f (map fst L) = false ->
  (forall line k st, act O t line k None st = license_list O c f line k st) ->
  Steps (write_each (write_license O (tag_name t)) l) st (est b ci c (L ++ [(f, entry VLicenses l)])).
Proof.
  intros H Hk Hn Ha. apply (each O (TvLicense O)); auto. intros x a Hx. destruct (lic_reads O x Hx) as (H1 & H2 & H3 & H4).
  eapply Steps_field; eauto. intro line. rewrite Ha. unfold license_list. rewrite H3. cbn [bind].
  change (log_cur [] (est b ci c (L ++ [(f, entry VLicenses a)]))) with (est b ci c (L ++ [(f, entry VLicenses a)])).
  rewrite in_class_est. change (VLics [Some x]) with (VLicenses [x]). apply append_entry; auto.
  intro l'. unfold VLicenses. cbn [append_val]. rewrite map_app. reflexivity.
Qed.
End Fields.
End WithOracles.
