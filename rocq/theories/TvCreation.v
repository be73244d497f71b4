(** The information on the document is read back. *)
From Verif Require Import Py PyFacts PyRe PyReFacts Data Oracles Basics BasicsSpec BasicsFacts ActorFacts Json Construct JsonConv JsonParse JsonSpec
  JsonRound TvWriter TvLexer TvSpec TvTokSpec TvLexFacts TvLexValues TvParser TvParseFacts TvFieldFacts TvElemFacts TvSpecialFacts TvElements.

Section WithOracles.
Variable O : oracles.
Notation Steps := (Steps O).
(** only attributes of the document so far *)
Definition cst (L : list (pystr * option tval)) : pstate := base (table L) no_elements.
Lemma cst_none L f : cst (L ++ [(f, None)]) = cst L.
Proof. unfold cst. rewrite table_app. cbn [table]. rewrite app_nil_r. reflexivity. Qed.
Lemma with_ci_cst L f x : str_in f (map fst L) = false -> with_ci (dict_set f x (table L)) (cst L) = cst (L ++ [(f, Some x)]).
Proof. intro H. unfold with_ci, cst, base. cbn. rewrite dict_set_new by (apply table_fresh; exact H). rewrite table_app. reflexivity. Qed.
Lemma set_ci_cst L t line shown x : str_in (get_property_name t) (map fst L) = false ->
  set_ci t line shown (Ok x) (cst L) = Ok (cst (L ++ [(get_property_name t, Some x)])).
Proof.
  intro H. unfold set_ci, set_value. change (ps_ci (cst L)) with (table L). rewrite table_fresh by exact H. cbn [bind].
  rewrite with_ci_cst by exact H. reflexivity.
Qed.
Section Fields.
Variable L : list (pystr * option tval).
Lemma c_set t vk v k x f : ValTok v k -> ~ In CR v -> value_kind t = Some vk -> accepts vk (tk_type k) = true -> get_property_name t = f ->
  str_in f (map fst L) = false -> (forall line, exists shown, act O t line k None (cst L) = set_ci t line shown (Ok x) (cst L)) ->
  Steps (write_value (tag_name t) v) (cst L) (cst (L ++ [(f, Some x)])).
Proof.
  intros Hv Hc Hk Ha <- Hn H. eapply Steps_field; eauto. intro line. destruct (H line) as (shown & ->). apply set_ci_cst. exact Hn.
Qed.
Lemma c_line t v f : Line v -> value_kind t = Some K_line -> get_property_name t = f -> str_in f (map fst L) = false ->
  (forall line k, act O t line k None (cst L) = set_ci t line (tk_value k) (Ok (VStr (tk_value k))) (cst L)) ->
  Steps (write_value (tag_name t) v) (cst L) (cst (L ++ [(f, Some (VStr v))])).
Proof. intros H Hk Hf Hn Ha. apply (c_set t K_line v (line_tok v)); auto using ValTok_line, line_CR. intro line. exists v. rewrite Ha. reflexivity. Qed.
Lemma c_optional {A} (P : A -> Prop) (w : A -> result pystr) (inj : A -> tval) o f : IfSome P o ->
  (forall a, P a -> Steps (w a) (cst L) (cst (L ++ [(f, Some (inj a))]))) ->
  Steps (match o with Some a => w a | None => Ok [] end) (cst L) (cst (L ++ [(f, option_map inj o)])).
Proof. intros H Hw. destruct o as [a|]; cbn [option_map IfSome] in *; [auto|]. rewrite cst_none. apply Steps_nil. Qed.
Lemma c_opt_text t o f : IfSome Text o -> value_kind t = Some K_text_or_line -> get_property_name t = f -> str_in f (map fst L) = false ->
  (forall line k, act O t line k None (cst L) = set_ci t line (text_or_line_value k) (Ok (VStr (text_or_line_value k))) (cst L)) ->
  Steps (write_opt_text (tag_name t) o) (cst L) (cst (L ++ [(f, option_map VStr o)])).
Proof.
  intros H Hk Hf Hn Ha. unfold write_opt_text. apply (c_optional Text); auto. intros v Hv. rewrite write_text_eq.
  eapply c_set; eauto using ValTok_text_form, text_CR.
  - apply text_accepts.
  - intro line. exists v. rewrite Ha, text_value by exact Hv. reflexivity.
Qed.
Lemma c_spdx_id v : Line v -> str_in $"spdx_id" (map fst L) = false ->
  Steps (write_value $"SPDXID" v) (cst L) (cst (L ++ [($"spdx_id", Some (VStr v))])).
Proof.
  intros H Hn. apply (Steps_field O T_SPDXID K_line v (line_tok v)); auto using ValTok_line, line_CR.
  intro line. cbn [act]. unfold spdx_id_action. change (ps_ci (cst L)) with (table L). rewrite table_fresh by exact Hn.
  cbn [line_tok tk_value]. rewrite with_ci_cst by exact Hn. reflexivity.
Qed.
Lemma c_append {A} (inj : list A -> tval) f l x : str_in f (map fst L) = false ->
  (forall a, append_val (Some (inj a)) (inj [x]) = Ok (inj (a ++ [x]))) ->
  append_ci f (inj [x]) (cst (L ++ [(f, entry inj l)])) = Ok (cst (L ++ [(f, entry inj (l ++ [x]))])).
Proof.
  intros Hn Ha. pose proof (table_fresh f L Hn) as F. unfold append_ci. rewrite entry_snoc. destruct l as [|y l].
  - cbn [entry app]. rewrite cst_none. change (ps_ci (cst L)) with (table L). rewrite F. cbn [append_val bind]. rewrite with_ci_cst by exact Hn. reflexivity.
  - cbn [entry]. change (ps_ci (cst (L ++ [(f, Some (inj (y :: l)))]))) with (table (L ++ [(f, Some (inj (y :: l)))])).
    rewrite table_app. cbn [table]. rewrite assoc_last by exact F. rewrite Ha. cbn [bind].
    unfold with_ci, cst, base. cbn [ps_log ps_class ps_cur_log ps_cur ps_ci_log ps_ci ps_built]. rewrite !table_app. cbn [table]. rewrite dict_set_last by exact F. reflexivity.
Qed.
Lemma c_each {A} (P : A -> Prop) (w : A -> result pystr) (inj : list A -> tval) l f : Forall P l ->
  (forall x a, P x -> Steps (w x) (cst (L ++ [(f, entry inj a)])) (cst (L ++ [(f, entry inj (a ++ [x]))]))) ->
  Steps (write_each w l) (cst L) (cst (L ++ [(f, entry inj l)])).
Proof.
  intros Hl Hw. rewrite <- (cst_none L f). change (@None tval) with (entry inj []).
  replace (entry inj l) with (entry inj ([] ++ l)) by reflexivity. generalize (@nil A) as a.
  unfold write_each. induction Hl as [|x l Hx Hl IH]; intro a; cbn [map].
  - rewrite app_nil_r. apply Steps_done.
  - eapply Steps_writes; [apply Hw; exact Hx|]. specialize (IH (a ++ [x])). rewrite <- app_assoc in IH. exact IH.
Qed.
Definition ref_line (r : ext_doc_ref) : pystr :=
  join $" " [edr_id r; edr_uri r; checksum_alg_name (ck_alg (edr_checksum r)) ++ $": " ++ ck_value (edr_checksum r)].
Lemma ref_reads r : TvDocRef r -> Line (ref_line r) /\ exists g, re_match ext_doc_ref_re (ref_line r) = Some g
  /\ split_on #" " (strip (group_or_empty 1 g)) = [edr_id r; edr_uri r] /\ tv_parse_checksum (strip (group_or_empty 2 g)) = Ok (edr_checksum r).
Proof.
  intros [[H1 H1'] H2 H3 [H4 H4']]. destruct r as [id uri [alg h]]. unfold ref_line. cbn [edr_id edr_uri edr_checksum ck_alg ck_value] in *. subst alg.
  assert (Fh : forall x, hex x = false -> ~ In x h). { intros x Hx K. destruct H4 as [_ H4]. rewrite forallb_forall in H4. apply H4 in K. congruence. }
  assert (Fu : forall x, is_space x = true -> x <> #" " -> hex x = false -> ~ In x $"SHA1: " -> ~ In x (uri ++ $" " ++ $"SHA1: " ++ h)).
  { intros x K1 K2 K3 K4. rewrite !in_app_iff. intros [K|[K|[K|K]]]; auto.
    - revert K. apply unspaced_no; auto.
    - destruct K as [K|[]]; auto.
    - revert K. apply Fh. auto. }
  change (join $" " [id; uri; checksum_alg_name CA_SHA1 ++ $": " ++ h]) with (id ++ $" " ++ uri ++ $" " ++ $"SHA1: " ++ h).
  split.
  - apply line_words; auto using unspaced_solid, unspaced_LF, unspaced_CR.
    + destruct H2 as [H2 _]. destruct uri; [congruence|discriminate].
    + apply Fu; try reflexivity; try discriminate. apply has_char_false. reflexivity.
    + apply Fu; try reflexivity; try discriminate. apply has_char_false. reflexivity.
    + intros c t E. destruct (exists_last (proj1 H4)) as (h' & x & Eh). rewrite Eh, !app_assoc in E. apply app_inj_tail in E as [_ <-].
      eapply hex_last_not_space; eauto.
  - exists [(2, $"SHA1: " ++ h); (1, id ++ $" " ++ uri ++ $" ")]. split; [|split].
    + transitivity (re_match ext_doc_ref_re ((id ++ $" " ++ uri ++ $" ") ++ $"SHA1: " ++ h)); [rewrite <- !app_assoc; reflexivity|].
      apply doc_ref_matched; auto using hex_lexs.
      rewrite !in_app_iff. intros [K|[K|[K|K]]]; [revert K; apply unspaced_LF; auto|destruct K as [K|[]]; discriminate|revert K; apply unspaced_LF; auto|destruct K as [K|[]]; discriminate].
    + change (group_or_empty 1 [(2, $"SHA1: " ++ h); (1, id ++ $" " ++ uri ++ $" ")]) with (id ++ $" " ++ uri ++ $" ").
      assert (E : strip (id ++ $" " ++ uri ++ $" ") = id ++ #" " :: uri).
      { assert (S : stripped (id ++ #" " :: uri)).
        { apply stripped_cat; auto using unspaced_solid; [discriminate|].
          intros c t Et. destruct (exists_last (proj1 H2)) as (u' & x & Eu). rewrite Eu, app_comm_cons in Et. apply app_inj_tail in Et as [_ <-].
          eapply unspaced_last; eauto. }
        transitivity (strip ((id ++ #" " :: uri) ++ $" ")); [rewrite <- app_assoc; reflexivity|].
        apply strip_trailing; auto. destruct id; discriminate. }
      rewrite E. apply split_two. auto using unspaced_not_space.
    + change (group_or_empty 2 [(2, $"SHA1: " ++ h); (1, id ++ $" " ++ uri ++ $" ")]) with ($"SHA1: " ++ h).
      rewrite strip_id.
      * apply (parse_sum {| ck_alg := CA_SHA1; ck_value := h |}). exact H4.
      * apply (checksum_stripped $"SHA1" h); auto. apply str_in_In. reflexivity.
Qed.
Lemma c_refs l : Forall TvDocRef l -> str_in $"external_document_refs" (map fst L) = false ->
  Steps (write_each write_external_document_ref l) (cst L) (cst (L ++ [($"external_document_refs", entry VDocRefs l)])).
Proof.
  intros H Hn. apply (c_each TvDocRef); auto. intros x a Hx. destruct (ref_reads x Hx) as (Hl & g & G1 & G2 & G3).
  apply (Steps_field O T_ExternalDocumentRef K_line _ (line_tok (ref_line x))); auto using ValTok_line, line_CR.
  intro line. cbn [act line_tok tk_value]. unfold external_document_ref. rewrite G1, G2, G3. cbn [bind].
  assert (X : {| edr_id := edr_id x; edr_uri := edr_uri x; edr_checksum := edr_checksum x |} = x) by (destruct x; reflexivity).
  rewrite X. apply c_append; auto.
Qed.
End Fields.
Lemma refs_heading {A} (l : list A) st : Steps (write_optional_heading l (LF :: $"## External Document References" ++ [LF])) st st.
Proof.
  destruct l; cbn [write_optional_heading truthy_list]; [apply Steps_nil|].
  pose proof (Steps_seq O _ _ st st st (Steps_LF O st) (Steps_heading O $"# External Document References" st eq_refl eq_refl)) as H. exact H.
Qed.

Definition ci_table (c : creation_info) : list (pystr * option tval) :=
  [ ($"spdx_version", Some (VStr (ci_version c))); ($"data_license", Some (VStr (ci_data_license c))); ($"spdx_id", Some (VStr (ci_id c)));
    ($"name", Some (VStr (ci_name c))); ($"document_namespace", Some (VStr (ci_namespace c))); ($"document_comment", option_map VStr (ci_doc_comment c));
    ($"external_document_refs", entry VDocRefs (ci_refs c)); ($"license_list_version", option_map VVersion (ci_list_version c));
    ($"creators", entry VActors (ci_creators c)); ($"created", Some (VDate (ci_created c))); ($"creator_comment", option_map VStr (ci_creator_comment c)) ].
Theorem creation_info_read c : TvCreationInfo c -> Steps (write_creation_info c) init_state (cst (ci_table c)).
Proof.
  intros [H1 H2 H3 H4 H5 H6 H7 H8 H9 H10 H11]. change init_state with (cst []). unfold write_creation_info.
  eapply Steps_writes; [apply (c_line _ T_SPDXVersion _ $"spdx_version"); auto|].
  eapply Steps_writes; [apply (c_line _ T_DataLicense _ $"data_license"); auto|].
  eapply Steps_writes; [apply c_spdx_id; auto|].
  eapply Steps_writes; [apply (c_line _ T_DocumentName _ $"name"); auto|].
  eapply Steps_writes; [apply (c_line _ T_DocumentNamespace _ $"document_namespace"); auto|].
  eapply Steps_writes; [apply (c_opt_text _ T_DocumentComment _ $"document_comment"); auto|].
  eapply Steps_writes; [apply refs_heading|].
  eapply Steps_writes; [apply c_refs; auto|].
  eapply Steps_writes; [apply Steps_LF|].
  eapply Steps_writes; [apply (Steps_heading O $"# Creation Information"); reflexivity|].
  eapply Steps_writes.
  { rewrite write_opt_eq. apply (c_optional _ (fun _ => True) _ VVersion _ $"license_list_version"); [destruct (ci_list_version c); exact I|].
    intros v _. assert (Hl : Line (version_str v)) by (apply numbers_line; auto).
    apply (c_set _ T_LicenseListVersion K_line _ (line_tok (version_str v))); auto using ValTok_line, line_CR.
    intro line. exists []. cbn [act line_tok tk_value]. rewrite version_round_trip. reflexivity. }
  eapply Steps_writes.
  { apply (c_each _ TvActor _ VActors _ $"creators"); [exact H9|]. intros x a Hx.
    apply (Steps_field O T_Creator K_actor (actor_str x) (act_tok x)); [apply ValTok_actor, Hx|apply actor_CR; auto|reflexivity|unfold act_tok; destruct (ac_type x); reflexivity|].
    intro line. cbn [act act_tok tk_value]. destruct Hx as [Hx _]. apply actor_round_trip in Hx. rewrite Hx. cbn [bind]. apply c_append; auto. }
  eapply Steps_writes.
  { destruct (date_reads _ H10) as (v & E1 & E2 & E3 & E4). unfold write_date. rewrite E1. cbn [bind].
    apply (c_set _ T_Created K_date v _ (VDate (ci_created c)) $"created" E3); auto.
    intro line. exists v. cbn [act tk_value]. unfold date_value. rewrite E2. reflexivity. }
  eapply Steps_writes; [apply (c_opt_text _ T_CreatorComment _ $"creator_comment"); auto|].
  apply Steps_done.
Qed.
Theorem creation_info_built c : TvCreationInfo c -> construct_creation_info (table (ci_table c)) = Ok c.
Proof.
  intros [_ _ _ _ _ _ _ H8 _ _ _].
  assert (E : entry VActors (ci_creators c) = Some (VActors (ci_creators c))) by (destruct (ci_creators c); [congruence|reflexivity]).
  unfold construct_creation_info. rewrite kwargs_table; [|reflexivity|reflexivity|cbn; rewrite E; reflexivity]. apply construct_ok.
  assert (D : keys_distinct (ci_table c) = true) by reflexivity.
  transitivity (COk (Build_creation_info (ci_version c) (ci_id c) (ci_name c) (ci_namespace c) (ci_creators c) (ci_created c) (ci_creator_comment c)
    (ci_data_license c) (ci_refs c) (ci_list_version c) (ci_doc_comment c))); [|destruct c; reflexivity].
  repeat (apply ap_ok; [|try (args D)]); try reflexivity.
  apply (g_actors _ _ _ _ D). exact E.
Qed.
End WithOracles.
