(** Repeated attributes, attributes outside of their element, and wrong values: the messages. *)
From Verif Require Import Py PyFacts PyRe PyReFacts PyReSound Data Oracles Basics BasicsSpec BasicsFacts ActorFacts Json Construct JsonConv JsonParse JsonSpec
  TvWriter TvLexer TvSpec TvTokSpec TvLexFacts TvLexValues TvParser TvParseFacts TvFieldFacts TvSpecialFacts TvErrors TvRepeat TvReadSpec TvRead TvRead2 TvRead3 TvLines TvReport TvReportSpec.

Lemma with_cur_same st : with_cur (ps_cur st) st = st. Proof. destruct st; reflexivity. Qed.
Lemma with_ci_same st : with_ci (ps_ci st) st = st. Proof. destruct st; reflexivity. Qed.
Lemma lookup_none {A} (all : list A) name s : (forall x, name x <> s) -> enum_lookup all name s = None.
Proof. intro H. unfold enum_lookup. destruct (find _ all) as [a|] eqn:E; [|reflexivity]. apply find_some in E as [_ E]. apply str_eqb_eq in E. destruct (H a E). Qed.
Lemma lines_spelled text t k l : Lines text ((t, k) :: l) -> exists v, Spelled v k.
Proof. remember ((t, k) :: l) as l0 eqn:E. induction 1 as [|s text l' F _ IH|t' v k' text l' H _ IH]; [discriminate|auto|]. injection E as <- <- <-. eauto. Qed.
Lemma attributes_spelled text g gs : Attributes text (g :: gs) -> exists v, Spelled v (g_val g).
Proof. intros [H _]. eapply lines_spelled. exact H. Qed.
Lemma matches_yes c st : ps_class st = Some c -> matches_class c st = true.
Proof. intro H. unfold matches_class. rewrite H. apply clazz_eqb_refl. Qed.

Section WithOracles.
Variable O : oracles.
(** ** Elements *)
Lemma starts_spec g : is_in (g_tag g) start_tags = is_start_tag (g_tag g). Proof. destruct (g_tag g); reflexivity. Qed.
Lemma effect_class g st st' : effect O g st = Some st' -> ps_class st' = if is_start_tag (g_tag g) then start_class (g_tag g) else ps_class st.
Proof.
  destruct (is_start_tag (g_tag g)) eqn:S; intro E; [|apply (effect_inside O g st st' S E)].
  assert (X : starts g = true) by (unfold starts; rewrite starts_spec; exact S). rewrite starts_slot in X. unfold start_class. unfold effect in E.
  destruct (slot_of (g_tag g)); try discriminate X; (destruct (flush st) as [s1|]; [|discriminate E]).
  - destruct (put_once _ _ _); [|discriminate E]. injection E as <-. reflexivity.
  - destruct (rel_put _ _); [|discriminate E]. injection E as <-. reflexivity.
Qed.
Lemma opened_snoc gs g : opened (gs ++ [g]) = if is_start_tag (g_tag g) then Some (g_tag g) else opened gs.
Proof. unfold opened. rewrite map_app, rev_app_distr. cbn [map rev app find]. rewrite starts_spec. destruct (is_start_tag (g_tag g)); reflexivity. Qed.
Lemma given_snoc gs g : given (gs ++ [g]) = if is_start_tag (g_tag g) then [] else g_tag g :: given gs.
Proof. unfold given. rewrite map_app, rev_app_distr. cbn [map rev app of_current]. rewrite starts_spec. reflexivity. Qed.
Lemma effects_snoc gs g st st' : effects O (gs ++ [g]) st = Some st' -> exists s, effects O gs st = Some s /\ effect O g s = Some st'.
Proof. rewrite effects_app. destruct (effects O gs st) as [s|]; [|discriminate]. cbn [effects]. destruct (effect O g s) as [s'|] eqn:E; [|discriminate]. intro H. injection H as <-. eauto. Qed.
Lemma opened_class gs : forall st, effects O gs init_state = Some st -> ps_class st = match opened gs with Some s => start_class s | None => None end.
Proof.
  induction gs as [|g gs IH] using rev_ind; intros st E; [injection E as <-; reflexivity|]. apply effects_snoc in E as (s & E1 & E2).
  rewrite (effect_class _ _ _ E2), opened_snoc. destruct (is_start_tag (g_tag g)); auto.
Qed.
(** a value that is not given is not there *)
Definition odd_tags : list tag := [T_PrimaryPackagePurpose; T_AnnotationType; T_FilesAnalyzed; T_PackageVerificationCode; T_SnippetByteRange; T_SnippetLineRange].
Definition odd_name (t : tag) : pystr := match slot_of t with L_Set _ n => n | _ => [] end.
Lemma other_name t t' : In t odd_tags -> t' <> t ->
  match slot_of t' with L_Set _ n | L_App _ n | L_Start _ n => n <> odd_name t | _ => True end.
Proof.
  intros H N. unfold odd_tags in H. assert (X : match slot_of t' with L_Set _ n | L_App _ n | L_Start _ n => str_eqb n (odd_name t) = false | _ => True end).
  { repeat (destruct H as [<-|H]; [destruct t'; try exact I; try reflexivity; congruence|]). destruct H. }
  destruct (slot_of t'); auto; apply str_eqb_neq; exact X.
Qed.
Lemma odd_other t : In t odd_tags -> odd_name t <> $"spdx_id" /\ odd_name t <> $"spdx_element_id" /\ odd_name t <> $"related_spdx_element_id"
  /\ odd_name t <> $"relationship_type" /\ odd_name t <> $"comment".
Proof. intro H. unfold odd_tags in H. repeat (destruct H as [<-|H]; [repeat split; discriminate|]). destruct H. Qed.
Lemma flush_cur st s1 n : quiet st -> flush st = Some s1 -> (ps_class st = None -> assoc n (ps_cur st) = None) -> assoc n (ps_cur s1) = None.
Proof.
  intros Q F H. unfold flush, construct_current_element in F. destruct (ps_class st) as [c|].
  - destruct (match raise_if_named (ps_cur_log st) (clazz_name c) with Ok _ => build_element c st | Raise (EParsing ms) => Ok (log ms st) | Raise e => Raise e end) as [p|e]; [|discriminate F]. cbn [bind] in F. destruct (ps_log (new_element p)); [|discriminate F]. injection F as <-. reflexivity.
  - destruct (ps_log st); [|discriminate F]. injection F as <-. auto.
Qed.
Lemma not_given t gs : In t odd_tags -> forall st, effects O gs init_state = Some st ->
  (ps_class st = None -> assoc (odd_name t) (ps_cur st) = None) /\ (~ In t (given gs) -> assoc (odd_name t) (ps_cur st) = None).
Proof.
  intro Ht. pose proof (odd_other t Ht) as (N1 & N2 & N3 & N4 & N5). induction gs as [|g gs IH] using rev_ind; intros st E; [injection E as <-; auto|]. apply effects_snoc in E as (s & E1 & E2).
  destruct (effects_sane O gs init_state s init_quiet ltac:(discriminate) E1) as [Q _]. destruct (IH s E1) as [H1 H2]. rewrite given_snoc.
  pose proof (effect_class _ _ _ E2) as C. destruct (is_start_tag (g_tag g)) eqn:S.
  - assert (X : starts g = true) by (unfold starts; rewrite starts_spec; exact S). rewrite starts_slot in X. assert (Hn : g_tag g <> t) by (intro K; rewrite K in S; unfold odd_tags in Ht; repeat (destruct Ht as [<-|Ht]; [discriminate S|]); destruct Ht).
    pose proof (other_name t (g_tag g) Ht Hn) as Y. unfold effect in E2.
    assert (K : assoc (odd_name t) (ps_cur st) = None); [|auto].
    destruct (slot_of (g_tag g)); try discriminate X; (destruct (flush s) as [s1|] eqn:F; [|discriminate E2]); pose proof (flush_cur s s1 _ Q F H1) as K.
    + destruct (put_once _ _ _) as [d|] eqn:P; [|discriminate E2]. injection E2 as <-. cbn [with_cur ps_cur]. rewrite (put_once_lacks _ _ _ _ _ P) by congruence. exact K.
    + unfold rel_put in E2. destruct (split_on _ _) as [|x [|y [|z [|u l]]]]; try discriminate E2. destruct (enum_lookup _ _ _); [|discriminate E2]. injection E2 as <-. cbn [with_cur ps_cur].
      destruct (option_map _ _); rewrite !assoc_dict_set_other by congruence; exact K.
  - assert (X : g_tag g <> t -> assoc (odd_name t) (ps_cur s) = None -> assoc (odd_name t) (ps_cur st) = None).
    { intros Hn K. pose proof (other_name t (g_tag g) Ht Hn) as Y. assert (Z : starts g = false) by (unfold starts; rewrite starts_spec; exact S). rewrite starts_slot in Z. unfold effect in E2.
      destruct (slot_of (g_tag g)); try discriminate Z; try discriminate E2.
      - destruct (put_once _ _ _); [|discriminate E2]. injection E2 as <-. exact K.
      - destruct (put_more _ _ _); [|discriminate E2]. injection E2 as <-. exact K.
      - destruct (matches_class _ _); [|discriminate E2]. destruct (put_once _ _ _) eqn:P; [|discriminate E2]. injection E2 as <-. cbn [with_cur ps_cur]. rewrite (put_once_lacks _ _ _ _ _ P) by congruence. exact K.
      - destruct (matches_class _ _); [|discriminate E2]. destruct (put_more _ _ _) eqn:P; [|discriminate E2]. injection E2 as <-. cbn [with_cur ps_cur]. rewrite (put_more_lacks _ _ _ _ _ P) by congruence. exact K.
      - injection E2 as <-. unfold spdx_id_action. destruct (assoc $"spdx_id" (ps_ci s)); cbn [with_cur with_ci ps_cur]; [rewrite assoc_dict_set_other by congruence|]; exact K. }
    split.
    + intro K. rewrite C in K. apply X; auto. intro T. unfold effect in E2. rewrite T in E2.
      unfold odd_tags in Ht. repeat (destruct Ht as [<-|Ht]; [cbn [slot_of] in E2; unfold matches_class in E2; rewrite K in E2; discriminate E2|]); destruct Ht.
    + intro K. apply X; [intro T; apply K; left; exact T|]. apply H2. intro I. apply K. right. exact I.
Qed.

(** a value of the document that is not given is not there *)
Lemma flush_ci st s1 : quiet st -> sane (ps_built st) -> flush st = Some s1 -> ps_ci s1 = ps_ci st.
Proof.
  intros Q S F. destruct (ps_class st) as [c|] eqn:C.
  - rewrite (flush_class c st Q S C) in F. destruct (make c (ps_cur st)); [|discriminate F]. injection F as <-. reflexivity.
  - unfold flush, construct_current_element in F. rewrite C in F. destruct (ps_log st); [|discriminate F]. injection F as <-. reflexivity.
Qed.
Lemma not_given_info gs : forall st, effects O gs init_state = Some st -> ~ In T_LicenseListVersion (map g_tag gs) -> assoc $"license_list_version" (ps_ci st) = None.
Proof.
  induction gs as [|g gs IH] using rev_ind; intros st E N; [injection E as <-; reflexivity|]. apply effects_snoc in E as (s & E1 & E2).
  destruct (effects_sane O gs init_state s init_quiet ltac:(discriminate) E1) as [Q S]. rewrite map_app, in_app_iff in N. specialize (IH s E1 (fun K => N (or_introl K))).
  assert (T : g_tag g <> T_LicenseListVersion) by (intro K; apply N; right; left; exact K).
  assert (Y : match slot_of (g_tag g) with L_CiSet n | L_CiApp n => n <> $"license_list_version" | _ => True end).
  { assert (Y : match slot_of (g_tag g) with L_CiSet n | L_CiApp n => str_eqb n $"license_list_version" = false | _ => True end) by (destruct (g_tag g); try exact I; try reflexivity; congruence).
    destruct (slot_of (g_tag g)); auto; apply str_eqb_neq; exact Y. }
  unfold effect in E2. destruct (slot_of (g_tag g)).
  - destruct (put_once _ _ _) eqn:P; [|discriminate E2]. injection E2 as <-. cbn [with_ci ps_ci]. rewrite (put_once_lacks _ _ _ _ _ P) by congruence. exact IH.
  - destruct (put_more _ _ _) eqn:P; [|discriminate E2]. injection E2 as <-. cbn [with_ci ps_ci]. rewrite (put_more_lacks _ _ _ _ _ P) by congruence. exact IH.
  - destruct (matches_class _ _); [|discriminate E2]. destruct (put_once _ _ _); [|discriminate E2]. injection E2 as <-. exact IH.
  - destruct (matches_class _ _); [|discriminate E2]. destruct (put_more _ _ _); [|discriminate E2]. injection E2 as <-. exact IH.
  - destruct (flush s) as [s1|] eqn:F; [|discriminate E2]. destruct (put_once _ _ _); [|discriminate E2]. injection E2 as <-. cbn [with_cur with_class ps_ci]. rewrite (flush_ci s s1 Q S F). exact IH.
  - injection E2 as <-. unfold spdx_id_action. destruct (assoc $"spdx_id" (ps_ci s)); cbn [with_cur with_ci ps_ci]; [exact IH|]. rewrite assoc_dict_set_other by discriminate. exact IH.
  - destruct (flush s) as [s1|] eqn:F; [|discriminate E2]. destruct (rel_put _ _); [|discriminate E2]. injection E2 as <-. cbn [with_cur with_class ps_ci]. rewrite (flush_ci s s1 Q S F). exact IH.
  - discriminate E2.
Qed.

(** ** Wrong values *)
Lemma hex_same h : forallb hex h = forallb lex_hex h. Proof. reflexivity. Qed.
Lemma code_none v : (forall h r, v = h ++ r -> List.length h = 40 -> forallb hex h = false) -> re_match verif_code_re v = None.
Proof.
  intro H. destruct (re_match verif_code_re v) as [g|] eqn:E; [|reflexivity]. exfalso. apply re_match_sound in E as (u & rest & -> & M). unfold verif_code_re in M. rewrite pcats_cons in M. cbn [Matches] in M.
  destruct M as (u1 & u2 & g1 & g2 & -> & _ & (h & _ & M) & _). apply Matches_exact in M as (L & X & _). rewrite <- app_assoc in H. specialize (H u1 (u2 ++ rest) eq_refl L). rewrite hex_same in H. congruence.
Qed.
Lemma range_none v : stripped v -> (forall a b, v = a ++ $":" ++ b -> a = [] \/ b = [] \/ forallb is_digit (a ++ b) = false) -> re_match range_re v = None.
Proof.
  intros Hv H. destruct (re_match range_re v) as [g|] eqn:E; [|reflexivity]. exfalso. apply re_match_sound in E as (u & rest & Ev & M). cbn [range_re pcats Matches] in M.
  destruct M as (u1 & u2 & g1 & g2 & -> & _ & (h & _ & H1) & (u3 & u4 & g3 & g4 & -> & _ & H3 & (u5 & u6 & g5 & g6 & -> & _ & (h' & _ & H5) & (-> & _ & R)))).
  apply Matches_plus in H1 as (N1 & D1 & _). apply Matches_plus in H5 as (N5 & D5 & _). apply Matches_lit in H3 as [-> _].
  assert (R' : rest = []).
  { destruct R as [->| ->]; auto. exfalso. destruct Hv as [_ Hv]. specialize (Hv LF (u1 ++ lit ":" ++ u5 ++ [])). rewrite Ev in Hv. discriminate (Hv eq_refl). }
  subst rest. rewrite !app_nil_r in Ev. destruct (H u1 u5 Ev) as [K|[K|K]]; try congruence. rewrite forallb_app, D1, D5 in K. discriminate K.
Qed.
Lemma checksum_none v : (forall a b h r, v = a ++ $"SHA1:" ++ b ++ h ++ r -> forallb is_space b = true -> List.length h = 40 -> forallb hex h = false) -> re_match ext_doc_ref_re v = None.
Proof.
  intro H. destruct (re_match ext_doc_ref_re v) as [g|] eqn:E; [|reflexivity]. exfalso. apply re_match_sound in E as (u & rest & -> & M). unfold ext_doc_ref_re in M. cbn [pcats Matches] in M.
  destruct M as (u1 & u2 & g1 & g2 & -> & _ & _ & (g2' & _ & M)).
  destruct M as (w & u3 & g3 & g4 & -> & _ & [W _] & (l & u4 & g5 & g6 & -> & _ & ML & (w2 & h & g7 & g8 & -> & _ & [W2 _] & MH))).
  apply Matches_lit in ML as [-> _]. apply Matches_exact in MH as (L & X & _). specialize (H (u1 ++ w) w2 h rest). rewrite <- !app_assoc in H. specialize (H eq_refl W2 L). rewrite hex_same in H. congruence.
Qed.
Lemma line_token v w : Spelled v {| tk_type := TT_LINE; tk_value := w |} -> Line w.
Proof. intro S. remember {| tk_type := TT_LINE; tk_value := w |} as k eqn:E. destruct S; try discriminate E; [injection E as <-; assumption|]. destruct (ac_type a); discriminate E. Qed.
Lemma one_wrong_value one gs1 before after g gs2 d s m : Attributes before gs1 -> Attributes (tag_name (g_tag g) ++ after) (g :: gs2) ->
  Attributes one (gs1 ++ gs2) -> tv_parse O one = Ok d -> Mistake (line_after before) g m ->
  belongs (g_tag g) = Some s -> opened gs1 = Some s -> ~ In (g_tag g) (given gs1) \/ g_tag g = T_FileType \/ g_tag g = T_ExternalRef ->
  tv_parse O (before ++ tag_name (g_tag g) ++ after) = Raise (EParsing [$"Error while parsing " ++ element_name s ++ $": " ++ show_list [m]]).
Proof.
  intros A1 A2 A3 P M B Op G. apply (one_mistake O one gs1 before after g gs2 d); auto. intros st E Q. exists (log_cur [m] st).
  pose proof (opened_class gs1 st E) as C. rewrite Op in C.
  destruct (attributes_spelled _ _ _ A2) as (w & Sp).
  destruct M as [v H|v c category ty locator H1 H2|v c H|v H|v H|v H1 H2|v H|t v Ht H]; cbn [a_line g_tag g_val g_com tk_value] in *; [..|assert (B' : s = T_SnippetSPDXID) by (destruct Ht as [<-|[<-|[]]]; vm_compute in B; congruence); subst s; clear B]; try (vm_compute in B; injection B as <-); cbn in C;
    (split; [|exact (Noise_cur st _ _ C)]); cbn [act tk_value].
  - unfold file_type_action, in_class. rewrite matches_yes by exact C. rewrite lookup_none by exact H. reflexivity.
  - unfold pkg_external_ref, in_class. rewrite matches_yes by exact C. rewrite H1, lookup_none by exact H2. reflexivity.
  - unfold pkg_external_ref, in_class. rewrite matches_yes by exact C. destruct (split_on #" " v) as [|x [|y [|z [|u l]]]]; try reflexivity. destruct H. reflexivity.
  - unfold in_class. rewrite matches_yes by exact C. unfold set_cur, set_value. destruct G as [G|[G|G]]; try discriminate G.
    assert (K : assoc (get_property_name T_PrimaryPackagePurpose) (ps_cur st) = None) by exact (proj2 (not_given T_PrimaryPackagePurpose gs1 ltac:(cbn; auto) st E) G). rewrite K. unfold enum_value. rewrite lookup_none by exact H. cbn [bind]. rewrite with_cur_same. reflexivity.
  - unfold in_class. rewrite matches_yes by exact C. unfold set_cur, set_value. destruct G as [G|[G|G]]; try discriminate G.
    assert (K : assoc (get_property_name T_AnnotationType) (ps_cur st) = None) by exact (proj2 (not_given T_AnnotationType gs1 ltac:(cbn; auto) st E) G). rewrite K. unfold enum_value. rewrite lookup_none by exact H. cbn [bind]. rewrite with_cur_same. reflexivity.
  - unfold files_analyzed, in_class. rewrite matches_yes by exact C. destruct G as [G|[G|G]]; try discriminate G.
    assert (K : assoc $"files_analyzed" (ps_cur st) = None) by exact (proj2 (not_given T_FilesAnalyzed gs1 ltac:(cbn; auto) st E) G). rewrite K.
    apply str_eqb_neq in H1, H2. rewrite H1, H2. reflexivity.
  - unfold verification_code, in_class. rewrite matches_yes by exact C. destruct G as [G|[G|G]]; try discriminate G.
    assert (K : assoc $"verification_code" (ps_cur st) = None) by exact (proj2 (not_given T_PackageVerificationCode gs1 ltac:(cbn; tauto) st E) G). rewrite K.
    rewrite code_none by exact H. reflexivity.
  - assert (Lv : Line v) by exact (line_token _ _ Sp). destruct Lv as (_ & _ & Sv & _).
    assert (X : act O t (1 + count_lf before)%N {| tk_type := TT_LINE; tk_value := v |} None st = snippet_range t (1 + count_lf before)%N v st) by (destruct Ht as [<-|[<-|[]]]; reflexivity).
    rewrite X. unfold snippet_range, in_class. rewrite matches_yes by exact C. cbv beta zeta.
    assert (K : assoc (get_property_name t) (ps_cur st) = None).
    { destruct G as [G|[G|G]]; [|destruct Ht as [<-|[<-|[]]]; discriminate G..].
      destruct Ht as [<-|[<-|[]]]; [exact (proj2 (not_given T_SnippetByteRange gs1 ltac:(cbn; tauto) st E) G)|exact (proj2 (not_given T_SnippetLineRange gs1 ltac:(cbn; tauto) st E) G)]. }
    rewrite K, Sv, range_none by (auto; rewrite <- Sv; apply strip_stripped). reflexivity.
Qed.
Lemma one_wrong_header one gs1 before after g gs2 d m : Attributes before gs1 -> Attributes (tag_name (g_tag g) ++ after) (g :: gs2) ->
  Attributes one (gs1 ++ gs2) -> tv_parse O one = Ok d -> HeaderMistake (line_after before) g m -> ~ In T_LicenseListVersion (map g_tag gs1) \/ g_tag g = T_ExternalDocumentRef ->
  tv_parse O (before ++ tag_name (g_tag g) ++ after) = Raise (EParsing [$"Error while parsing CreationInfo: " ++ show_list [m]]).
Proof.
  intros A1 A2 A3 P M G. apply (one_mistake O one gs1 before after g gs2 d); auto. intros st E Q. exists (log_ci [m] st). split; [|exact (Noise_info st _)].
  destruct (attributes_spelled _ _ _ A2) as (w & Sp). destruct M as [v H|v H|a h L H1 H2]; cbn [a_line g_tag g_val g_com tk_value act] in *.
  - destruct G as [G|G]; [|discriminate G]. unfold set_ci, set_value. change (get_property_name T_LicenseListVersion) with $"license_list_version". rewrite (not_given_info gs1 st E G).
    assert (Lv : Line v) by exact (line_token _ _ Sp). destruct Lv as (Nl & _).
    rewrite version_rejects; [cbn [bind]; rewrite with_ci_same; reflexivity|]. intros (x & [K|(s' & -> & K)]); [exact (H x K)|]. apply Nl. apply in_app_iff. right. left. reflexivity.
  - unfold external_document_ref. rewrite checksum_none by exact H. reflexivity.
  - assert (Lv : Line (a ++ $"SHA1: " ++ h)) by exact (line_token _ _ Sp). destruct Lv as (Nl & _).
    unfold external_document_ref. rewrite doc_ref_matched by (auto; intro K; apply Nl, in_app_iff; left; exact K). cbn [group_or_empty group find fst snd Nat.eqb].
    change (group_or_empty 1 [(2, $"SHA1: " ++ h); (1, a)]) with a.
    destruct (split_on #" " (strip a)) as [|x [|y [|z l]]]; try reflexivity. destruct H2. reflexivity.
Qed.

(** ** Readable values *)
Lemma readable_license g : Readable O g -> value_kind (g_tag g) = Some K_license -> Good g -> exists l, license_value O (g_val g) = Ok ([], l).
Proof.
  intros R K [(vk & E & A) _]. rewrite K in E. injection E as <-. unfold license_value. destruct (tk_type (g_val g)) eqn:T; try discriminate A; eauto.
  destruct (R K T) as (l & X). rewrite X. destruct l; eauto.
Qed.
Lemma readable_actor g v : Spelled v (g_val g) -> value_kind (g_tag g) = Some K_actor_or_na -> Good g -> exists a, actor_value (g_val g) = Ok a.
Proof.
  intros S K [(vk & E & A) _]. rewrite K in E. injection E as <-. unfold actor_value. destruct S as [v H|v H| | |a H|d v H E|c v H E]; cbn [tk_type tk_value] in *; try discriminate A; eauto.
  rewrite (actor_readable_if a H). cbn [bind]. destruct (ac_type a); cbn; eauto.
Qed.

(** ** Attributes outside of their element *)
Lemma opened_start gs s : opened gs = Some s -> is_start_tag s = true.
Proof. unfold opened. intro H. apply find_some in H as [_ H]. destruct s; try discriminate H; reflexivity. Qed.
Lemma start_class_inj s s' c : is_start_tag s = true -> is_start_tag s' = true -> start_class s = Some c -> start_class s' = Some c -> s = s'.
Proof. intros A B C D. destruct s; try discriminate A; cbn in C; injection C as <-; destruct s'; try discriminate B; try discriminate D; reflexivity. Qed.
Lemma outside gs1 st s c : effects O gs1 init_state = Some st -> opened gs1 <> Some s -> is_start_tag s = true -> start_class s = Some c -> matches_class c st = false.
Proof.
  intros E N S C. pose proof (opened_class gs1 st E) as K. destruct (matches_class c st) eqn:M; [|reflexivity]. apply matches_some in M. rewrite M in K.
  destruct (opened gs1) as [s'|] eqn:Op; [|discriminate K]. destruct N. f_equal. eapply start_class_inj; eauto. eapply opened_start; eauto.
Qed.
Lemma act_outside g line st c s v : Good g -> Spelled v (g_val g) -> Readable O g -> belongs (g_tag g) = Some s -> start_class s = Some c -> matches_class c st = false ->
  act O (g_tag g) line (g_val g) (g_com g) st = Ok (log [class_message c line] st).
Proof.
  intros G S R B C M. pose proof (readable_license g R) as RL. pose proof (readable_actor g v S) as RA. destruct (g_tag g) eqn:T; vm_compute in B; try discriminate B; injection B as <-; cbn in C; injection C as <-; cbn [act];
  unfold generic_value, text_list, file_type_action, checksum_action, pkg_external_ref, verification_code, files_analyzed, snippet_range; cbn [tag_data_model_field is_start_tag bind];
  try (unfold in_class; rewrite M; reflexivity).
  all: try (destruct (RL eq_refl G) as (l & X); unfold generic_license, license_list; rewrite X; cbn [bind]; rewrite log_cur_nil; unfold generic_value; cbn [tag_data_model_field is_start_tag bind]; unfold in_class; rewrite M; reflexivity).
  all: try (destruct (RA eq_refl G) as (a & X); rewrite X; cbn [bind]; unfold in_class; rewrite M; reflexivity).
Qed.
Lemma one_outside one gs1 before after g gs2 d s : Attributes before gs1 -> Attributes (tag_name (g_tag g) ++ after) (g :: gs2) ->
  Attributes one (gs1 ++ gs2) -> tv_parse O one = Ok d -> belongs (g_tag g) = Some s -> opened gs1 <> Some s -> Readable O g ->
  tv_parse O (before ++ tag_name (g_tag g) ++ after) =
  Raise (EParsing [$"Element " ++ element_name s ++ $" is not the current element in scope, probably the expected tag to start the element ("
                   ++ tag_name s ++ $") is missing. Line: " ++ line_after before]).
Proof.
  intros A1 A2 A3 P B N R. apply (one_mistake O one gs1 before after g gs2 d); auto. intros st E Q.
  destruct (attributes_spelled _ _ _ A2) as (v & S). destruct A2 as [_ A2]. apply Forall_cons_iff in A2 as [G _].
  assert (X : exists c, start_class s = Some c /\ is_start_tag s = true /\ clazz_name c = element_name s /\ start_tag c = tag_name s).
  { clear - B. destruct (g_tag g); vm_compute in B; try discriminate B; injection B as <-; eexists; repeat split; reflexivity. }
  destruct X as (c & X1 & X2 & X3 & X4). eexists. split; [eapply act_outside; eauto; eapply outside; eauto|].
  unfold class_message. rewrite X3, X4. apply Noise_log.
Qed.

(** ** Repeated attributes *)
Lemma act_again g line st c n v : Good g -> Spelled v (g_val g) -> Readable O g -> In (g_tag g) element_tags -> slot_of (g_tag g) = L_Set c n ->
  ps_class st = Some c -> assoc n (ps_cur st) <> None -> act O (g_tag g) line (g_val g) (g_com g) st = Ok (log_cur [multiple_values (g_tag g) line] st).
Proof.
  intros G S R Ht Sl C H. pose proof (readable_license g R) as RL. pose proof (readable_actor g v S) as RA. pose proof (matches_yes c st C) as M.
  destruct (assoc n (ps_cur st)) as [x|] eqn:E; [clear H|congruence].
  unfold element_tags in Ht. destruct (g_tag g) eqn:T; try (exfalso; cbn in Ht; decompose [or] Ht; congruence); cbn [slot_of] in Sl; injection Sl as <- <-; cbn [act];
  unfold generic_value, files_analyzed, verification_code, snippet_range; cbn [tag_data_model_field is_start_tag bind];
  try (unfold in_class; rewrite M; unfold set_cur, set_value; rewrite E; cbn [bind]; rewrite with_cur_same; reflexivity);
  try (unfold in_class; rewrite M; cbv beta zeta; rewrite E; reflexivity).
  all: try (destruct (RL eq_refl G) as (l & X); unfold generic_license; rewrite X; cbn [bind]; rewrite log_cur_nil; unfold generic_value; cbn [tag_data_model_field is_start_tag bind]; unfold in_class; rewrite M; unfold set_cur, set_value; rewrite E; cbn [bind]; rewrite with_cur_same; reflexivity).
  all: try (destruct (RA eq_refl G) as (a & X); rewrite X; cbn [bind]; unfold in_class; rewrite M; unfold set_cur, set_value; rewrite E; cbn [bind]; rewrite with_cur_same; reflexivity).
Qed.
Lemma effects_ext gs : forall st st', quiet st -> (forall g, In g gs -> ~ In (g_tag g) start_tags) -> effects O gs st = Some st' -> Ext st st'.
Proof.
  intros st st' Q H E. apply (acts_effects O gs (map (fun _ => 0%N) gs) st st') in E as [E _]; [|apply map_length|exact Q]. eapply acts_ext; [|exact E].
  intros g Hg. destruct (is_start_tag (g_tag g)) eqn:S; auto. apply start_tags_spec in S. destruct (H g Hg S).
Qed.
Lemma one_repeated one pre g1 mid before after g2 post d s : Attributes before (pre ++ g1 :: mid) -> Attributes (tag_name (g_tag g2) ++ after) (g2 :: post) ->
  Attributes one ((pre ++ g1 :: mid) ++ post) -> tv_parse O one = Ok d -> In (g_tag g2) element_tags -> g_tag g1 = g_tag g2 -> belongs (g_tag g2) = Some s ->
  (forall g, In g mid -> ~ In (g_tag g) start_tags) -> Readable O g2 ->
  tv_parse O (before ++ tag_name (g_tag g2) ++ after) =
  Raise (EParsing [$"Error while parsing " ++ element_name s ++ $": " ++ show_list [$"Multiple values for " ++ tag_name (g_tag g2) ++ $" found. Line: " ++ line_after before]]).
Proof.
  intros A1 A2 A3 P Ht T B Hm R. apply (one_mistake O one (pre ++ g1 :: mid) before after g2 post d); auto. intros st E Q.
  destruct (attributes_spelled _ _ _ A2) as (v & S). destruct A2 as [_ A2]. apply Forall_cons_iff in A2 as [G _].
  rewrite effects_app in E. destruct (effects O pre init_state) as [s0|] eqn:E0; [|discriminate E]. cbn [effects] in E. destruct (effect O g1 s0) as [s1|] eqn:E1; [|discriminate E].
  destruct (effects_sane O pre init_state s0 init_quiet ltac:(discriminate) E0) as [Q0 _].
  assert (Sl : exists c n, slot_of (g_tag g2) = L_Set c n /\ clazz_name c = element_name s).
  { clear - B Ht. unfold element_tags in Ht. destruct (g_tag g2); try (exfalso; cbn in Ht; decompose [or] Ht; congruence); vm_compute in B; try discriminate B; injection B as <-; eexists; eexists; split; reflexivity. }
  destruct Sl as (c & n & Sl & Nm). unfold effect in E1. rewrite T, Sl in E1. destruct (matches_class c s0) eqn:M; [|discriminate E1]. apply matches_some in M.
  destruct (put_once n (val_of O g1) (ps_cur s0)) as [d1|] eqn:Pu; [|discriminate E1]. cbn [option_map] in E1. injection E1 as <-.
  assert (H1 : has n d1). { unfold put_once in Pu. destruct (val_of O g1); [|discriminate Pu]. destruct (assoc n (ps_cur s0)); [discriminate Pu|]. injection Pu as <-. apply has_set_same. }
  pose proof (effects_ext mid (with_cur d1 s0) st Q0 Hm E) as X. eexists. split.
  - eapply act_again; eauto; [rewrite (ex_class _ _ X); exact M|]. apply (ex_cur _ _ X). exact H1.
  - unfold line_after. change (str_of_N (1 + count_lf before)) with (line_str (1 + count_lf before)). fold (multiple_values (g_tag g2) (1 + count_lf before)%N).
    assert (K : ps_class st = Some c) by (rewrite (ex_class _ _ X); exact M). pose proof (Noise_cur st c (multiple_values (g_tag g2) (1 + count_lf before)%N) K) as Z. unfold told in Z. rewrite Nm in Z. exact Z.
Qed.
Lemma one_repeated_info one pre g1 mid before after g2 post d : Attributes before (pre ++ g1 :: mid) -> Attributes (tag_name (g_tag g2) ++ after) (g2 :: post) ->
  Attributes one ((pre ++ g1 :: mid) ++ post) -> tv_parse O one = Ok d -> In (g_tag g2) document_tags -> g_tag g1 = g_tag g2 ->
  tv_parse O (before ++ tag_name (g_tag g2) ++ after) =
  Raise (EParsing [$"Error while parsing CreationInfo: " ++ show_list [$"Multiple values for " ++ tag_name (g_tag g2) ++ $" found. Line: " ++ line_after before]]).
Proof.
  intros A1 A2 A3 P Ht T. apply (one_mistake O one (pre ++ g1 :: mid) before after g2 post d); auto. intros st E Q.
  rewrite effects_app in E. destruct (effects O pre init_state) as [s0|] eqn:E0; [|discriminate E]. cbn [effects] in E. destruct (effect O g1 s0) as [s1|] eqn:E1; [|discriminate E].
  destruct (effects_sane O pre init_state s0 init_quiet ltac:(discriminate) E0) as [Q0 _]. pose proof (effect_quiet _ _ _ _ Q0 E1) as Q1.
  assert (Sl : slot_of (g_tag g2) = L_CiSet (get_property_name (g_tag g2)) /\ exists shown v, forall st, act O (g_tag g2) (1 + count_lf before)%N (g_val g2) (g_com g2) st = set_ci (g_tag g2) (1 + count_lf before)%N shown v st).
  { clear - Ht. unfold document_tags in Ht. destruct (g_tag g2); try (exfalso; cbn in Ht; decompose [or] Ht; congruence); (split; [reflexivity|]); eexists; eexists; intro st; reflexivity. }
  destruct Sl as (Sl & shown & v & Ac). unfold effect in E1. rewrite T, Sl in E1.
  destruct (put_once _ (val_of O g1) (ps_ci s0)) as [d1|] eqn:Pu; [|discriminate E1]. cbn [option_map] in E1. injection E1 as <-.
  assert (H1 : has (get_property_name (g_tag g2)) d1). { unfold put_once in Pu. destruct (val_of O g1); [|discriminate Pu]. destruct (assoc _ (ps_ci s0)); [discriminate Pu|]. injection Pu as <-. apply has_set_same. }
  assert (H2 : has (get_property_name (g_tag g2)) (ps_ci st)).
  { apply (acts_effects O mid (map (fun _ => 0%N) mid) _ st) in E as [E _]; [|apply map_length|exact Q1]. apply (kp_ci _ _ (acts_kept O _ _ _ _ E)). exact H1. }
  eexists. split.
  - rewrite Ac. unfold set_ci, set_value. unfold has in H2. destruct (assoc _ (ps_ci st)); [|congruence]. cbn [bind]. rewrite with_ci_same. reflexivity.
  - apply (Noise_info st (multiple_values (g_tag g2) (1 + count_lf before)%N)).
Qed.
End WithOracles.
