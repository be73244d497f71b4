(** The validators report exactly the messages that a document deserves. *)
From Verif Require Import Py PyFacts Rx RxFacts Data Oracles DocUtils Validation ValidationSpec MessageSpec LocatorFacts ValidationFacts DocUtilsSpec
  DocUtilsFacts ValidationMore.
From Coq Require Import Sorting.Permutation Sorting.Sorted.

Lemma in_when {A} b (x m : A) : In m (when b x) <-> b = true /\ m = x.
Proof. destruct b; cbn; split; intuition (auto; discriminate). Qed.
Lemma not_spec b (P : Prop) : (b = true <-> P) -> (negb b = true <-> ~ P).
Proof. intro H. rewrite <- H. destruct b; cbn; split; congruence. Qed.
Lemma false_spec b (P : Prop) : (b = false <-> P) -> (b = true <-> ~ P).
Proof. intro H. rewrite <- H. destruct b; cbn; split; congruence. Qed.
Lemma in_map_ex {A B} (f : A -> B) m l : In m (map f l) <-> exists t, In t l /\ m = f t.
Proof. rewrite in_map_iff. split; intros (t & H & K); exists t; auto. Qed.
Lemma in_if {A} (b : bool) (l : list A) m : In m (if b then l else []) <-> b = true /\ In m l.
Proof. destruct b; cbn; intuition discriminate. Qed.
Lemma in_if22 {A} v (l : list A) m : In m (if is22 v then l else []) <-> v = $"SPDX-2.2" /\ In m l.
Proof. rewrite in_if, is22_spec. reflexivity. Qed.

(** ** Ids *)
Lemma colons_count (s : pystr) c (a b r : pystr) : s = a ++ c :: b ++ c :: r -> 2 <= count_occ N.eq_dec s c.
Proof. intros ->. rewrite count_occ_app, count_occ_cons_eq, count_occ_app, count_occ_cons_eq by reflexivity. lia. Qed.
Lemma split_cases c (s : pystr) :
  (split_on c s = [s] /\ ~ In c s)
  \/ (exists a b, split_on c s = [a; b] /\ s = a ++ c :: b /\ ~ In c a /\ ~ In c b)
  \/ (exists a b r l, split_on c s = a :: b :: r :: l /\ exists r', s = a ++ c :: b ++ c :: r').
Proof.
  destruct (split_on c s) as [|a l] eqn:E; [exfalso; eapply split_on_nonempty; eauto|].
  destruct l as [|b l]; [|destruct l as [|r l]].
  - left. apply split_one in E as [-> H]. auto.
  - right. left. exists a, b. apply split_two in E. tauto.
  - right. right. exists a, b, r, l. split; auto. exists (join [c] (r :: l)). rewrite <- (join_split c s), E. reflexivity.
Qed.
Lemma few_colons c (s a b r : pystr) : s = a ++ c :: b ++ c :: r -> In c s /\ forall x y, s = x ++ c :: y -> ~ In c x -> ~ In c y -> False.
Proof.
  intro E. split; [rewrite E; apply in_or_app; right; left; reflexivity|]. intros x y E' Hx Hy. apply colons_count in E. rewrite E' in E.
  rewrite count_occ_app, count_occ_cons_eq in E by reflexivity.
  pose proof (proj1 (count_occ_not_In N.eq_dec x c) Hx) as Ex. pose proof (proj1 (count_occ_not_In N.eq_dec y c) Hy) as Ey.
  unfold pystr, char in *. lia.
Qed.
Definition flags (u : use) : bool * bool := match u with Own => (false, false) | Anything => (true, false) | AFile => (false, true) end.
Lemma id_problem d u id t : In t (validate_spdx_id id d (fst (flags u)) (snd (flags u))) <-> IdProblem d u id t.
Proof.
  unfold validate_spdx_id. destruct (split_cases (ch ":") id) as [[-> Hc]|[(a & b & -> & E & Ha & Hb)|(a & b & r & l & -> & r' & E)]].
  - rewrite !in_app_iff, !in_if, !in_when, (not_spec _ _ (internal_id_spec id)), (not_spec _ _ (id_present_spec id d)), (not_spec _ _ (file_present_spec id d)).
    split.
    + intros [[H ->]|[(H & K & ->)|(H & K & ->)]].
      * apply ip_syntax; auto.
      * apply ip_nothing; auto. destruct u; cbn in H; congruence.
      * apply ip_no_file; auto. destruct u; cbn in H; congruence.
    + inversion 1 as [? ? ? E|? ? E|? ? E|? ? E|? ?|? Hu ?|? Hu ?]; subst t; try (exfalso; apply Hc; rewrite E; apply in_or_app; right; left; reflexivity).
      * auto.
      * rewrite Hu. auto.
      * rewrite Hu. auto.
  - rewrite !in_app_iff, !in_when, (not_spec _ _ (docref_id_spec a)), (not_spec _ _ (internal_id_spec b)), (not_spec _ _ (ext_present_spec a d)).
    assert (Hid : In (ch ":") id) by (rewrite E; apply in_or_app; right; left; reflexivity).
    assert (U : forall x y, id = x ++ ch ":" :: y -> ~ In (ch ":") x -> ~ In (ch ":") y -> x = a /\ y = b).
    { intros x y E' Hx Hy. assert (K : split_on (ch ":") id = [x; y]) by (apply split_two; auto).
      assert (K' : split_on (ch ":") id = [a; b]) by (apply split_two; auto). split; congruence. }
    split.
    + intros [[H ->]|[[H ->]|[H ->]]].
      * apply (ip_docref _ _ _ a b); auto.
      * apply (ip_internal _ _ _ a b); auto.
      * apply (ip_unlisted _ _ _ a b); auto.
    + inversion 1 as [? ? ? E'|? ? E'|? ? E'|? ? E'|? ?|? Hu ?|? Hu ?]; subst t; try contradiction.
      * exfalso. exact (proj2 (few_colons _ _ _ _ _ E') a b E Ha Hb).
      * destruct (U _ _ E') as [-> ->]; auto.
      * destruct (U _ _ E') as [-> ->]; auto.
      * destruct (U _ _ E') as [-> ->]; auto.
  - destruct (few_colons _ _ _ _ _ E) as [K1 K2]. cbn [In]. split.
    + intros [<-|[]]. apply (ip_colons _ _ _ a b r'). exact E.
    + inversion 1 as [? ? ? E'|? ? E'|? ? E'|? ? E'|? ?|? Hu ?|? Hu ?]; subst t; try contradiction;
        [left; reflexivity|exfalso; eapply K2; [exact E'|assumption|assumption] ..].
Qed.
Lemma id_message d u id cx m :
  In m (map (fun x => msg x cx) (validate_spdx_id id d (fst (flags u)) (snd (flags u)))) <-> exists t, IdProblem d u id t /\ m = msg t cx.
Proof. rewrite in_map_ex. split; intros (t & H & K); exists t; split; auto; apply id_problem; auto. Qed.

(** ** Addresses *)
Lemma url_problem u t : In t (validate_url u) <-> UrlProblem u t.
Proof.
  unfold validate_url. rewrite in_when, (not_spec _ _ (url_prefix_spec u)). split; [intros [H ->]; constructor; auto|inversion 1; auto].
Qed.
Lemma location_problem u t : In t (validate_download_location u) <-> LocationProblem u t.
Proof.
  assert (E : validate_download_location u = [] <-> DownloadLocation u) by apply validate_download_location_spec.
  unfold validate_download_location in *. rewrite when_nil in E. rewrite in_when, (false_spec _ _ E).
  split; [intros [H ->]; constructor; auto|inversion 1; auto].
Qed.
Lemma uri_problem O u t : In t (validate_uri O u) <-> UriProblem O u t.
Proof.
  unfold validate_uri. destruct (o_isabsuri O u) eqn:E1; cbn [negb]; [destruct (o_has_scheme O u) eqn:E2; cbn [negb]|]; cbn [In].
  - split; [tauto|]. inversion 1; congruence.
  - split; [intros [<-|[]]; apply up_scheme; auto|]. inversion 1; [congruence|auto].
  - split; [intros [<-|[]]; apply up_relative; auto|]. inversion 1; [auto|congruence].
Qed.

(** ** Checksums, codes, actors *)
Lemma stated a : stated_length a = length_text a.
Proof. destruct a; vm_compute; reflexivity. Qed.
Lemma checksum_message c parent v m :
  In m (validate_checksum c parent v) <-> exists t, ChecksumProblem v c t /\ m = message t None (Some parent) VT_CHECKSUM (VE_Checksum c).
Proof.
  unfold validate_checksum. cbv zeta. destruct (is22 v && alg_not_in_22 (ck_alg c)) eqn:E.
  - apply andb_true_iff in E as [E1 E2]. apply is22_spec in E1. apply alg_not_in_22_spec in E2. cbn [In]. split.
    + intros [<-|[]]. eexists. split; [apply cp_new; auto|reflexivity].
    + intros (t & H & ->). left. inversion H as [|K]; [reflexivity|exfalso; apply K; auto].
  - assert (E' : ~ (v = $"SPDX-2.2" /\ NewAlgorithm (ck_alg c))).
    { rewrite <- is22_spec, <- alg_not_in_22_spec, <- andb_true_iff. congruence. }
    rewrite in_when, (not_spec _ _ (match_dollar_spec _ _ (checksum_rx_spec (ck_alg c)) (ck_value c))), stated. split.
    + intros [H ->]. eexists. split; [apply cp_digits; auto|reflexivity].
    + intros (t & H & ->). inversion H; [tauto|]. split; auto.
Qed.
Lemma checksums_message cs parent v m :
  In m (validate_checksums cs parent v) <->
  exists c t, In c cs /\ ChecksumProblem v c t /\ m = message t None (Some parent) VT_CHECKSUM (VE_Checksum c).
Proof.
  unfold validate_checksums. rewrite in_flat_map. split.
  - intros (c & Hc & H). apply checksum_message in H as (t & H). exists c, t. tauto.
  - intros (c & t & Hc & H). exists c. split; auto. apply checksum_message. eauto.
Qed.
Lemma code_message c parent m :
  In m (validate_verification_code c parent) <->
  exists t, CodeProblem c t /\ m = message t None (Some parent) VT_PACKAGE_VERIFICATION_CODE (VE_Code c).
Proof.
  unfold validate_verification_code. cbv zeta. rewrite in_app_iff, in_flat_map, in_when.
  assert (E : negb (match_dollar (rexact 40 (RSet hexl)) (vc_value c)) = true <-> ~ modulo_final_LF (Digest (Exactly 40)) (vc_value c)).
  { apply not_spec. apply (match_dollar_spec _ _ (checksum_rx_spec CA_SHA1)). }
  rewrite E. split.
  - intros [(f & Hf & H)|[H ->]].
    + apply in_when in H as [H ->]. apply (false_spec _ _ (startswith_slash f)) in H. eexists. split; [apply vp_path; eauto|reflexivity].
    + eexists. split; [apply vp_digits; auto|reflexivity].
  - intros (t & H & ->). inversion H as [f Hf K|K]; subst t.
    + left. exists f. split; auto. apply in_when. split; [apply (false_spec _ _ (startswith_slash f)); auto|reflexivity].
    + right. auto.
Qed.
Lemma actor_message a parent m :
  In m (validate_actor a parent) <-> exists t, ActorProblem a t /\ m = message t None (Some parent) VT_ACTOR (VE_Actor a).
Proof.
  unfold validate_actor. split.
  - destruct (ac_type a) eqn:E1, (ac_email a) eqn:E2; cbn [In]; try tauto. intros [<-|[]]. eexists. split; [apply ap_email; eauto|reflexivity].
  - intros (t & [e E1 E2] & ->). rewrite E1, E2. left. reflexivity.
Qed.

(** ** External references *)
Definition expected_of (t : pystr) : pystr :=
  if str_in t [$"advisory"; $"fix"; $"url"] then $"be a valid URL"
  else if str_eqb t $"swid" then $"be a valid URI with scheme swid" else $"conform with the regex " ++ regex_text t.
Lemma expected_is t e : Expected t e -> e = expected_of t.
Proof.
  intros [t' H| |t' H]; [| |]; try reflexivity; unfold expected_of.
  - apply str_in_In in H. rewrite H. reflexivity.
  - destruct (str_in t' [$"advisory"; $"fix"; $"url"]) eqn:E1; [exfalso|destruct (str_eqb t' $"swid") eqn:E2; [exfalso|reflexivity]].
    + apply str_in_In in E1. revert E1. repeat (destruct H as [<-|H]; [vm_compute; intuition discriminate|]). destruct H.
    + apply str_eqb_eq in E2. subst t'. vm_compute in H. intuition discriminate.
Qed.
Section Refs.
Variable O : oracles.
Lemma ref_locator r parent v :
  er_category r <> RC_OTHER -> ~ (v = $"SPDX-2.2" /\ NewRefType r) -> In (er_type r) (types_of (er_category r)) ->
  exists b, validate_external_package_ref O r parent v =
    when b (msg ($"externalPackageRef locator of type """ ++ er_type r ++ $""" must " ++ expected_of (er_type r) ++ $", but is: " ++ er_locator r)
                (ctx None (Some parent) VT_EXTERNAL_PACKAGE_REF (VE_PkgRef r)))
    /\ Expected (er_type r) (expected_of (er_type r)).
Proof.
  intros Hc Hn Ht. unfold validate_external_package_ref. cbv zeta.
  assert (E : is22 v && str_in (er_type r) [$"advisory"; $"fix"; $"url"; $"swid"] = false).
  { apply not_true_iff_false. rewrite andb_true_iff, is22_spec, str_in_In. intros [K1 K2]. apply Hn. split; auto. split; auto. }
  rewrite E. clear E Hn.
  assert (Hm : forall cx, exists b,
     (if str_in (er_type r) [$"advisory"; $"fix"; $"url"] then
        when (truthy_list (validate_url (er_locator r))) 
             (msg ($"externalPackageRef locator of type """ ++ er_type r ++ $""" must be a valid URL, but is: " ++ er_locator r) cx)
      else if str_eqb (er_type r) $"swid" then
        when (negb (o_isuri O (er_locator r)) || negb (startswith $"swid" (er_locator r)))
             (msg ($"externalPackageRef locator of type ""swid"" must be a valid URI with scheme swid, but is: " ++ er_locator r) cx)
      else validate_against_regex (er_locator r) (er_type r) cx) =
     when b (msg ($"externalPackageRef locator of type """ ++ er_type r ++ $""" must " ++ expected_of (er_type r) ++ $", but is: " ++ er_locator r) cx)
     /\ Expected (er_type r) (expected_of (er_type r))).
  { intro cx. unfold expected_of. destruct (str_in (er_type r) [$"advisory"; $"fix"; $"url"]) eqn:E1.
    - eexists. split; [reflexivity|]. apply ex_url. apply str_in_In. exact E1.
    - destruct (str_eqb (er_type r) $"swid") eqn:E2.
      + apply str_eqb_eq in E2. rewrite E2. eexists. split; [reflexivity|]. constructor.
      + assert (K : In (er_type r) [$"cpe22Type"; $"cpe23Type"; $"maven-central"; $"npm"; $"nuget"; $"bower"; $"purl"; $"swh"; $"gitoid"]).
        { apply not_true_iff_false in E1. rewrite str_in_In in E1. apply str_eqb_neq in E2.
          assert (E2' : $"swid" <> er_type r) by (intro Q; apply E2; symmetry; exact Q). clear E2. cbn [In] in *.
          destruct (er_category r); cbn [types_of In] in Ht; [| | |contradiction].
          all: repeat (destruct Ht as [Ht|Ht]; [tauto|]); destruct Ht. }
        unfold validate_against_regex.
        assert (A : exists x, assoc (er_type r) TYPE_TO_REGEX = Some x).
        { revert K. generalize (er_type r). intros ty K. repeat (destruct K as [<-|K]; [eexists; vm_compute; reflexivity|]). destruct K. }
        destruct A as (x & ->). eexists. split; [|apply ex_regex; exact K]. rewrite <- app_assoc. reflexivity. }
  change (types_of (er_category r)) with (category_types (er_category r)) in Ht. apply str_in_In in Ht.
  destruct (er_category r) eqn:Ec; try contradiction; rewrite Ht; cbn [negb]; apply Hm.
Qed.
Lemma ref_message r parent v m :
  In m (validate_external_package_ref O r parent v) <->
  exists t, RefProblem O v r t /\ m = message t None (Some parent) VT_EXTERNAL_PACKAGE_REF (VE_PkgRef r).
Proof.
  assert (Hdec : {er_category r = RC_OTHER} + {er_category r <> RC_OTHER}) by (destruct (er_category r); auto; right; discriminate).
  destruct Hdec as [Hc|Hc].
  { unfold validate_external_package_ref. cbv zeta. rewrite Hc, in_when, has_char_In. split.
    - intros [H ->]. eexists. split; [apply rp_spaces; auto|reflexivity].
    - intros (t & H & ->). inversion H as [? K|? [K _]|K|? K]; subst t; try congruence. auto. }
  destruct (is22 v && str_in (er_type r) [$"advisory"; $"fix"; $"url"; $"swid"]) eqn:E22.
  { assert (Hn : v = $"SPDX-2.2" /\ NewRefType r).
    { apply andb_true_iff in E22 as [E1 E2]. apply is22_spec in E1. apply str_in_In in E2. split; auto. split; auto. }
    assert (L : validate_external_package_ref O r parent v
                = [msg ($"externalPackageRef type """ ++ er_type r ++ $""" is not supported in SPDX-2.2") (ctx None (Some parent) VT_EXTERNAL_PACKAGE_REF (VE_PkgRef r))]).
    { unfold validate_external_package_ref. cbv zeta. destruct (er_category r); try contradiction; rewrite E22; reflexivity. }
    rewrite L. cbn [In]. split.
    - intros [<-|[]]. eexists. split; [apply rp_new; tauto|reflexivity].
    - intros (t & H & ->). inversion H; subst t; try contradiction. left. reflexivity. }
  assert (Hn : ~ (v = $"SPDX-2.2" /\ NewRefType r)).
  { intros [K1 [_ K2]]. apply is22_spec in K1. apply str_in_In in K2. rewrite K1, K2 in E22. discriminate. }
  destruct (str_in (er_type r) (types_of (er_category r))) eqn:Et.
  - apply str_in_In in Et. destruct (ref_locator r parent v Hc Hn Et) as (b & L & X).
    pose proof (validate_external_package_ref_spec O r parent v) as S. rewrite L in *. rewrite when_nil in S.
    rewrite in_when, (false_spec _ _ S). unfold ValidPkgRef. split.
    + intros [H ->]. eexists. split; [apply rp_locator; eauto|reflexivity]. intro K. apply H. split; auto.
    + intros (t & H & ->). inversion H as [? K|? K|? ? K|e ? ? ? K1 K2]; subst t; try contradiction; try tauto.
      split; [tauto|]. rewrite (expected_is _ _ K2). reflexivity.
  - assert (L : validate_external_package_ref O r parent v
                = [msg ($"externalPackageRef type in category " ++ ref_category_name (er_category r) ++ $" must be one of "
                        ++ texts_str (types_of (er_category r)) ++ $", but is: " ++ er_type r) (ctx None (Some parent) VT_EXTERNAL_PACKAGE_REF (VE_PkgRef r))]).
    { unfold validate_external_package_ref. cbv zeta.
      destruct (er_category r); try contradiction; rewrite E22; change category_types with types_of; rewrite Et; reflexivity. }
    apply not_true_iff_false in Et. rewrite str_in_In in Et. rewrite L. cbn [In]. split.
    + intros [<-|[]]. eexists. split; [apply rp_type; auto|reflexivity].
    + intros (t & H & ->). inversion H; subst t; first [contradiction|tauto|left; reflexivity].
Qed.

(** ** Licenses *)
Lemma token_message t e d cx m :
  In t (o_invalid_symbols O e) -> In m (validate_license_token O t e d cx) -> exists x, LicenseProblem O d e x /\ m = msg x cx.
Proof.
  intro Ht. unfold validate_license_token. destruct (has_char (ch ":") t) eqn:Ec.
  - apply has_char_In in Ec. destruct (split_cases (ch ":") t) as [[_ Hc]|[(a & b & -> & E & Ha & Hb)|(a & b & r & l & -> & r' & E)]]; [contradiction| |].
    + rewrite in_app_iff, !in_when, (not_spec _ _ (startswith_spec _ _)), (not_spec _ _ (ext_present_spec a d)). intros [[H ->]|[H ->]].
      * eexists. split; [apply (lp_prefix _ _ _ t a b); auto|reflexivity].
      * eexists. split; [apply (lp_unlisted _ _ _ t a b); auto|reflexivity].
    + cbn [In]. intros [<-|[]]. eexists. split; [apply (lp_colons _ _ _ t a b r'); auto|reflexivity].
  - apply has_char_false in Ec. rewrite in_when, (not_spec _ _ (opt_in_spec _ _)). intros [H ->].
    eexists. split; [apply (lp_unknown _ _ _ t); auto|reflexivity].
Qed.
Lemma license_messages e d cx m :
  In m (flat_map (fun t => validate_license_token O t e d cx) (o_invalid_symbols O e)
        ++ match o_strict_parse_error O e with Some err => [msg (err ++ $". for license_expression: " ++ o_lic_str O e) cx] | None => [] end) <->
  exists x, LicenseProblem O d e x /\ m = msg x cx.
Proof.
  rewrite in_app_iff, in_flat_map. split.
  - intros [(t & Ht & H)|H]; [eapply token_message; eauto|]. destruct (o_strict_parse_error O e) eqn:E; [|destruct H]. destruct H as [<-|[]].
    eexists. split; [apply lp_strict; eauto|reflexivity].
  - intros (x & H & ->). inversion H as [t a b c Ht E|t a b Ht E Ha Hb K|t a b Ht E Ha Hb K|t Ht Hc K|err E]; subst x.
    + left. exists t. split; auto. unfold validate_license_token. destruct (few_colons (ch ":") t a b c E) as [K1 K2].
      rewrite (proj2 (has_char_In _ _) K1). destruct (split_cases (ch ":") t) as [[_ Hc]|[(a' & b' & -> & E' & Ha & Hb)|(a' & b' & r & l & -> & r' & E')]].
      * contradiction.
      * exfalso. eapply K2; eauto.
      * left. reflexivity.
    + left. exists t. split; auto. unfold validate_license_token.
      rewrite (proj2 (has_char_In (ch ":") t)) by (rewrite E; apply in_or_app; right; left; reflexivity).
      rewrite (proj2 (split_two (ch ":") t a b)) by auto. apply in_app_iff. left. apply in_when. split; [|reflexivity].
      apply (not_spec _ _ (startswith_spec _ _)). exact K.
    + left. exists t. split; auto. unfold validate_license_token.
      rewrite (proj2 (has_char_In (ch ":") t)) by (rewrite E; apply in_or_app; right; left; reflexivity).
      rewrite (proj2 (split_two (ch ":") t a b)) by auto. apply in_app_iff. right. apply in_when. split; [|reflexivity].
      apply (not_spec _ _ (ext_present_spec _ _)). exact K.
    + left. exists t. split; auto. unfold validate_license_token. rewrite (proj2 (has_char_false _ _) Hc). apply in_when. split; [|reflexivity].
      apply (not_spec _ _ (opt_in_spec _ _)). exact K.
    + right. rewrite E. left. reflexivity.
Qed.
Lemma license_message l d parent m : In m (validate_license_expression O l d parent None) <-> LicenseMessage O d parent l m.
Proof.
  unfold validate_license_expression. destruct l as [[e| |]|]; try (cbn [In]; split; [tauto|inversion 1]). cbv zeta. rewrite license_messages. split.
  - intros (x & H & ->). apply lm_license. exact H.
  - inversion 1; subst. eexists. split; [eassumption|reflexivity].
Qed.
Lemma licenses_message ls d parent m : In m (validate_license_expressions O ls d parent) <-> LicensesMessage O d parent ls m.
Proof.
  unfold validate_license_expressions. rewrite in_flat_map. split.
  - intros (l & Hl & H). unfold validate_license_expression in H. destruct l as [e| |]; try contradiction. cbv zeta in H.
    apply license_messages in H as (x & H & ->). eapply ls_license; eauto.
  - intros [e t Hl H]. exists (NVal e). split; auto. unfold validate_license_expression. cbv zeta. apply license_messages. eauto.
Qed.

(** ** The parts of a document *)
Lemma docref_message r doc v m : In m (validate_external_document_ref O r doc v) <-> ExtDocRefMessage O v doc r m.
Proof.
  unfold validate_external_document_ref. cbv zeta. rewrite !in_app_iff, in_when, in_map_ex, checksum_message, (not_spec _ _ (docref_id_spec _)). split.
  - intros [[H ->]|[(t & H & ->)|(t & H & ->)]].
    + apply em_id. exact H.
    + apply em_uri. apply uri_problem. exact H.
    + apply em_checksum. exact H.
  - intros [H|t H|t H].
    + left. auto.
    + right. left. exists t. split; [apply uri_problem; exact H|reflexivity].
    + right. right. eauto.
Qed.

Lemma select_filter {A} (P : A -> Prop) (f : A -> bool) : (forall x, f x = true <-> P x) -> forall l k, Select P l k <-> k = filter f l.
Proof.
  intro H. induction l as [|x l IH]; intro k; cbn [filter].
  - split; [inversion 1; auto|intros ->; constructor].
  - destruct (f x) eqn:E.
    + apply H in E. split; [inversion 1; subst; [f_equal; apply IH; auto|contradiction]|]. intros ->. apply sl_take; auto. apply IH. reflexivity.
    + assert (N : ~ P x) by (rewrite <- H; congruence).
      split; [inversion 1; subst; [contradiction|apply IH; auto]|]. intros ->. apply sl_skip; auto. apply IH. reflexivity.
Qed.
Lemma contained_files d p l :
  ContainedFiles d p l <->
  l = filter (fun r => is_file (get_element_type_from_spdx_id (re_related r) d)) (filter_by_type_and_origin (do_relationships d) RT_CONTAINS p)
      ++ filter (fun r => is_file (get_element_type_from_spdx_id (NVal (re_id r)) d)) (filter_by_type_and_target (do_relationships d) RT_CONTAINED_BY p).
Proof.
  unfold filter_by_type_and_origin, filter_by_type_and_target. rewrite !filter_filter. unfold ContainedFiles.
  match goal with |- _ <-> _ = filter ?f _ ++ filter ?g _ =>
    assert (F : forall r, f r = true <-> Contains d p r); [|assert (G : forall r, g r = true <-> ContainedBy d p r)] end.
  - intro r. unfold Contains. rewrite !andb_true_iff, rel_type_eqb_eq, str_eqb_eq, is_file_id. tauto.
  - intro r. unfold ContainedBy. rewrite !andb_true_iff, rel_type_eqb_eq, nn_is_spec, is_file_id. split.
    + intros [[K1 K2] (i & E & K3)]. injection E as <-. auto.
    + intros (K1 & K2 & K3). split; auto. eauto.
  - split.
    + intros (a & b & -> & Ha & Hb). apply (select_filter _ _ F) in Ha. apply (select_filter _ _ G) in Hb. subst. reflexivity.
    + intros ->. eexists _, _. split; [reflexivity|]. split; [apply (select_filter _ _ F)|apply (select_filter _ _ G)]; reflexivity.
Qed.
Lemma is_some_true {A} (o : option A) : is_some o = true <-> o <> None.
Proof. destruct o; cbn; split; congruence. Qed.
Lemma is_none_true {A} (o : option A) : is_none o = true <-> o = None.
Proof. destruct o; cbn; split; congruence. Qed.
Lemma truthy_list_true {A} (l : list A) : truthy_list l = true <-> l <> [].
Proof. destruct l; cbn; split; congruence. Qed.

(** *** Packages *)
Definition At (P : pystr -> Prop) (cx : vctx) (m : vmsg) : Prop := exists t, P t /\ m = msg t cx.
Lemma package_message p v d m : In m (validate_package_within_document O p v d) <-> PackageMessage O v d p m.
Proof.
  unfold validate_package_within_document, validate_package. cbv zeta.
  set (cx := ctx (Some (pk_id p)) (Some (ci_id (do_ci d))) VT_PACKAGE (VE_Package p)).
  rewrite !in_app_iff, !license_message, checksums_message, in_if22, !in_app_iff, !in_when, !is_some_true, !is_none_true.
  change (validate_spdx_id (pk_id p) d false false) with (validate_spdx_id (pk_id p) d (fst (flags Own)) (snd (flags Own))). rewrite id_message.
  assert (PM : forall t, PackageProblem O v d p t -> PackageMessage O v d p (msg t cx)) by (intros t Q; apply (pm_package _ _ _ _ _ Q)).
  split.
  - intros [(t & H & ->)|[H|[H|[H|[H|[H|[H|[H|[(c & t & Hc & H & ->)|[H|(Ev & H)]]]]]]]]]].
    + apply PM. apply pp_id. exact H.
    + destruct (pk_files_analyzed p) eqn:Ef; [destruct H|]. cbn [negb] in H. apply in_when in H as [H ->]. apply truthy_list_true in H.
      apply PM. apply pp_contains; auto. apply contained_files. reflexivity.
    + apply pm_concluded. exact H.
    + destruct (truthy_list (pk_info p)) eqn:Ei; [|destruct H]. apply truthy_list_true in Ei.
      destruct (pk_files_analyzed p) eqn:Ef; cbn [negb] in H.
      * apply licenses_message in H. apply pm_info; auto.
      * destruct H as [<-|[]]. apply PM. apply pp_info; auto.
    + apply pm_declared. exact H.
    + destruct (pk_download p) as [u| |] eqn:E; try contradiction. apply in_map_ex in H as (t & H & ->). apply location_problem in H.
      apply PM. eapply pp_download; eauto.
    + destruct (pk_homepage p) as [[u| |]|] eqn:E; try contradiction. apply in_map_ex in H as (t & H & ->). apply url_problem in H.
      apply PM. eapply pp_homepage; eauto.
    + destruct (pk_verif p) as [c|] eqn:E; [|destruct H]. destruct (pk_files_analyzed p) eqn:Ef; cbn [negb] in H.
      * apply code_message in H as (t & H & ->). apply pm_code; auto.
      * destruct H as [<-|[]]. apply PM. apply pp_code; auto.
    + eapply pm_checksum; eauto.
    + unfold validate_external_package_refs in H. apply in_flat_map in H as (r & Hr & H). apply ref_message in H as (t & H & ->).
      eapply pm_ref; eauto.
    + destruct H as [[H ->]|[[H ->]|[[H ->]|[[H ->]|[[H ->]|[[H ->]|[H ->]]]]]]]; apply PM;
        match goal with
        | |- PackageProblem _ _ _ _ ?t =>
            first [ change t with ($"primary_package_purpose" ++ $" is not supported in SPDX-2.2"); eapply pp_unsupported; [exact Ev|left; reflexivity|exact H]
                  | change t with ($"built_date" ++ $" is not supported in SPDX-2.2"); eapply pp_unsupported; [exact Ev|right; left; reflexivity|exact H]
                  | change t with ($"release_date" ++ $" is not supported in SPDX-2.2"); eapply pp_unsupported; [exact Ev|right; right; left; reflexivity|exact H]
                  | change t with ($"valid_until_date" ++ $" is not supported in SPDX-2.2"); eapply pp_unsupported; [exact Ev|right; right; right; left; reflexivity|exact H]
                  | change t with ($"license_concluded" ++ $" is mandatory in SPDX-2.2"); eapply pp_missing; [exact Ev|left; reflexivity|exact H]
                  | change t with ($"license_declared" ++ $" is mandatory in SPDX-2.2"); eapply pp_missing; [exact Ev|right; left; reflexivity|exact H]
                  | change t with ($"copyright_text" ++ $" is mandatory in SPDX-2.2"); eapply pp_missing; [exact Ev|right; right; left; reflexivity|exact H] ]
        end.
  - intros [t H|m' H|m' Ef H|m' H|c t Ef E H|c t Hc H|r t Hr H].
    + change (message t (Some (pk_id p)) (Some (ci_id (do_ci d))) VT_PACKAGE (VE_Package p)) with (msg t cx).
      destruct H as [t H|l Ef H Hl|Ef H|u t E H|u t E H|c Ef E|name given Ev H G|name missing Ev H G].
      * left. eauto.
      * right. left. rewrite Ef. cbn [negb]. apply in_when. apply contained_files in H. subst l. split; [apply truthy_list_true; exact Hl|reflexivity].
      * do 3 right. left. apply truthy_list_true in H. rewrite H, Ef. left. reflexivity.
      * do 5 right. left. rewrite E. apply in_map_ex. exists t. split; [apply location_problem; exact H|reflexivity].
      * do 6 right. left. rewrite E. apply in_map_ex. exists t. split; [apply url_problem; exact H|reflexivity].
      * do 7 right. left. rewrite E, Ef. left. reflexivity.
      * do 10 right. split; auto. cbn [In] in H.
        destruct H as [H|[H|[H|[H|[]]]]]; injection H as <- <-; [left|right; left|do 2 right; left|do 3 right; left]; split; auto.
      * do 10 right. split; auto. cbn [In] in H.
        destruct H as [H|[H|[H|[]]]]; injection H as <- <-; [do 4 right; left|do 5 right; left|do 6 right]; split; auto.
    + do 2 right. left. exact H.
    + do 3 right. left. apply licenses_message in H. assert (Hi : pk_info p <> []) by (intro K; rewrite K in H; destruct H).
      apply truthy_list_true in Hi. rewrite Hi, Ef. exact H.
    + do 4 right. left. exact H.
    + do 7 right. left. rewrite E, Ef. cbn [negb]. apply code_message. eauto.
    + do 8 right. left. exists c, t. auto.
    + do 9 right. left. unfold validate_external_package_refs. apply in_flat_map. exists r. split; auto. apply ref_message. eauto.
Qed.

(** *** Files *)
Lemma algorithm_texts l ts :
  AlgorithmTexts l ts <-> ts = map (fun a => $"<ChecksumAlgorithm." ++ checksum_alg_name a ++ $": " ++ str_of_N (algorithm_number a) ++ $">") l.
Proof.
  assert (N : forall n a, nth_error algorithms_in_order n = Some a -> number (S n) = str_of_N (algorithm_number a)).
  { intros n a. do 17 (destruct n as [|n]; [cbn [nth_error algorithms_in_order]; intro E; injection E as <-; vm_compute; reflexivity|]).
    cbn. destruct n; discriminate. }
  assert (X : forall a, exists n, nth_error algorithms_in_order n = Some a).
  { intro a. assert (K : In a algorithms_in_order) by (destruct a; cbn; tauto). apply In_nth_error in K. exact K. }
  split.
  - induction 1 as [|n a l ts H _ IH]; cbn [map]; [reflexivity|]. rewrite (N _ _ H), IH. reflexivity.
  - intros ->. induction l as [|a l IH]; cbn [map]; [constructor|]. destruct (X a) as (n & H). rewrite <- (N _ _ H). constructor; auto.
Qed.
Lemma file_message f v d m : In m (validate_file_within_document O f v d) <-> FileMessage O v d f m.
Proof.
  unfold validate_file_within_document, validate_file. cbv zeta.
  set (cx := ctx (Some (fi_id f)) (Some (ci_id (do_ci d))) VT_FILE (VE_File f)).
  rewrite !in_app_iff, license_message, licenses_message, checksums_message, in_if22, !in_app_iff, !in_when, !is_none_true.
  change (validate_spdx_id (fi_id f) d false false) with (validate_spdx_id (fi_id f) d (fst (flags Own)) (snd (flags Own))). rewrite id_message.
  rewrite (false_spec _ _ (startswith_slash (fi_name f))), (not_spec _ _ (sha1_spec (fi_checksums f))), negb_true_iff, truthy_list_false.
  assert (S1 : ~ In CA_SHA1 (map ck_alg (fi_checksums f)) <-> ~ exists c, In c (fi_checksums f) /\ ck_alg c = CA_SHA1).
  { rewrite in_map_iff. split; intros K (c & K1 & K2); apply K; exists c; auto. }
  rewrite <- S1.
  assert (PM : forall t, FileProblem O v d f t -> FileMessage O v d f (msg t cx)) by (intros t Q; apply (fm_file _ _ _ _ _ Q)).
  split.
  - intros [(t & H & ->)|[H|[H|[[H ->]|[[H ->]|[(c & t & Hc & H & ->)|(Ev & H)]]]]]].
    + apply PM, fp_id. exact H.
    + apply fm_concluded. exact H.
    + apply fm_info. exact H.
    + apply PM, fp_name. exact H.
    + apply PM. apply fp_sha1; auto. apply algorithm_texts. reflexivity.
    + eapply fm_checksum; eauto.
    + destruct H as [[H ->]|[[H ->]|[H ->]]]; apply PM;
        match goal with
        | |- FileProblem _ _ _ _ ?t =>
            first [ change t with ($"license_concluded" ++ $" is mandatory in SPDX-2.2"); eapply fp_missing; [exact Ev|left; reflexivity|exact H]
                  | change t with ($"license_info_in_file" ++ $" is mandatory in SPDX-2.2"); eapply fp_missing; [exact Ev|right; left; reflexivity|exact H]
                  | change t with ($"copyright_text" ++ $" is mandatory in SPDX-2.2"); eapply fp_missing; [exact Ev|right; right; left; reflexivity|exact H] ]
        end.
  - intros [t H|m' H|m' H|c t Hc H].
    + change (message t (Some (fi_id f)) (Some (ci_id (do_ci d))) VT_FILE (VE_File f)) with (msg t cx).
      destruct H as [t H|H|ts H Ht|name missing Ev H G].
      * left. eauto.
      * do 3 right. left. auto.
      * do 4 right. left. split; auto. apply algorithm_texts in Ht. subst ts. reflexivity.
      * do 6 right. split; auto. cbn [In] in H.
        destruct H as [H|[H|[H|[]]]]; injection H as <- <-; [left|right; left|do 2 right]; split; auto.
    + right. left. exact H.
    + do 2 right. left. exact H.
    + do 5 right. left. exists c, t. auto.
Qed.

(** *** Snippets, annotations, relationships, extracted licensing infos *)
Lemma range_message r name cx m : In m (validate_range r name cx) <-> At (RangeProblem name r) cx m.
Proof.
  unfold validate_range, At. cbv zeta. rewrite in_app_iff, !in_when, !Z.ltb_lt. split.
  - intros [[H ->]|[H ->]]; (eexists; split; [|reflexivity]); [apply rg_low; auto|apply rg_order; lia].
  - intros (t & [H|H] & ->); [left|right]; (split; [lia|reflexivity]).
Qed.
Lemma snippet_message s v d m : In m (validate_snippet_within_document O s v d) <-> SnippetMessage O v d s m.
Proof.
  unfold validate_snippet_within_document, validate_snippet. cbv zeta.
  set (cx := ctx (Some (sn_id s)) (Some (ci_id (do_ci d))) VT_SNIPPET (VE_Snippet s)).
  rewrite !in_app_iff, license_message, licenses_message, in_if22, !in_app_iff, !in_when, !is_none_true, range_message.
  change (validate_spdx_id (sn_id s) d false false) with (validate_spdx_id (sn_id s) d (fst (flags Own)) (snd (flags Own))). rewrite id_message.
  change (validate_spdx_id (sn_file s) d false true) with (validate_spdx_id (sn_file s) d (fst (flags AFile)) (snd (flags AFile))). rewrite id_message.
  assert (PM : forall t, SnippetProblem O v d s t -> SnippetMessage O v d s (msg t cx)) by (intros t Q; apply (sm_snippet _ _ _ _ _ Q)).
  split.
  - intros [(t & H & ->)|[(t & H & ->)|[H|[H|[(t & H & ->)|[H|(Ev & H)]]]]]].
    + apply PM, sp_id. exact H.
    + apply PM, sp_file. exact H.
    + apply sm_concluded. exact H.
    + apply sm_info. exact H.
    + apply PM, sp_bytes. exact H.
    + destruct (sn_lines s) as [r|] eqn:E; [|destruct H]. apply range_message in H as (t & H & ->). apply PM. eapply sp_lines; eauto.
    + destruct H as [[H ->]|[H ->]]; apply PM;
        match goal with
        | |- SnippetProblem _ _ _ _ ?t =>
            first [ change t with ($"license_concluded" ++ $" is mandatory in SPDX-2.2"); eapply sp_missing; [exact Ev|left; reflexivity|exact H]
                  | change t with ($"copyright_text" ++ $" is mandatory in SPDX-2.2"); eapply sp_missing; [exact Ev|right; left; reflexivity|exact H] ]
        end.
  - intros [t H|m' H|m' H].
    + change (message t (Some (sn_id s)) (Some (ci_id (do_ci d))) VT_SNIPPET (VE_Snippet s)) with (msg t cx).
      destruct H as [t H|t H|t H|r t E H|name missing Ev H G].
      * left. eauto.
      * right. left. eauto.
      * do 4 right. left. exists t. auto.
      * do 5 right. left. rewrite E. apply range_message. exists t. auto.
      * do 6 right. split; auto. cbn [In] in H. destruct H as [H|[H|[]]]; injection H as <- <-; [left|right]; split; auto.
    + do 2 right. left. exact H.
    + do 3 right. left. exact H.
Qed.
Lemma annotation_message a d m : In m (validate_annotation a d) <-> AnnotationMessage d a m.
Proof.
  unfold validate_annotation. rewrite in_app_iff, actor_message.
  change (validate_spdx_id (an_id a) d true false) with (validate_spdx_id (an_id a) d (fst (flags Anything)) (snd (flags Anything))). rewrite id_message.
  split.
  - intros [(t & H & ->)|(t & H & ->)]; [apply an_actor|apply an_ref]; exact H.
  - intros [t H|t H]; [left|right]; exists t; auto.
Qed.
Lemma relationship_message r v d m :
  In m (validate_relationship r v d) <-> exists t, RelationshipProblem v d r t /\ m = message t None None VT_RELATIONSHIP (VE_Relationship r).
Proof.
  unfold validate_relationship. cbv zeta. set (cx := ctx None None VT_RELATIONSHIP (VE_Relationship r)).
  rewrite !in_app_iff, in_if22, in_when, orb_true_iff, !rel_type_eqb_eq.
  change (validate_spdx_id (re_id r) d true false) with (validate_spdx_id (re_id r) d (fst (flags Anything)) (snd (flags Anything))). rewrite id_message.
  split.
  - intros [(t & H & ->)|[H|(Ev & H & ->)]].
    + exists t. split; [apply re_from; exact H|reflexivity].
    + destruct (re_related r) as [i| |] eqn:E; try contradiction.
      change (validate_spdx_id i d true false) with (validate_spdx_id i d (fst (flags Anything)) (snd (flags Anything))) in H.
      apply id_message in H as (t & H & ->). exists t. split; [eapply re_to; eauto|reflexivity].
    + eexists. split; [apply re_new; [exact Ev|]|reflexivity]. cbn [In]. destruct H as [-> | ->]; auto.
  - intros (t & [t' H|i t' E H|Ev H] & ->).
    + left. exists t'. auto.
    + right. left. rewrite E.
      change (validate_spdx_id i d true false) with (validate_spdx_id i d (fst (flags Anything)) (snd (flags Anything))). apply id_message. exists t'. auto.
    + right. right. split; auto. split; [|reflexivity]. cbn [In] in H. destruct H as [<-|[<-|[]]]; auto.
Qed.
Lemma extracted_message e m :
  In m (validate_extracted_licensing_info e) <-> exists t, ExtractedProblem e t /\ m = message t None None VT_EXTRACTED_LICENSING_INFO (VE_Extracted e).
Proof.
  unfold validate_extracted_licensing_info. cbv zeta. rewrite in_app_iff, in_flat_map.
  assert (Ht : negb (truthy_opt (el_text e)) = true <-> el_text e = None \/ el_text e = Some []).
  { destruct (el_text e) as [[|c t]|]; cbn; split; intuition (auto; discriminate). }
  split.
  - intros [H|(u & Hu & H)].
    + destruct (el_id e) as [[|c i]|] eqn:E; try contradiction.
      rewrite in_app_iff, !in_when, (not_spec _ _ (licenseref_id_spec _)), Ht in H. destruct H as [[H ->]|[H ->]].
      * eexists. split; [eapply xp_id; [exact E|discriminate|exact H]|reflexivity].
      * eexists. split; [eapply xp_text; [exact E|discriminate|exact H]|reflexivity].
    + apply in_map_ex in H as (t & H & ->). apply url_problem in H. eexists. split; [eapply xp_xref; eauto|reflexivity].
  - intros (t & [i E Hi H|i E Hi H|u t' Hu H] & ->).
    + left. rewrite E. destruct i as [|c i]; [contradiction|]. rewrite in_app_iff, !in_when, (not_spec _ _ (licenseref_id_spec _)). left. auto.
    + left. rewrite E. destruct i as [|c i]; [contradiction|]. rewrite in_app_iff, !in_when, Ht. right. auto.
    + right. exists u. split; auto. apply in_map_ex. exists t'. split; [apply url_problem; exact H|reflexivity].
Qed.

(** ** The document *)
Lemma twice_count (x : pystr) l : (exists a b c, l = a ++ x :: b ++ x :: c) <-> 2 <= count_occ str_dec l x.
Proof.
  split.
  - intros (a & b & c & ->). rewrite count_occ_app, count_occ_cons_eq, count_occ_app, count_occ_cons_eq by reflexivity. lia.
  - intro H. assert (I : In x l) by (apply (count_occ_In str_dec); lia). apply in_split in I as (a & r & ->).
    rewrite count_occ_app, count_occ_cons_eq in H by reflexivity.
    destruct (in_dec str_dec x r) as [I|I].
    + apply in_split in I as (b & c & ->). exists a, b, c. reflexivity.
    + rewrite (proj1 (count_occ_not_In str_dec r x) I) in H. assert (J : In x a) by (apply (count_occ_In str_dec); lia).
      apply in_split in J as (a1 & a2 & ->). exists a1, a2, r. rewrite <- app_assoc. reflexivity.
Qed.
Lemma sorted_perm_eq' l l' : StronglySorted StrLe l -> StronglySorted StrLe l' -> Permutation l l' -> l = l'.
Proof.
  assert (C : forall k, StronglySorted StrLe k -> StronglySorted str_le k).
  { induction 1 as [|x k H IH HF]; constructor; auto. eapply Forall_impl; [|exact HF]. intros y Hy. apply str_leb_StrLe. exact Hy. }
  intros H H'. apply sorted_perm_eq; auto.
Qed.
Lemma duplicates_are d l : Duplicates d l <-> l = DocUtils.sort (distinct (duplicated_ids [] (all_ids d))).
Proof.
  set (k := DocUtils.sort (distinct (duplicated_ids [] (all_ids d)))).
  assert (K : (forall x, In x k <-> exists a b c, all_ids d = a ++ x :: b ++ x :: c) /\ NoDup k /\ StronglySorted StrLe k).
  { split; [|split; [|apply sort_sorted']].
    - intro x. rewrite twice_count. transitivity (In x (distinct (duplicated_ids [] (all_ids d)))).
      + split; apply Permutation_in; [symmetry|]; apply sort_perm.
      + rewrite distinct_In, duplicated_count. cbn [In]. tauto.
    - eapply Permutation_NoDup; [apply sort_perm|apply distinct_NoDup]. }
  split; [|intros ->; exact K]. intros (H1 & H2 & H3). destruct K as (K1 & K2 & K3).
  apply sorted_perm_eq'; auto. apply NoDup_Permutation; auto. intro x. rewrite H1, K1. reflexivity.
Qed.

Theorem messages_exactly d ver :
  SupportedVersion (ci_version (do_ci d)) -> VersionFits d ver ->
  forall m, In m (validate_full_spdx_document O d ver) <-> Deserved O (ci_version (do_ci d)) d m.
Proof.
  intros Hs Hf m. assert (Ev : version_messages d ver = []) by (apply version_messages_spec; auto).
  unfold validate_full_spdx_document. cbv zeta. rewrite Ev, (effective_version_eq d ver Ev).
  set (v := ci_version (do_ci d)). set (cx := ctx (Some (ci_id (do_ci d))) None VT_DOCUMENT VE_None).
  unfold validate_creation_info. cbv zeta. fold cx.
  change (get_list_of_all_spdx_ids d) with (all_ids d).
  rewrite !in_app_iff, !in_when, in_map_ex, !negb_true_iff, (false_spec _ _ (describes_spec d)), truthy_list_true.
  change DOCUMENT_SPDX_ID with ($"SPDXRef-DOCUMENT"). rewrite !str_eqb_neq.
  assert (DM : forall t, DocumentProblem O d t -> Deserved O v d (msg t cx)) by (intros t Q; apply (ds_document _ _ _ _ Q)).
  assert (Hd : duplicated_ids [] (all_ids d) <> [] <-> DocUtils.sort (distinct (duplicated_ids [] (all_ids d))) <> []).
  { split; intros K E; apply K.
    - destruct (duplicated_ids [] (all_ids d)) as [|x k] eqn:Ek; [reflexivity|]. exfalso.
      assert (I : In x []).
      { rewrite <- E. eapply Permutation_in; [apply sort_perm|]. apply distinct_In. left. reflexivity. }
      destruct I.
    - rewrite E. reflexivity. }
  rewrite Hd. split.
  - intros [[[H ->]|[[H ->]|[(t & H & ->)|[H|H]]]]|[H|[H|[H|[H|[H|[H|[[H ->]|[H ->]]]]]]]]].
    + apply DM, dp_id. exact H.
    + apply DM, dp_license. exact H.
    + apply DM, dp_namespace. apply uri_problem. exact H.
    + unfold validate_actors in H. apply in_flat_map in H as (a & Ha & H). apply actor_message in H as (t & H & ->). eapply ds_creator; eauto.
    + unfold validate_external_document_refs in H. apply in_flat_map in H as (r & Hr & H). apply docref_message in H. eapply ds_docref; eauto.
    + unfold validate_packages in H. apply in_flat_map in H as (x & Hx & H). apply package_message in H. eapply ds_package; eauto.
    + unfold validate_files in H. apply in_flat_map in H as (x & Hx & H). apply file_message in H. eapply ds_file; eauto.
    + unfold validate_snippets in H. apply in_flat_map in H as (x & Hx & H). apply snippet_message in H. eapply ds_snippet; eauto.
    + unfold validate_annotations in H. apply in_flat_map in H as (x & Hx & H). apply annotation_message in H. eapply ds_annotation; eauto.
    + unfold validate_relationships in H. apply in_flat_map in H as (x & Hx & H). apply relationship_message in H as (t & H & ->). eapply ds_relationship; eauto.
    + unfold validate_extracted_licensing_infos in H. apply in_flat_map in H as (x & Hx & H). apply extracted_message in H as (t & H & ->). eapply ds_extracted; eauto.
    + apply DM, dp_describes. exact H.
    + apply DM. apply dp_duplicates; [|exact H]. apply duplicates_are. reflexivity.
  - intros [t H|a t Ha H|r m' Hr H|x m' Hx H|x m' Hx H|x m' Hx H|x m' Hx H|x t Hx H|x t Hx H].
    + change (message t (Some (ci_id (do_ci d))) None VT_DOCUMENT VE_None) with (msg t cx). destruct H as [H|H|t H|H|l Hl H].
      * left. left. auto.
      * left. right. left. auto.
      * left. right. right. left. exists t. split; [apply uri_problem; exact H|reflexivity].
      * do 7 right. left. auto.
      * do 8 right. apply duplicates_are in Hl. subst l. auto.
    + left. do 3 right. left. apply in_flat_map. exists a. split; auto. apply actor_message. eauto.
    + left. do 4 right. apply in_flat_map. exists r. split; auto. apply docref_message. exact H.
    + right. left. apply in_flat_map. exists x. split; auto. apply package_message. exact H.
    + do 2 right. left. apply in_flat_map. exists x. split; auto. apply file_message. exact H.
    + do 3 right. left. apply in_flat_map. exists x. split; auto. apply snippet_message. exact H.
    + do 4 right. left. apply in_flat_map. exists x. split; auto. apply annotation_message. exact H.
    + do 5 right. left. apply in_flat_map. exists x. split; auto. apply relationship_message. eauto.
    + do 6 right. left. apply in_flat_map. exists x. split; auto. apply extracted_message. eauto.
Qed.

(** ** Where messages point to *)
Lemma license_points d parent l m : LicenseMessage O d parent l m -> exists x, l = Some x /\ vm_ctx m = Build_vctx None (Some parent) VT_LICENSE_EXPRESSION (VE_License x).
Proof. intros [e t H]. eexists. split; reflexivity. Qed.
Lemma licenses_point d parent ls m : LicensesMessage O d parent ls m -> vm_ctx m = Build_vctx None (Some parent) VT_LICENSE_EXPRESSION (VE_Licenses ls).
Proof. intros [e t Hl H]. reflexivity. Qed.
Theorem messages_point d ver m : In m (validate_full_spdx_document O d ver) -> PointsInto d (vm_ctx m).
Proof.
  intro H. destruct (version_messages d ver) eqn:Ev.
  - pose proof Ev as K. apply version_messages_spec in K as [K1 K2]. apply (messages_exactly d ver K1 K2) in H.
    destruct H as [t H|a t Ha H|r m' Hr H|p m' Hp H|f m' Hf H|s m' Hs H|a m' Ha H|r t Hr H|e t He H]; try (constructor; assumption).
    + destruct H; [apply pi_docref|apply pi_docref|apply pi_docref_checksum]; assumption.
    + destruct H as [t H|m' H|m' Ef H|m' H|c t Ef E H|c t Hc H|r t Hr H].
      * apply pi_package. exact Hp.
      * apply license_points in H as (x & E & ->). eapply pi_license; [apply el_package; exact Hp|]. left. exact E.
      * apply licenses_point in H. rewrite H. eapply pi_licenses. apply el_package. exact Hp.
      * apply license_points in H as (x & E & ->). eapply pi_license; [apply el_package; exact Hp|]. right. left. exact E.
      * apply pi_code; assumption.
      * apply pi_package_checksum; assumption.
      * apply pi_ref; assumption.
    + destruct H as [t H|m' H|m' H|c t Hc H].
      * apply pi_file. exact Hf.
      * apply license_points in H as (x & E & ->). eapply pi_license; [apply el_file; exact Hf|]. left. exact E.
      * apply licenses_point in H. rewrite H. eapply pi_licenses. apply el_file. exact Hf.
      * apply pi_file_checksum; assumption.
    + destruct H as [t H|m' H|m' H].
      * apply pi_snippet. exact Hs.
      * apply license_points in H as (x & E & ->). eapply pi_license; [apply el_snippet; exact Hs|]. left. exact E.
      * apply licenses_point in H. rewrite H. eapply pi_licenses. apply el_snippet. exact Hs.
    + destruct H; [apply pi_annotator|apply pi_annotation]; assumption.
  - assert (K : ~ (SupportedVersion (ci_version (do_ci d)) /\ VersionFits d ver)) by (rewrite <- version_messages_spec, Ev; discriminate).
    apply (version_gate O) in K as (reason & E & _). rewrite E in H. destruct H as [<-|[<-|[]]]; apply pi_document.
Qed.
End Refs.

(** ** No message reads like the verdict of the command line tool *)
Definition verdict : pystr := $"The document is valid.".
Ltac other_text := match goal with |- ?t <> verdict => let K := fresh in intro K; discriminate K end.
Lemma id_text d u id t : IdProblem d u id t -> t <> verdict.
Proof. intros []; other_text. Qed.
Lemma code_text c t : CodeProblem c t -> t <> verdict.
Proof. intros []; other_text. Qed.
Lemma checksum_text v c t : ChecksumProblem v c t -> t <> verdict.
Proof. intros []; [destruct (ck_alg c)|]; other_text. Qed.
Lemma ref_text O v r t : RefProblem O v r t -> t <> verdict.
Proof. intros []; other_text. Qed.
Lemma license_text O d e t : LicenseProblem O d e t -> t <> verdict.
Proof.
  intros []; try other_text. intro K. apply (f_equal (@List.length char)) in K. rewrite !app_length in K. cbn in K. lia.
Qed.
Theorem no_verdict O d ver m : In m (validate_full_spdx_document O d ver) -> vm_text m <> verdict.
Proof.
  intro H. destruct (version_messages d ver) eqn:Ev.
  - pose proof Ev as K. apply version_messages_spec in K as [K1 K2]. apply (messages_exactly O d ver K1 K2) in H.
    destruct H as [t H|a t Ha H|r m' Hr H|p m' Hp H|f m' Hf H|s m' Hs H|a m' Ha H|r t Hr H|e t He H]; cbn [vm_text message].
    + destruct H; other_text.
    + destruct H; other_text.
    + destruct H as [H|t H|t H]; cbn [vm_text message]; [other_text|other_text|eapply checksum_text; eauto].
    + destruct H as [t H|m' H|m' Ef H|m' H|c t Ef E H|c t Hc H|r t Hr H]; cbn [vm_text message].
      * destruct H as [t H|l Ef H Hl|Ef H|u t E H|u t E H|c Ef E|name given Ev' H G|name missing Ev' H G]; try other_text.
        -- eapply id_text; eauto.
        -- cbn [In] in H. destruct H as [H|[H|[H|[H|[]]]]]; injection H as <- _; other_text.
        -- cbn [In] in H. destruct H as [H|[H|[H|[]]]]; injection H as <- _; other_text.
      * destruct H as [e t H]. eapply license_text; eauto.
      * destruct H as [e t Hl H]. eapply license_text; eauto.
      * destruct H as [e t H]. eapply license_text; eauto.
      * eapply code_text; eauto.
      * eapply checksum_text; eauto.
      * eapply ref_text; eauto.
    + destruct H as [t H|m' H|m' H|c t Hc H]; cbn [vm_text message].
      * destruct H as [t H|H|ts H Ht|name missing Ev' H G]; try other_text.
        -- eapply id_text; eauto.
        -- cbn [In] in H. destruct H as [H|[H|[H|[]]]]; injection H as <- _; other_text.
      * destruct H as [e t H]. eapply license_text; eauto.
      * destruct H as [e t Hl H]. eapply license_text; eauto.
      * eapply checksum_text; eauto.
    + destruct H as [t H|m' H|m' H]; cbn [vm_text message].
      * destruct H as [t H|t H|t H|r t E H|name missing Ev' H G]; try (eapply id_text; eauto; fail).
        -- destruct H; other_text.
        -- destruct H; other_text.
        -- cbn [In] in H. destruct H as [H|[H|[]]]; injection H as <- _; other_text.
      * destruct H as [e t H]. eapply license_text; eauto.
      * destruct H as [e t Hl H]. eapply license_text; eauto.
    + destruct H as [t H|t H]; cbn [vm_text message]; [destruct H; other_text|eapply id_text; eauto].
    + destruct H as [t H|i t E H|Ev' H]; [eapply id_text; eauto|eapply id_text; eauto|other_text].
    + destruct H; other_text.
  - assert (K : ~ (SupportedVersion (ci_version (do_ci d)) /\ VersionFits d ver)) by (rewrite <- version_messages_spec, Ev; discriminate).
    apply (version_gate O) in K as (reason & E & R). rewrite E in H. destruct H as [<-|[<-|[]]]; cbn [vm_text].
    + destruct R as [[_ ->]|(_ & w & _ & _ & ->)]; other_text.
    + other_text.
Qed.
