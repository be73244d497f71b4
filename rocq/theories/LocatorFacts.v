(** The patterns of the validators decide the syntax predicates of ValidationSpec.v. *)
From Verif Require Import Py PyFacts Rx RxFacts Data Oracles DocUtils Validation ValidationSpec.

Lemma forallb_Forall_iff {A} (p : A -> bool) (P : A -> Prop) :
  (forall c, p c = true <-> P c) -> forall s, forallb p s = true <-> Forall P s.
Proof.
  intros H s. rewrite forallb_forall, Forall_forall. split; intros HH x Hx; apply H; auto.
Qed.

(** ** Characters *)
Lemma hexl_spec c : hexl c = true <-> LowerHex c.
Proof.
  unfold hexl, LowerHex. rewrite orb_true_iff, is_digit09_spec, andb_true_iff, !N.leb_le. reflexivity.
Qed.
Lemma hexa_spec c : hexa c = true <-> AnyHex c.
Proof.
  unfold hexa, AnyHex, LowerHex. rewrite !orb_true_iff, is_digit09_spec, !andb_true_iff, !N.leb_le. reflexivity.
Qed.
Lemma is_alpha_spec c : is_alpha c = true <-> Letter c.
Proof.
  unfold is_alpha, is_upper, is_lower, Letter. rewrite orb_true_iff, !andb_true_iff, !N.leb_le. reflexivity.
Qed.
Lemma is_digit_spec c : is_digit c = true <-> UnicodeDigit c.
Proof. unfold is_digit, UnicodeDigit. destruct (digit_val c); split; intro H; try discriminate; auto. Qed.
Lemma oneof_spec l c : oneof l c = true <-> Is l c.
Proof. apply has_char_In. Qed.
Lemma id_char_spec c : id_char c = true <-> IdChar c.
Proof.
  unfold id_char, IdChar, Is. rewrite !orb_true_iff, is_digit_spec, is_alpha_spec, !N.eqb_eq.
  change (lit ".-") with [#"."; #"-"]. cbn [In]. split; intuition auto.
Qed.
Lemma docref_char_spec c : docref_char c = true <-> DocRefChar c.
Proof.
  unfold docref_char, DocRefChar, Is. rewrite orb_true_iff, id_char_spec, N.eqb_eq.
  change (lit "+") with [#"+"]. cbn [In]. split; intuition auto.
Qed.
Lemma alnum_spec c : alnum c = true <-> Letter c \/ Digit c.
Proof. unfold alnum. rewrite orb_true_iff, is_alpha_spec, is_digit09_spec. reflexivity. Qed.
Lemma ci_az_spec c : ci_az c = true <-> UrlLetter c.
Proof.
  unfold ci_az, UrlLetter. rewrite orb_true_iff, is_alpha_spec, !orb_true_iff, !N.eqb_eq. cbn [In].
  split; intuition auto.
Qed.
Lemma ci_az09_spec c : ci_az09 c = true <-> UrlAlnum c.
Proof. unfold ci_az09, UrlAlnum. rewrite orb_true_iff, ci_az_spec, is_digit09_spec. reflexivity. Qed.
Lemma ci_eq_spec c x : ci_eq c x = true <-> SameLetter c x.
Proof.
  unfold ci_eq, SameLetter. rewrite !orb_true_iff, !andb_true_iff, !orb_true_iff, !N.eqb_eq. cbn [In].
  split; intuition auto.
Qed.
Lemma dot_spec c : dot c = true <-> c <> LF.
Proof. unfold dot. rewrite negb_true_iff, N.eqb_neq. reflexivity. Qed.
Lemma forall_dot s : forallb dot s = true <-> ~ In LF s.
Proof.
  rewrite (forallb_Forall_iff _ _ dot_spec), Forall_forall. split.
  - intros H Hin. apply (H LF); auto.
  - intros H x Hx ->. auto.
Qed.
Lemma forall_noneof c s : forallb (fun x => negb (N.eqb x c)) s = true <-> ~ In c s.
Proof.
  rewrite forallb_forall. split.
  - intros H Hin. apply H in Hin. rewrite N.eqb_refl in Hin. discriminate.
  - intros H x Hx. rewrite negb_true_iff, N.eqb_neq. intros ->. auto.
Qed.

(** ** [$] *)
Lemma match_dollar_spec r (P : pystr -> Prop) :
  (forall s, lang r s <-> P s) -> forall s, match_dollar r s = true <-> modulo_final_LF P s.
Proof.
  intros H s. rewrite match_dollar_correct. unfold modulo_final_LF. rewrite H. apply or_iff_compat_l.
  split; intros (t & E & Ht); exists t; rewrite H in *; auto.
Qed.

(** ** Checksums *)
Lemma checksum_rx_spec a s : lang (checksum_rx a) s <-> Digest (digest_digits a) s.
Proof.
  unfold Digest. rewrite <- (forallb_Forall_iff _ _ hexl_spec).
  destruct a; cbn [checksum_rx digest_digits Counts];
    rewrite ?lang_exact_set, ?lang_atleast_set, ?lang_upto_set; tauto.
Qed.
Lemma alg_not_in_22_spec a : alg_not_in_22 a = true <-> NewAlgorithm a.
Proof. unfold NewAlgorithm. destruct a; cbn; split; intro H; try discriminate; auto 12; intuition discriminate. Qed.

Lemma is22_spec v : is22 v = true <-> v = $"SPDX-2.2".
Proof. apply str_eqb_eq. Qed.

Lemma when_nil {A} b (m : A) : when b m = [] <-> b = false.
Proof. destruct b; cbn; split; intro; auto; discriminate. Qed.
Lemma app_nil_iff {A} (a b : list A) : a ++ b = [] <-> a = [] /\ b = [].
Proof. split; [apply app_eq_nil|intros [-> ->]; auto]. Qed.
Lemma map_nil_iff {A B} (f : A -> B) l : map f l = [] <-> l = [].
Proof. destruct l; cbn; split; intro; auto; discriminate. Qed.
Lemma flat_map_nil {A B} (f : A -> list B) l : flat_map f l = [] <-> Forall (fun x => f x = []) l.
Proof.
  induction l as [|x l IH]; cbn [flat_map].
  - split; auto.
  - rewrite app_nil_iff, IH, Forall_cons_iff. reflexivity.
Qed.
Lemma Forall_iff {A} (P Q : A -> Prop) l : (forall x, P x <-> Q x) -> (Forall P l <-> Forall Q l).
Proof. intro H. rewrite !Forall_forall. split; intros HH x Hx; apply H; auto. Qed.
Lemma flat_map_nil_iff {A B} (f : A -> list B) (P : A -> Prop) l :
  (forall x, f x = [] <-> P x) -> (flat_map f l = [] <-> Forall P l).
Proof. intro H. rewrite flat_map_nil. apply Forall_iff. exact H. Qed.

Lemma validate_checksum_spec c parent v : validate_checksum c parent v = [] <-> ValidChecksum v c.
Proof.
  unfold validate_checksum, ValidChecksum.
  destruct (is22 v && alg_not_in_22 (ck_alg c)) eqn:E.
  - apply andb_true_iff in E as [E1 E2]. apply is22_spec in E1. apply alg_not_in_22_spec in E2.
    split; [discriminate|]. intros [H _]. exfalso. apply H; auto.
  - rewrite when_nil, negb_false_iff. unfold ValidDigest.
    rewrite (match_dollar_spec _ _ (checksum_rx_spec (ck_alg c))).
    split; [|tauto]. intro H. split; auto. intros Hv Hn. apply is22_spec in Hv. apply alg_not_in_22_spec in Hn.
    rewrite Hv, Hn in E. discriminate.
Qed.
Lemma validate_checksums_spec cs parent v : validate_checksums cs parent v = [] <-> Forall (ValidChecksum v) cs.
Proof. apply flat_map_nil_iff. intro. apply validate_checksum_spec. Qed.

(** ** Identifiers *)
Lemma prefixed_spec l p (P : char -> Prop) s :
  (forall c, p c = true <-> P c) -> (lang (RCat (rlit l) (rplus (RSet p))) s <-> Prefixed l P s).
Proof.
  intro H. rewrite lang_prefix_class. unfold Prefixed.
  split; intros (t & -> & Hn & Ht); exists t; rewrite (forallb_Forall_iff _ _ H) in *; auto.
Qed.
Lemma internal_id_spec s : is_valid_internal_spdx_id s = true <-> InternalId s.
Proof. apply match_dollar_spec. intro. apply prefixed_spec, id_char_spec. Qed.
Lemma docref_id_spec s : is_valid_external_doc_ref_id s = true <-> DocRefId s.
Proof. apply match_dollar_spec. intro. apply prefixed_spec, docref_char_spec. Qed.
Lemma licenseref_id_spec s : match_dollar licenseref_rx s = true <-> LicenseRefId s.
Proof. apply match_dollar_spec. intro. apply prefixed_spec, id_char_spec. Qed.

Lemma IdChar_not_colon c : IdChar c -> c <> #":".
Proof.
  intros [H|[H|H]] ->.
  - unfold Letter in H. cbn in H. lia.
  - apply H. vm_compute. reflexivity.
  - vm_compute in H. intuition discriminate.
Qed.
Lemma InternalId_no_colon s : InternalId s -> ~ In #":" s.
Proof.
  assert (H0 : forall s, Prefixed $"SPDXRef-" IdChar s -> ~ In #":" s).
  { intros t (u & -> & _ & Hu) Hin. apply in_app_or in Hin as [Hin|Hin].
    - vm_compute in Hin. intuition discriminate.
    - rewrite Forall_forall in Hu. apply Hu in Hin. apply IdChar_not_colon in Hin. auto. }
  intros [H|(t & -> & H)] Hin; [eapply H0; eauto|].
  apply in_app_or in Hin as [Hin|[Hin|[]]]; [eapply H0; eauto|discriminate].
Qed.
Lemma DocRefId_no_colon s : DocRefId s -> ~ In #":" s.
Proof.
  assert (H0 : forall s, Prefixed $"DocumentRef-" DocRefChar s -> ~ In #":" s).
  { intros t (u & -> & _ & Hu) Hin. apply in_app_or in Hin as [Hin|Hin].
    - vm_compute in Hin. intuition discriminate.
    - rewrite Forall_forall in Hu. apply Hu in Hin. destruct Hin as [Hin|Hin].
      + apply IdChar_not_colon in Hin. auto.
      + vm_compute in Hin. intuition discriminate. }
  intros [H|(t & -> & H)] Hin; [eapply H0; eauto|].
  apply in_app_or in Hin as [Hin|[Hin|[]]]; [eapply H0; eauto|discriminate].
Qed.

Lemma ext_present_spec a d : is_external_doc_ref_present_in_document a d = true <-> In a (external_ids d).
Proof. apply str_in_In. Qed.
Lemma id_present_spec i d : is_spdx_id_present_in_document i d = true <-> In i (all_ids d).
Proof. apply str_in_In. Qed.
Lemma file_present_spec i d : is_spdx_id_present_in_files i (do_files d) = true <-> In i (map fi_id (do_files d)).
Proof. apply str_in_In. Qed.

(** The two shapes of ids *)
Lemma validate_spdx_id_spec id d (cd cf : bool) :
  validate_spdx_id id d cd cf = [] <->
  (InternalId id /\ (cd = true -> In id (all_ids d)) /\ (cf = true -> In id (map fi_id (do_files d)))) \/ ExternalId d id.
Proof.
  unfold validate_spdx_id. destruct (split_on #":" id) as [|a l] eqn:E.
  { exfalso; eapply split_on_nonempty; eauto. }
  destruct l as [|b l]; [|destruct l as [|c l]].
  - (* no colon *)
    apply split_one in E as [-> Hc].
    rewrite !app_nil_iff, when_nil, negb_false_iff, internal_id_spec.
    assert (Hx : ~ ExternalId d a).
    { intros (x & y & -> & _). apply Hc. apply in_or_app. right. left. reflexivity. }
    assert (H1 : forall t : pystr, (if cd then when (negb (is_spdx_id_present_in_document a d)) t else [])
                 = [] <-> (cd = true -> In a (all_ids d))).
    { intro t. destruct cd; [|split; auto; discriminate]. rewrite when_nil, negb_false_iff, id_present_spec. tauto. }
    assert (H2 : forall t : pystr, (if cf then when (negb (is_spdx_id_present_in_files a (do_files d))) t else [])
                 = [] <-> (cf = true -> In a (map fi_id (do_files d)))).
    { intro t. destruct cf; [|split; auto; discriminate]. rewrite when_nil, negb_false_iff, file_present_spec. tauto. }
    rewrite H1, H2. tauto.
  - (* one colon *)
    apply split_two in E as (-> & Ha & Hb).
    rewrite !app_nil_iff, !when_nil, !negb_false_iff, docref_id_spec, internal_id_spec, ext_present_spec. split.
    + intros (H1 & H2 & H3). right. exists a, b. auto.
    + intros [[H _]|(x & y & E & Hx & Hy & Hin)].
      * exfalso. apply InternalId_no_colon in H. apply H. apply in_or_app. right. left. reflexivity.
      * assert (E2 : split_on #":" (a ++ #":" :: b) = [x; y]).
        { rewrite E. apply split_two. split; auto. split; [apply DocRefId_no_colon; auto|apply InternalId_no_colon; auto]. }
        rewrite (proj2 (split_two #":" _ a b)) in E2 by auto. injection E2 as -> ->. auto.
  - (* several colons *)
    split; [discriminate|]. intros [[H _]|(x & y & -> & Hx & Hy & Hin)].
    + apply InternalId_no_colon in H. rewrite split_on_nochar in E by auto. discriminate.
    + change ($":" ++ y) with (#":" :: y) in E.
      rewrite split_on_app in E by (apply DocRefId_no_colon; auto).
      rewrite split_on_nochar in E by (apply InternalId_no_colon; auto). discriminate.
Qed.

(** ** URLs *)
Lemma lang_lit_ci w s : lang (rlit_ci w) s <-> SameWord w s.
Proof.
  revert s; induction w as [|c w IH]; intro s; cbn [rlit_ci].
  - rewrite lang_eps. split; [intros ->; constructor|inversion 1; auto].
  - rewrite lang_cat. split.
    + intros (u & v & -> & Hu & Hv). apply lang_set in Hu as (x & -> & Hx). apply IH in Hv.
      apply ci_eq_spec in Hx. constructor; auto.
    + inversion 1 as [|? x ? t Hx Ht]; subst. exists [x], t. rewrite IH, lang_set. split; auto.
      split; auto. exists x. rewrite ci_eq_spec. auto.
Qed.
Lemma lang_words ws s : lang (ralts (map rlit_ci ws)) s <-> exists w, In w ws /\ SameWord w s.
Proof.
  rewrite lang_alts. split.
  - intros (r & Hr & H). apply in_map_iff in Hr as (w & <- & Hw). apply lang_lit_ci in H. eauto.
  - intros (w & Hw & H). exists (rlit_ci w). split; [apply in_map; auto|apply lang_lit_ci; auto].
Qed.
Lemma lang_lits ws s : lang (ralts (map rlit ws)) s <-> In s ws.
Proof.
  rewrite lang_alts. split.
  - intros (r & Hr & H). apply in_map_iff in Hr as (w & <- & Hw). apply lang_lit in H. congruence.
  - intro H. exists (rlit s). split; [apply in_map; auto|apply lang_lit; auto].
Qed.

(** Bounded repetition of an arbitrary pattern *)
Lemma lang_exact n r s :
  lang (rexact n r) s <-> exists l, List.length l = n /\ Forall (lang r) l /\ s = List.concat l.
Proof.
  revert s; induction n as [|n IH]; intro s; cbn [rexact].
  - rewrite lang_eps. split.
    + intros ->. exists []. auto.
    + intros (l & Hl & _ & ->). destruct l; [auto|discriminate].
  - rewrite lang_cat. split.
    + intros (u & v & -> & Hu & Hv). apply IH in Hv as (l & Hl & HF & ->). exists (u :: l). cbn. auto.
    + intros (l & Hl & HF & ->). destruct l as [|u l]; [discriminate|]. injection Hl as Hl.
      inversion HF; subst. exists u, (List.concat l). cbn. split; auto. split; auto. apply IH. exists l. auto.
Qed.
Lemma lang_upto n r s :
  lang (rupto n r) s <-> exists l, List.length l <= n /\ Forall (lang r) l /\ s = List.concat l.
Proof.
  revert s; induction n as [|n IH]; intro s; cbn [rupto].
  - rewrite lang_eps. split.
    + intros ->. exists []. auto.
    + intros (l & Hl & _ & ->). destruct l; [auto|cbn in Hl; lia].
  - rewrite lang_alt, lang_eps, lang_cat. split.
    + intros [(u & v & -> & Hu & Hv)| ->].
      * apply IH in Hv as (l & Hl & HF & ->). exists (u :: l). cbn. split; [lia|]. auto.
      * exists []. cbn. split; [lia|]. auto.
    + intros (l & Hl & HF & ->). destruct l as [|u l]; [auto|]. left. cbn in Hl.
      inversion HF; subst. exists u, (List.concat l). cbn. split; auto. split; auto. apply IH. exists l.
      split; [lia|auto].
Qed.

Lemma lang_label s : lang (rplus (RSet ci_az09)) s <-> Label s.
Proof. rewrite lang_plus_set, (forallb_Forall_iff _ _ ci_az09_spec). reflexivity. Qed.

Lemma lang_scheme s :
  lang (ropt (ralts (map rlit_ci [$"http://www."; $"https://www."; $"http://"; $"https://"; $"ssh://"; $"git://";
                                  $"svn://"; $"sftp://"; $"ftp://"]))) s <-> Scheme s.
Proof. rewrite lang_opt, lang_words. unfold Scheme, url_schemes. tauto. Qed.
Lemma lang_userinfo s :
  lang (ropt (RCat (rplus (RSet (fun c => is_word c || oneof $"-.!~*'()%;:&=+$," c))) (rchar #"@"))) s <-> UserInfo s.
Proof.
  rewrite lang_opt, lang_cat. unfold UserInfo.
  assert (Hc : forall c, is_word c || oneof $"-.!~*'()%;:&=+$," c = true <->
                         (is_word c = true \/ Is $"-.!~*'()%;:&=+$," c)).
  { intro c. rewrite orb_true_iff, oneof_spec. reflexivity. }
  split.
  - intros [(u & v & -> & Hu & Hv)| ->]; auto. right. apply lang_char in Hv. subst.
    apply lang_plus_set in Hu as [Hn Hu]. exists u. rewrite (forallb_Forall_iff _ _ Hc) in Hu. auto.
  - intros [->|(t & -> & Hn & Ht)]; auto. left. exists t, $"@".
    rewrite lang_plus_set, lang_char, (forallb_Forall_iff _ _ Hc). auto.
Qed.
Lemma lang_host_tail x :
  lang (RCat (RSet (oneof $"-.")) (rplus (RSet ci_az09))) x <-> (exists c w, x = c :: w /\ Is $"-." c /\ Label w).
Proof.
  rewrite lang_cat. split.
  - intros (u & v & -> & Hu & Hv). apply lang_set in Hu as (c & -> & Hc). apply oneof_spec in Hc.
    apply lang_label in Hv. exists c, v. auto.
  - intros (c & w & -> & Hc & Hw). exists [c], w. rewrite lang_set, lang_label. split; auto. split; auto.
    exists c. rewrite oneof_spec. auto.
Qed.
Lemma lang_host s :
  (exists u v, s = u ++ v /\ lang (rplus (RSet ci_az09)) u
               /\ lang (rupto 100 (RCat (RSet (oneof $"-.")) (rplus (RSet ci_az09)))) v) <-> Host s.
Proof.
  unfold Host. split.
  - intros (u & v & -> & Hu & Hv). apply lang_label in Hu. apply lang_upto in Hv as (l & Hl & HF & ->).
    exists u, l. split; auto. split; auto. split; auto. eapply Forall_impl; [|exact HF]. intros. apply lang_host_tail; auto.
  - intros (l & ls & Hl & Hlen & HF & ->). exists l, (List.concat ls). rewrite lang_label, lang_upto. split; auto.
    split; auto. exists ls. split; auto. split; auto. eapply Forall_impl; [|exact HF]. intros. apply lang_host_tail; auto.
Qed.
Lemma lang_top s : lang (RCat (rexact 2 (RSet ci_az)) (rupto 3 (RSet ci_az))) s <-> TopLevel s.
Proof.
  rewrite lang_cat. unfold TopLevel. rewrite <- (forallb_Forall_iff _ _ ci_az_spec). split.
  - intros (u & v & -> & Hu & Hv). apply lang_exact_set in Hu as [Lu Hu]. apply lang_upto_set in Hv as [Lv Hv].
    rewrite forallb_app, app_length, Hu, Hv. split; [reflexivity|lia].
  - intros [H Hl]. exists (firstn 2 s), (skipn 2 s). rewrite firstn_skipn. split; auto.
    rewrite <- (firstn_skipn 2 s), forallb_app in H. apply andb_true_iff in H as [H1 H2].
    rewrite lang_exact_set, lang_upto_set, firstn_length, skipn_length. split; (split; [lia|auto]).
Qed.
Lemma lang_port s :
  lang (ropt (RCat (rchar #":") (RCat (RSet is_digit09) (rupto 4 (RSet is_digit09))))) s <-> Port s.
Proof.
  rewrite lang_opt. unfold Port. rewrite or_comm. apply or_iff_compat_l. rewrite lang_cat. split.
  - intros (u & v & -> & Hu & Hv). apply lang_char in Hu. subst. apply lang_cat in Hv as (x & y & -> & Hx & Hy).
    apply lang_set in Hx as (c & -> & Hc). apply lang_upto_set in Hy as [Ly Hy]. exists (c :: y).
    split; auto. rewrite <- (forallb_Forall_iff _ _ is_digit09_spec). cbn. rewrite Hc, Hy. split; [reflexivity|lia].
  - intros (t & -> & Ht & Hl). destruct t as [|c t]; [cbn in Hl; lia|]. inversion Ht; subst. exists $":", (c :: t).
    split; auto. split; [apply lang_char; auto|]. apply lang_cat. exists [c], t. split; auto.
    split; [apply lang_set; exists c; rewrite is_digit09_spec; auto|].
    apply lang_upto_set. rewrite (forallb_Forall_iff _ _ is_digit09_spec). cbn in Hl. split; [lia|auto].
Qed.
Lemma lang_path s : lang (ropt (RCat (rchar #"/") (RStar (RSet dot)))) s <-> Path s.
Proof.
  rewrite lang_opt. unfold Path. rewrite or_comm. apply or_iff_compat_l. rewrite lang_cat. split.
  - intros (u & v & -> & Hu & Hv). apply lang_char in Hu. apply lang_star_set in Hv. apply forall_dot in Hv. subst. eauto.
  - intros (t & -> & Ht). exists $"/", t. rewrite lang_char, lang_star_set, forall_dot. auto.
Qed.

Lemma lang_url s : lang url_rx s <-> FullUrl s.
Proof.
  unfold url_rx, FullUrl. cbn [rcats]. split.
  - intro H.
    apply lang_cat in H as (scheme & s1 & -> & Hscheme & H).
    apply lang_cat in H as (user & s2 & -> & Huser & H).
    apply lang_cat in H as (l & s3 & -> & Hl & H).
    apply lang_cat in H as (ls & s4 & -> & Hls & H).
    apply lang_cat in H as (dot & s5 & -> & Hdot & H).
    apply lang_cat in H as (top & s6 & -> & Htop & H).
    apply lang_cat in H as (port & path & -> & Hport & Hpath).
    exists scheme, user, (l ++ ls), top, port, path.
    split; [apply lang_scheme; auto|]. split; [apply lang_userinfo; auto|]. split; [apply lang_host; eauto|].
    split; [apply lang_top; auto|]. split; [apply lang_port; auto|]. split; [apply lang_path; auto|].
    apply lang_char in Hdot. subst. rewrite <- !app_assoc. reflexivity.
  - intros (scheme & user & host & top & port & path & Hs & Hu & Hh & Ht & Hp & Hpa & ->).
    apply lang_host in Hh as (l & ls & -> & Hl & Hls). rewrite <- !app_assoc.
    apply lang_cat. exists scheme. eexists. split; [reflexivity|]. split; [apply lang_scheme; auto|].
    apply lang_cat. exists user. eexists. split; [reflexivity|]. split; [apply lang_userinfo; auto|].
    apply lang_cat. exists l. eexists. split; [reflexivity|]. split; [auto|].
    apply lang_cat. exists ls. eexists. split; [reflexivity|]. split; [auto|].
    apply lang_cat. exists $".". eexists. split; [reflexivity|]. split; [apply lang_char; auto|].
    apply lang_cat. exists top. eexists. split; [reflexivity|]. split; [apply lang_top; auto|].
    apply lang_cat. exists port, path. split; [reflexivity|]. split; [apply lang_port; auto|apply lang_path; auto].
Qed.

Lemma url_prefix_spec s : match_prefix url_rx s = true <-> UrlPrefix s.
Proof.
  unfold match_prefix. rewrite rx_prefix_correct. unfold UrlPrefix. split.
  - intros (u & v & -> & H). apply lang_url in H as (scheme & user & host & top & port & path & Hs & Hu & Hh & Ht & Hp & Hpa & ->).
    exists scheme, user, host, top, (port ++ path ++ v). rewrite <- !app_assoc. auto.
  - intros (scheme & user & host & top & rest & Hs & Hu & Hh & Ht & ->).
    exists (scheme ++ user ++ host ++ $"." ++ top), rest. rewrite <- !app_assoc. split; auto.
    apply lang_url. exists scheme, user, host, top, [], []. rewrite !app_nil_r.
    split; auto. split; auto. split; auto. split; auto. split; [left; auto|]. split; [left; auto|]. reflexivity.
Qed.
Lemma validate_url_spec s : validate_url s = [] <-> UrlPrefix s.
Proof. unfold validate_url. rewrite when_nil, negb_false_iff. apply url_prefix_spec. Qed.

Lemma FullUrl_UrlPrefix s : FullUrl s -> UrlPrefix s.
Proof.
  intros (scheme & user & host & top & port & path & Hs & Hu & Hh & Ht & Hp & Hpa & ->).
  exists scheme, user, host, top, (port ++ path). auto.
Qed.
Lemma UrlPrefix_app s t : UrlPrefix s -> UrlPrefix (s ++ t).
Proof.
  intros (scheme & user & host & top & rest & Hs & Hu & Hh & Ht & ->).
  exists scheme, user, host, top, (rest ++ t). rewrite <- !app_assoc. auto.
Qed.

Lemma lang_az09 extra s : lang (az09_ci extra) s <-> s <> [] /\ Forall (fun c => UrlAlnum c \/ Is extra c) s.
Proof.
  unfold az09_ci. rewrite lang_plus_set.
  rewrite (forallb_Forall_iff _ (fun c => UrlAlnum c \/ Is extra c)); [reflexivity|].
  intro c. rewrite !orb_true_iff, ci_az_spec, is_digit09_spec, oneof_spec. unfold UrlAlnum, Digit. tauto.
Qed.

Lemma lang_download s : lang download_rx s <-> FullUrl s \/ RepoLocation s.
Proof.
  unfold download_rx, RepoLocation. cbn [ralts rcats]. rewrite !lang_alt. split.
  - intros [H|[H|H]].
    + apply lang_cat in H as (p & url & -> & Hp & Hurl). apply lang_url in Hurl.
      apply lang_opt in Hp as [Hp| ->]; [|left; auto]. right. left.
      apply lang_cat in Hp as (repo & plus & -> & Hr & Hplus). apply lang_char in Hplus. subst.
      exists repo, url. rewrite <- app_assoc. split; auto. split; auto. apply lang_words; auto.
    + right. right. left. apply lang_cat in H as (p & s1 & -> & Hp & H).
      apply lang_cat in H as (a & s2 & -> & Ha & H). apply lang_cat in H as (c & b & -> & Hc & Hb).
      apply lang_lit_ci in Hp. apply lang_az09 in Ha, Hb. apply lang_char in Hc. subst.
      exists p, a, b. split; [reflexivity|]. tauto.
    + right. right. right. apply lang_cat in H as (p & a & -> & Hp & Ha).
      apply lang_lit_ci in Hp. apply lang_az09 in Ha. exists p, a. tauto.
  - intros [H|[(repo & url & -> & Hr & Hurl)|[(p & a & b & -> & Hp & Ha & Ha' & Hb & Hb')|(p & a & -> & Hp & Ha & Ha')]]].
    + left. apply lang_cat. exists [], s. split; auto. split; [apply lang_opt; auto|apply lang_url; auto].
    + left. apply lang_cat. exists (repo ++ $"+"), url. rewrite <- app_assoc. split; auto.
      split; [|apply lang_url; auto]. apply lang_opt. left. apply lang_cat. exists repo, $"+". split; auto.
      split; [apply lang_words; auto|apply lang_char; auto].
    + right. left. apply lang_cat. exists p. eexists. split; [reflexivity|]. split; [apply lang_lit_ci; auto|].
      apply lang_cat. exists a. eexists. split; [reflexivity|]. split; [apply lang_az09; auto|].
      apply lang_cat. exists $":", b. split; [reflexivity|]. split; [apply lang_char; auto|apply lang_az09; auto].
    + right. right. apply lang_cat. exists p, a. split; auto. split; [apply lang_lit_ci; auto|apply lang_az09; auto].
Qed.

Lemma validate_download_location_spec s : validate_download_location s = [] <-> DownloadLocation s.
Proof.
  unfold validate_download_location, DownloadLocation.
  rewrite when_nil, negb_false_iff, orb_true_iff, url_prefix_spec, (match_dollar_spec _ _ lang_download).
  unfold modulo_final_LF. split.
  - intros [H|[[H|H]|(t & -> & [H|H])]]; auto.
    + left. apply FullUrl_UrlPrefix; auto.
    + left. apply UrlPrefix_app, FullUrl_UrlPrefix; auto.
    + right. right. eauto.
  - intros [H|[H|(t & -> & H)]]; auto. right. right. exists t. auto.
Qed.

(** ** Locators of external package references *)
Lemma lang_cpe22 s : lang cpe22_rx s <-> Cpe22 s.
Proof.
  unfold cpe22_rx, Cpe22. cbn [rcats].
  assert (Hf : forall f, lang (RCat (rchar #":") (RStar (RSet (fun c => alnum c || oneof $"._-~%" c)))) f <->
                         exists w, f = $":" ++ w /\ Forall (fun c => Letter c \/ Digit c \/ Is $"._-~%" c) w).
  { intro f. rewrite lang_cat.
    assert (Hc : forall c, alnum c || oneof $"._-~%" c = true <-> Letter c \/ Digit c \/ Is $"._-~%" c).
    { intro c. rewrite orb_true_iff, alnum_spec, oneof_spec. tauto. }
    split.
    - intros (u & v & -> & Hu & Hv). apply lang_char in Hu. apply lang_star_set in Hv.
      rewrite (forallb_Forall_iff _ _ Hc) in Hv. subst. eauto.
    - intros (w & -> & Hw). exists $":", w. rewrite lang_char, lang_star_set, (forallb_Forall_iff _ _ Hc). auto. }
  split.
  - intro H.
    apply lang_cat in H as (s0 & s1 & -> & H0 & H). apply lang_lit in H0. subst.
    apply lang_cat in H as (s2 & s3 & -> & H2 & H). apply lang_set in H2 as (p & -> & Hp).
    apply lang_cat in H as (s4 & s5 & -> & H4 & H). apply lang_set in H4 as (e & -> & He).
    apply lang_cat in H as (s6 & s7 & -> & H6 & H). apply lang_lit in H6. subst.
    apply lang_cat in H as (part & s8 & -> & Hpart & H). apply lang_opt in Hpart.
    apply lang_upto in H as (l & Hl & HF & ->). apply oneof_spec in Hp, He.
    exists p, e, part, l. split; [reflexivity|]. split; auto. split; auto. split.
    { destruct Hpart as [Hpart| ->]; auto. right. apply lang_set in Hpart as (c & -> & Hc). exists c.
      apply oneof_spec in Hc. auto. }
    split; auto. eapply Forall_impl; [|exact HF]. intro. apply Hf.
  - intros (p & e & part & l & -> & Hp & He & Hpart & Hl & HF).
    apply lang_cat. exists $"c". eexists. split; [reflexivity|]. split; [apply lang_lit; auto|].
    apply lang_cat. exists [p]. eexists. split; [reflexivity|]. split; [apply lang_set; exists p; rewrite oneof_spec; auto|].
    apply lang_cat. exists [e]. eexists. split; [reflexivity|]. split; [apply lang_set; exists e; rewrite oneof_spec; auto|].
    apply lang_cat. exists $":/". eexists. split; [reflexivity|]. split; [apply lang_lit; auto|].
    apply lang_cat. exists part. eexists. split; [reflexivity|]. split.
    { apply lang_opt. destruct Hpart as [->|(c & -> & Hc)]; auto. left. apply lang_set. exists c. rewrite oneof_spec. auto. }
    apply lang_upto. exists l. split; auto. split; auto. eapply Forall_impl; [|exact HF]. intro. apply Hf.
Qed.

Lemma lang_plus_concat r s : lang (rplus r) s <-> exists l, l <> [] /\ Forall (lang r) l /\ s = List.concat l.
Proof.
  unfold rplus. rewrite lang_cat.
  assert (Hstar : forall v, lang (RStar r) v <-> exists l, Forall (lang r) l /\ v = List.concat l).
  { intro v. split.
    - intro H. remember (RStar r) as q eqn:Eq. induction H; try discriminate; injection Eq as ->.
      + exists []. auto.
      + destruct IHlang2 as (l & HF & ->); auto. exists (s0 :: l). auto.
    - intros (l & HF & ->). induction HF; cbn; constructor; auto. }
  split.
  - intros (u & v & -> & Hu & Hv). apply Hstar in Hv as (l & HF & ->). exists (u :: l). split; [discriminate|]. auto.
  - intros (l & Hn & HF & ->). destruct l as [|u l]; [contradiction|]. inversion HF; subst.
    exists u, (List.concat l). split; auto. split; auto. apply Hstar. eauto.
Qed.

Lemma cpe_escaped_spec c : cpe_escaped c = true <-> CpeEscapable c.
Proof. unfold cpe_escaped, CpeEscapable. rewrite orb_true_iff, N.eqb_eq, oneof_spec. reflexivity. Qed.

Definition cpe_unit : rx := RAlt (RSet (fun c => alnum c || oneof $"-._" c)) (RCat (rchar #"\") (RSet cpe_escaped)).
Lemma lang_cpe_unit s :
  lang cpe_unit s <-> (exists c, s = [c] /\ (Letter c \/ Digit c \/ Is $"-._" c))
                      \/ (exists c, s = [#"\"; c] /\ CpeEscapable c).
Proof.
  unfold cpe_unit. rewrite lang_alt, lang_set, lang_cat. split.
  - intros [(c & -> & Hc)|(u & v & -> & Hu & Hv)].
    + left. exists c. rewrite orb_true_iff, alnum_spec, oneof_spec in Hc. tauto.
    + right. apply lang_char in Hu. apply lang_set in Hv as (c & -> & Hc). apply cpe_escaped_spec in Hc. subst. exists c. auto.
  - intros [(c & -> & Hc)|(c & -> & Hc)].
    + left. exists c. rewrite orb_true_iff, alnum_spec, oneof_spec. tauto.
    + right. exists [#"\"], [c]. rewrite lang_char, lang_set. split; auto. split; auto. exists c.
      rewrite cpe_escaped_spec. auto.
Qed.
Lemma lang_cpe_body s : lang (rplus cpe_unit) s <-> CpeBody s.
Proof.
  rewrite lang_plus_concat. split.
  - intros (l & Hn & HF & ->). induction HF as [|u l Hu HF IH]; [contradiction|].
    assert (Hb : CpeBody u).
    { apply lang_cpe_unit in Hu as [(c & -> & Hc)|(c & -> & Hc)]; constructor; auto. }
    destruct l as [|v l]; cbn [List.concat].
    + rewrite app_nil_r. auto.
    + constructor; auto. apply IH. discriminate.
  - intro H. induction H as [c Hc|c Hc|a b _ (la & Hna & Ha & ->) _ (lb & Hnb & Hb & ->)].
    + exists [[c]]. split; [discriminate|]. split; auto. constructor; auto. apply lang_cpe_unit. eauto.
    + exists [[#"\"; c]]. split; [discriminate|]. split; auto. constructor; auto. apply lang_cpe_unit. eauto.
    + exists (la ++ lb). split; [destruct la; [contradiction|discriminate]|]. rewrite concat_app, Forall_app. auto.
Qed.
Lemma lang_cpe_wild s : lang cpe_wild s <-> CpeWild s.
Proof.
  unfold cpe_wild, CpeWild. rewrite lang_alt, lang_opt, lang_char. unfold rchar. rewrite lang_star_set.
  assert (Hc : forall c, N.eqb #"?" c = true <-> #"?" = c) by (intro; apply N.eqb_eq).
  rewrite (forallb_Forall_iff _ _ Hc). split; [|tauto]. intros [H|[H| ->]]; auto.
Qed.
Lemma lang_star_or_dash s : lang (cl "*-") s <-> s = $"*" \/ s = $"-".
Proof.
  unfold cl. rewrite lang_set. split.
  - intros (c & -> & Hc). apply oneof_spec in Hc. unfold Is in Hc. change (lit "*-") with [#"*"; #"-"] in Hc.
    destruct Hc as [<-|[<-|[]]]; auto.
  - intros [->| ->]; eexists; split; try reflexivity.
Qed.
Lemma lang_cpe_comp s : lang cpe_comp s <-> CpeComponent s.
Proof.
  unfold cpe_comp, CpeComponent. rewrite lang_alt, lang_star_or_dash. cbn [rcats].
  fold cpe_unit. rewrite lang_cat. split.
  - intros [(a & v & -> & Ha & H)|[H|H]]; auto. right. right.
    apply lang_cat in H as (b & c & -> & Hb & Hc). exists a, b, c. rewrite <- lang_cpe_wild, <- lang_cpe_wild, <- lang_cpe_body.
    auto.
  - intros [H|[H|(a & b & c & -> & Ha & Hb & Hc)]]; auto. left. exists a, (b ++ c). split; auto.
    split; [apply lang_cpe_wild; auto|]. apply lang_cat. exists b, c. rewrite lang_cpe_body, lang_cpe_wild. auto.
Qed.
Lemma lang_cpe_lang s : lang cpe_lang s <-> CpeLanguage s.
Proof.
  unfold cpe_lang, CpeLanguage. rewrite lang_alt, lang_star_or_dash, lang_cat.
  assert (Ha : forall u, lang (RCat (rexact 2 (RSet is_alpha)) (rupto 1 (RSet is_alpha))) u <-> Forall Letter u /\ 2 <= List.length u <= 3).
  { intro u. rewrite lang_cat, <- (forallb_Forall_iff _ _ is_alpha_spec). split.
    - intros (x & y & -> & Hx & Hy). apply lang_exact_set in Hx as [Lx Hx]. apply lang_upto_set in Hy as [Ly Hy].
      rewrite forallb_app, app_length, Hx, Hy. split; [reflexivity|lia].
    - intros [H Hl]. exists (firstn 2 u), (skipn 2 u). rewrite firstn_skipn. split; auto.
      rewrite <- (firstn_skipn 2 u), forallb_app in H. apply andb_true_iff in H as [H1 H2].
      rewrite lang_exact_set, lang_upto_set, firstn_length, skipn_length. split; (split; [lia|auto]). }
  assert (Hb : forall v, lang (ropt (RCat (rchar #"-") (RAlt (rexact 2 (RSet is_alpha)) (rexact 3 (RSet is_digit09))))) v <->
                 (v = [] \/ exists t, v = $"-" ++ t
             /\ ((Forall Letter t /\ List.length t = 2) \/ (Forall Digit t /\ List.length t = 3)))).
  { intro v. rewrite lang_opt, or_comm. apply or_iff_compat_l. rewrite lang_cat. split.
    - intros (x & t & -> & Hx & Ht). apply lang_char in Hx. subst. exists t. split; auto.
      apply lang_alt in Ht. rewrite !lang_exact_set, (forallb_Forall_iff _ _ is_alpha_spec),
        (forallb_Forall_iff _ _ is_digit09_spec) in Ht. unfold Digit. tauto.
    - intros (t & -> & Ht). exists $"-", t. split; auto. split; [apply lang_char; auto|].
      apply lang_alt. rewrite !lang_exact_set, (forallb_Forall_iff _ _ is_alpha_spec),
        (forallb_Forall_iff _ _ is_digit09_spec). unfold Digit in Ht. tauto. }
  split.
  - intros [(u & v & -> & Hu & Hv)|[H|H]]; auto. right. right. apply Ha in Hu as [H1 H2]. apply Hb in Hv. exists u, v. auto.
  - intros [H|[H|(u & v & -> & H1 & H2 & Hv)]]; auto. left. exists u, v. rewrite Ha, Hb. auto.
Qed.
Lemma lang_colon_comp f : lang (RCat (rchar #":") cpe_comp) f <-> exists w, f = $":" ++ w /\ CpeComponent w.
Proof.
  rewrite lang_cat. split.
  - intros (u & v & -> & Hu & Hv). apply lang_char in Hu. apply lang_cpe_comp in Hv. subst. eauto.
  - intros (w & -> & Hw). exists $":", w. rewrite lang_char, lang_cpe_comp. auto.
Qed.
Lemma lang_cpe23 s : lang cpe23_rx s <-> Cpe23 s.
Proof.
  unfold cpe23_rx, Cpe23. cbn [rcats]. split.
  - intro H.
    apply lang_cat in H as (s0 & s1 & -> & H0 & H). apply lang_lit in H0. subst.
    apply lang_cat in H as (s2 & s3 & -> & H2 & H). apply lang_set in H2 as (p & -> & Hp). apply oneof_spec in Hp.
    apply lang_cat in H as (s4 & s5 & -> & H4 & H). apply lang_exact in H4 as (l1 & L1 & F1 & ->).
    apply lang_cat in H as (s6 & s7 & -> & H6 & H). apply lang_cat in H6 as (c & la & -> & Hc & Hla).
    apply lang_char in Hc. apply lang_cpe_lang in Hla. subst.
    apply lang_exact in H as (l2 & L2 & F2 & ->).
    exists p, l1, la, l2. rewrite <- !app_assoc. split; [reflexivity|]. do 4 (split; auto).
    apply Forall_app. split; eapply Forall_impl; [|exact F1| |exact F2]; intro; apply lang_colon_comp.
  - intros (p & l1 & la & l2 & -> & Hp & L1 & L2 & Hla & HF). apply Forall_app in HF as [F1 F2].
    apply lang_cat. eexists. eexists. split; [reflexivity|]. split; [apply lang_lit; auto|].
    apply lang_cat. exists [p]. eexists. split; [reflexivity|]. split; [apply lang_set; exists p; rewrite oneof_spec; auto|].
    apply lang_cat. exists (List.concat l1). eexists. split; [reflexivity|]. split.
    { apply lang_exact. exists l1. split; auto. split; auto. eapply Forall_impl; [|exact F1]. intro. apply lang_colon_comp. }
    apply lang_cat. exists ($":" ++ la), (List.concat l2). rewrite <- app_assoc. split; [reflexivity|]. split.
    { apply lang_cat. exists $":", la. rewrite lang_char, lang_cpe_lang. auto. }
    apply lang_exact. exists l2. split; auto. split; auto. eapply Forall_impl; [|exact F2]. intro. apply lang_colon_comp.
Qed.

Lemma lang_part c s : lang (rplus (noneof c)) s <-> NoColonPart c s.
Proof. unfold noneof, NoColonPart. rewrite lang_plus_set, forall_noneof. reflexivity. Qed.
Lemma lang_two_parts c s : lang (two_parts_rx c) s <-> TwoParts c s.
Proof.
  unfold two_parts_rx, TwoParts. cbn [rcats]. rewrite lang_cat. split.
  - intros (a & v & -> & Ha & H). apply lang_cat in H as (x & b & -> & Hx & Hb). apply lang_char in Hx. subst.
    exists a, b. rewrite <- !lang_part. auto.
  - intros (a & b & -> & Ha & Hb). exists a, ([c] ++ b). rewrite lang_part. split; auto. split; auto.
    apply lang_cat. exists [c], b. rewrite lang_char, lang_part. auto.
Qed.
Lemma lang_maven s : lang maven_rx s <-> Maven s.
Proof.
  unfold maven_rx, Maven. cbn [rcats]. split.
  - intro H. apply lang_cat in H as (a & v & -> & Ha & H). apply lang_cat in H as (x & w & -> & Hx & H).
    apply lang_cat in H as (b & rest & -> & Hb & H). apply lang_char in Hx. subst.
    exists a, b, rest. rewrite <- !lang_part. split; auto. split; auto. split; auto.
    apply lang_opt in H as [H| ->]; auto. right. apply lang_cat in H as (y & c & -> & Hy & Hc). apply lang_char in Hy.
    apply lang_part in Hc. subst. eauto.
  - intros (a & b & rest & -> & Ha & Hb & Hr). apply lang_cat. exists a. eexists. split; [reflexivity|].
    split; [apply lang_part; auto|]. apply lang_cat. exists $":". eexists. split; [reflexivity|].
    split; [apply lang_char; auto|]. apply lang_cat. exists b, rest. split; [reflexivity|]. split; [apply lang_part; auto|].
    apply lang_opt. destruct Hr as [->|(c & -> & Hc)]; auto. left. apply lang_cat. exists $":", c.
    rewrite lang_char, lang_part. auto.
Qed.
Lemma lang_any s : lang (rplus (RSet dot)) s <-> s <> [] /\ ~ In LF s.
Proof. rewrite lang_plus_set, forall_dot. reflexivity. Qed.
Lemma lang_opt_sep c s :
  lang (ropt (RCat (rchar c) (rplus (RSet dot)))) s -> c <> LF -> ~ In LF s.
Proof.
  intros H Hc. apply lang_opt in H as [H| ->]; auto. apply lang_cat in H as (u & v & -> & Hu & Hv).
  apply lang_char in Hu. apply lang_any in Hv as [_ Hv]. subst. intros [H|H]; auto.
Qed.
Lemma lang_purl s : lang purl_rx s <-> Purl s.
Proof.
  unfold purl_rx, Purl. cbn [rcats]. split.
  - intro H. apply lang_cat in H as (p & s1 & -> & Hp & H). apply lang_lit in Hp. subst.
    apply lang_cat in H as (a & s2 & -> & Ha & H). apply lang_any in Ha as [Ha Ha'].
    apply lang_cat in H as (o1 & s3 & -> & Ho1 & H). apply lang_opt_sep in Ho1; [|discriminate].
    apply lang_cat in H as (sl & s4 & -> & Hsl & H). apply lang_char in Hsl. subst.
    apply lang_cat in H as (b & s5 & -> & Hb & H). apply lang_any in Hb as [Hb Hb'].
    apply lang_cat in H as (o2 & s6 & -> & Ho2 & H). apply lang_opt_sep in Ho2; [|discriminate].
    apply lang_cat in H as (o3 & o4 & -> & Ho3 & Ho4). apply lang_opt_sep in Ho3; [|discriminate].
    apply lang_opt_sep in Ho4; [|discriminate].
    exists (a ++ o1), (b ++ o2 ++ o3 ++ o4). rewrite <- !app_assoc. split; [reflexivity|].
    split; [destruct a; [contradiction|discriminate]|]. split; [destruct b; [contradiction|discriminate]|].
    rewrite !in_app_iff. tauto.
  - intros (a & b & -> & Ha & Hb & Hl). rewrite in_app_iff in Hl.
    apply lang_cat. eexists. eexists. split; [reflexivity|]. split; [apply lang_lit; auto|].
    apply lang_cat. exists a. eexists. split; [reflexivity|]. split; [apply lang_any; tauto|].
    apply lang_cat. exists []. eexists. split; [reflexivity|]. split; [apply lang_opt; auto|].
    apply lang_cat. exists $"/". eexists. split; [reflexivity|]. split; [apply lang_char; auto|].
    apply lang_cat. exists b, []. split; [rewrite app_nil_r; reflexivity|]. split; [apply lang_any; tauto|].
    apply lang_cat. exists [], []. split; auto. split; [apply lang_opt; auto|].
    apply lang_cat. exists [], []. split; auto. split; apply lang_opt; auto.
Qed.
Lemma lang_swh s : lang swh_rx s <-> Swh s.
Proof.
  unfold swh_rx, Swh. cbn [rcats]. split.
  - intro H. apply lang_cat in H as (p & s1 & -> & Hp & H). apply lang_lit in Hp. subst.
    apply lang_cat in H as (k & s2 & -> & Hk & H). apply lang_lits in Hk.
    apply lang_cat in H as (c & h & -> & Hc & H). apply lang_char in Hc. subst.
    apply lang_exact_set in H as [Hl Hh]. rewrite (forallb_Forall_iff _ _ hexa_spec) in Hh. exists k, h. auto.
  - intros (k & h & -> & Hk & Hh & Hl). apply lang_cat. eexists. eexists. split; [reflexivity|].
    split; [apply lang_lit; auto|]. apply lang_cat. exists k. eexists. split; [reflexivity|]. split; [apply lang_lits; auto|].
    apply lang_cat. exists $":", h. split; auto. split; [apply lang_char; auto|].
    apply lang_exact_set. rewrite (forallb_Forall_iff _ _ hexa_spec). auto.
Qed.
Lemma lang_gitoid s : lang gitoid_rx s <-> Gitoid s.
Proof.
  unfold gitoid_rx, Gitoid. cbn [rcats]. split.
  - intro H. apply lang_cat in H as (p & s1 & -> & Hp & H). apply lang_lit in Hp. subst.
    apply lang_cat in H as (k & s2 & -> & Hk & H). apply lang_lits in Hk.
    apply lang_cat in H as (c & v & -> & Hc & H). apply lang_char in Hc. subst.
    apply lang_alt in H as [H|H]; apply lang_cat in H as (a & h & -> & Ha & H); apply lang_lit in Ha;
      apply lang_exact_set in H as [Hl Hh]; rewrite (forallb_Forall_iff _ _ hexa_spec) in Hh; subst;
      eexists k, _, h; (split; [reflexivity|]); auto.
  - intros (k & a & h & -> & Hk & Hh & Ha). apply lang_cat. eexists. eexists. split; [reflexivity|].
    split; [apply lang_lit; auto|]. apply lang_cat. exists k. eexists. split; [reflexivity|]. split; [apply lang_lits; auto|].
    apply lang_cat. exists $":". eexists. split; [reflexivity|]. split; [apply lang_char; auto|].
    apply lang_alt. destruct Ha as [[-> Hl]|[-> Hl]]; [left|right]; apply lang_cat; eexists; exists h;
      (split; [reflexivity|]); (split; [apply lang_lit; auto|]); apply lang_exact_set;
      rewrite (forallb_Forall_iff _ _ hexa_spec); auto.
Qed.

Lemma blake3_64_rejected value parent v :
  List.length value = 64 -> validate_checksum {| ck_alg := CA_BLAKE3; ck_value := value |} parent v <> [].
Proof.
  intros Hl H. apply validate_checksum_spec in H as [_ H]. cbn [ck_alg ck_value] in H.
  destruct H as [[_ H]|(t & -> & [_ H])]; cbn [digest_digits Counts] in H.
  - rewrite Hl in H. lia.
  - rewrite app_length in Hl. cbn [List.length] in Hl. lia.
Qed.
