(** Documents read from tag-value files, written as tag-value files. *)
From Verif Require Import Py PyFacts PyRe PyReSound Data Oracles Basics BasicsSpec JsonSpec TvLexer TvParser TvSpec TvTokSpec
  TvReadSpec TvStreamSpec TvRead11 TvTokens ResaveSpec TvResaveSpec TvResave DocUtils ValidationSpec.
From Verif Require ActorFacts StampMore Resave ValidationFacts Validation RdfWriteFacts.

(** ** Parts of a text *)
Lemma groups_incl r : forall u rest gs n v, Matches r u rest gs -> In (n, v) gs -> incl v u.
Proof.
  induction r as [|p|p|a IHa b IHb|a IHa b IHb|m a IHa|]; intros u rest gs n v M H; cbn [Matches] in M.
  - destruct M as [_ ->]. contradiction.
  - destruct M as [_ ->]. contradiction.
  - destruct M as [_ ->]. contradiction.
  - destruct M as (u1 & u2 & g1 & g2 & -> & -> & M1 & M2). apply in_app_or in H as [H|H]; intros c Hc; apply in_or_app; [right; exact (IHb _ _ _ _ _ M2 H c Hc)|left; exact (IHa _ _ _ _ _ M1 H c Hc)].
  - destruct M as [M|M]; [exact (IHa _ _ _ _ _ M H)|exact (IHb _ _ _ _ _ M H)].
  - destruct M as (g & -> & M). destruct H as [H|H]; [injection H as _ <-; apply incl_refl|exact (IHa _ _ _ _ _ M H)].
  - destruct M as (_ & -> & _). contradiction.
Qed.
Lemma group_incl r s m n v : re_match r s = Some m -> group n m = Some v -> incl v s.
Proof.
  intros H G. apply re_match_sound in H as (u & rest & -> & M). unfold group in G. destruct (find _ m) as [[k x]|] eqn:F; [|discriminate]. injection G as <-.
  apply find_some in F as [F _]. intros c Hc. apply in_or_app. left. exact (groups_incl _ _ _ _ _ _ M F c Hc).
Qed.
Lemma actor_chars s a : parse_actor s = Ok a -> incl (ac_name a) s /\ IfSome (fun e => incl e s) (ac_email a).
Proof.
  assert (K : forall r ty m, re_match r s = Some m -> actor_of_match s ty m = Ok a -> incl (ac_name a) s /\ IfSome (fun e => incl e s) (ac_email a)).
  { intros r ty m M. unfold actor_of_match. destruct (truthy_opt (group 3 m)).
    - destruct (group 3 m) as [x|] eqn:G; intro H; injection H as <-; cbn [ac_name ac_email]; (split; [|exact I]).
      + intros c Hc. apply strip_incl in Hc. exact (group_incl _ _ _ _ _ M G c Hc).
      + intros c []. 
    - destruct (group 1 m) as [[|c0 x]|] eqn:G; try discriminate. destruct (group 2 m) as [e|] eqn:G2; [|discriminate]. intro H. injection H as <-. cbn [ac_name ac_email]. split.
      + intros c Hc. apply strip_incl in Hc. exact (group_incl _ _ _ _ _ M G c Hc).
      + destruct (strip e) as [|y e'] eqn:Es; cbn; [exact I|]. rewrite <- Es. intros c Hc. apply strip_incl in Hc. exact (group_incl _ _ _ _ _ M G2 c Hc). }
  unfold parse_actor. destruct (re_match tool_re s) as [m|] eqn:M.
  - destruct (group 1 m) as [x|] eqn:G; [|discriminate]. destruct (strip x) as [|y x'] eqn:Es; [discriminate|]. intro H. injection H as <-. cbn [ac_name ac_email]. rewrite <- Es. split; [|exact I].
    intros c Hc. apply strip_incl in Hc. exact (group_incl _ _ _ _ _ M G c Hc).
  - destruct (re_match person_re s) as [m|] eqn:M2; [eauto|]. destruct (re_match org_re s) as [m|] eqn:M3; [eauto|discriminate].
Qed.

(** ** Identifiers *)
Lemma special_internal t : special ($"SPDXRef-" ++ t) = false.
Proof. lazy. reflexivity. Qed.
Lemma special_docref t : special ($"DocumentRef-" ++ t) = false.
Proof. lazy. reflexivity. Qed.
Lemma modulo_line (P : pystr -> Prop) s : modulo_final_LF P s -> ~ In LF s -> P s.
Proof. intros [H|(t & -> & _)] N; [exact H|]. exfalso. apply N, in_or_app. right. left. reflexivity. Qed.
Lemma modulo_strip (P : pystr -> Prop) s : modulo_final_LF P s -> strip s = s -> P s.
Proof.
  intros [H|(t & -> & _)] N; [exact H|]. exfalso. pose proof (strip_stripped (t ++ [LF])) as [_ K]. rewrite N in K. specialize (K LF t eq_refl). discriminate K.
Qed.
Lemma prefixed_unspaced p (P : char -> Prop) s : Prefixed p P s -> (forall c, P c -> is_space c = false) -> forallb (fun c => negb (is_space c)) p = true -> Unspaced s.
Proof.
  intros (t & -> & N & F) H Hp. split; [destruct p; [exact N|discriminate]|]. intros c Hc. apply in_app_or in Hc as [Hc|Hc].
  - rewrite forallb_forall in Hp. apply negb_true_iff. exact (Hp c Hc).
  - rewrite Forall_forall in F. auto.
Qed.
Lemma internal_line s : InternalId s -> ~ In LF s -> Unspaced s /\ special s = false.
Proof.
  intros H N. apply modulo_line in H; [|exact N]. split.
  - apply (prefixed_unspaced _ _ _ H); [|reflexivity]. intros c Hc. apply RdfWriteFacts.id_char_not. exact Hc.
  - destruct H as (t & -> & _). apply special_internal.
Qed.
Lemma docref_line s : DocRefId s -> ~ In LF s -> Unspaced s /\ special s = false.
Proof.
  intros H N. apply modulo_line in H; [|exact N]. split.
  - apply (prefixed_unspaced _ _ _ H); [|reflexivity]. intros c Hc. apply RdfWriteFacts.docref_char_not. exact Hc.
  - destruct H as (t & -> & _). apply special_docref.
Qed.
Lemma external_line d s : ExternalId d s -> ~ In LF s -> Unspaced s /\ special s = false.
Proof.
  intros (a & b & -> & Ha & Hb & _) N. rewrite !in_app_iff in N. assert (Na : ~ In LF a) by tauto. assert (Nb : ~ In LF b) by tauto.
  destruct (docref_line _ Ha Na) as [[A1 A2] _]. destruct (internal_line _ Hb Nb) as [[B1 B2] _]. split; [split|].
  - intro K. apply A1. destruct a; [reflexivity|discriminate K].
  - intros c Hc. rewrite !in_app_iff in Hc. destruct Hc as [Hc|[[<-|[]]|Hc]]; auto.
  - apply modulo_line in Ha; [|exact Na]. destruct Ha as (t & -> & _). rewrite <- app_assoc. apply special_docref.
Qed.
Lemma resolves_line d s : Resolves d s -> ~ In LF s -> Unspaced s /\ special s = false.
Proof. intros [[H _]|H] N; [exact (internal_line _ H N)|exact (external_line _ _ H N)]. Qed.
Lemma element_line d s : ElementId d s -> ~ In LF s -> Unspaced s /\ special s = false.
Proof. intros [H|H] N; [exact (internal_line _ H N)|exact (external_line _ _ H N)]. Qed.
Lemma unspaced_line s : Unspaced s -> special s = false -> Line s.
Proof.
  intros [N U] S. split; [intro K; specialize (U _ K); discriminate U|]. split; [intro K; specialize (U _ K); discriminate U|]. split; [|left; exact S].
  apply strip_id. split; intros c t E; apply U; subst s; [left; reflexivity|apply in_or_app; right; left; reflexivity].
Qed.
Lemma hexes s : Forall LowerHex s -> forallb hex s = true.
Proof.
  intro F. apply forallb_forall. intros c Hc. rewrite Forall_forall in F. destruct (F c Hc) as [H|H]; unfold hex; rewrite orb_true_iff, !andb_true_iff, !N.leb_le; lia.
Qed.
Lemma strip_twice v : strip (strip v) = strip v.
Proof. apply strip_id, strip_stripped. Qed.

(** ** The checksum of an external document *)
Lemma strip_before w s : forallb is_space w = true -> strip (w ++ s) = strip s.
Proof. intro H. unfold strip. f_equal. unfold lstrip. induction w as [|c w IH]; [reflexivity|]. cbn [forallb] in H. apply andb_true_iff in H as [H1 H2]. cbn [app dropwhile]. rewrite H1. exact (IH H2). Qed.
Lemma lex_hex_space c : lex_hex c = true -> is_space c = false.
Proof.
  unfold lex_hex, is_digit09. intro H. destruct (is_space c) eqn:E; [|reflexivity]. exfalso. unfold is_space in E. rewrite !orb_true_iff, !andb_true_iff, !N.leb_le, !N.eqb_eq in E.
  rewrite ?orb_true_iff, ?andb_true_iff, ?N.leb_le in H. lia.
Qed.
Lemma docref_sha1 v m b c : re_match ext_doc_ref_re v = Some m -> group 2 m = Some b -> ChecksumText (strip b) c -> ck_alg c = CA_SHA1.
Proof.
  intros M G (alg & x & E & Na & _ & Ea & _). apply re_match_sound in M as (u & rest & -> & M). unfold ext_doc_ref_re in M. cbn [pcats Matches] in M.
  destruct M as (u1 & u2 & g1 & g2 & -> & -> & (g1' & -> & _ & ->) & (g2' & -> & M)). cbn [app group find fst Nat.eqb] in G. injection G as <-.
  destruct M as (w & u3 & g3 & g4 & -> & _ & [W _] & (l & u4 & g5 & g6 & -> & _ & ML & (w2 & h & g7 & g8 & -> & _ & [W2 _] & MH))).
  apply Matches_lit in ML as [-> _]. apply Matches_exact in MH as (L & H & _). rewrite strip_before in E by exact W.
  assert (St : stripped ($"SHA1:" ++ w2 ++ h)).
  { split; [intros c' t' E'; cbn [app lit] in E'; assert (c' = #"S") as -> by (inversion E'; reflexivity); reflexivity|].
    intros c' t' E'. destruct h as [|y h] using rev_ind; [discriminate L|]. rewrite !app_assoc in E'. apply app_inj_tail in E' as [_ <-].
    rewrite forallb_app in H. apply andb_true_iff in H as [_ H]. cbn [forallb] in H. rewrite andb_true_r in H. exact (lex_hex_space _ H). }
  rewrite (strip_id _ St) in E. assert (A : alg = $"SHA1").
  { change ($"SHA1:" ++ w2 ++ h) with ($"SHA1" ++ #":" :: w2 ++ h) in E. change ($":" ++ x) with (#":" :: x) in E.
    assert (U : forall (a a' r r' : pystr), ~ In #":" a -> ~ In #":" a' -> a ++ #":" :: r = a' ++ #":" :: r' -> a = a').
    { clear. induction a as [|y a IH]; intros [|y' a'] r r' N N' E; cbn [app] in E.
      - reflexivity.
      - exfalso. apply N'. left. congruence.
      - exfalso. apply N. left. congruence.
      - f_equal; [congruence|]. apply (IH a' r r'); [intro K; apply N; right; exact K|intro K; apply N'; right; exact K|congruence]. }
    symmetry. apply (U _ _ _ _) in E; [exact E| |exact Na]. apply has_char_false. reflexivity. }
  subst alg. destruct (ck_alg c); try reflexivity; vm_compute in Ea; discriminate Ea.
Qed.

(** ** A document that was read *)
Section Read.
Context (O : oracles) (text : pystr) (gs : list grp) (d : document) (HD : SaysDocument O gs d) (NoCR : ~ In CR text).
Context (Hsh : forall g, In g gs -> Good g /\ Sharp text (g_val g) /\ forall c, g_com g = Some c -> Sharp text c).
Context (W : WellFormed O (ci_version (do_ci d)) d) (HK : TvKept O d).
Lemma no_CR s : incl s text -> ~ In CR s.
Proof. intros H K. exact (NoCR (H _ K)). Qed.
Lemma line_token k : tk_type k = TT_LINE -> Sharp text k -> Line (tk_value k).
Proof.
  intros T [L _ _ _ F]. destruct (L T) as (L1 & L2 & L3). split; [exact L1|]. split; [|split; [exact L2|exact L3]]. apply no_CR, F; rewrite T; discriminate.
Qed.
Lemma kind t b g : incl b gs -> tagged t b g -> In (tk_type (g_val g)) (takes t) /\ Sharp text (g_val g).
Proof. intros Hb [Hg Ht]. destruct (Hsh g (Hb g Hg)) as (G & S & _). apply good_iff in G as [G _]. rewrite Ht in G. split; assumption. Qed.
Lemma says_line t b g s : incl b gs -> takes t = [TT_LINE] -> tagged t b g -> SaysLine g s -> Line s.
Proof. intros Hb Et T ->. destruct (kind t b g Hb T) as [K S]. rewrite Et in K. destruct K as [K|[]]. exact (line_token _ (eq_sym K) S). Qed.
Lemma one_line t b s : incl b gs -> One SaysLine t b s -> takes t = [TT_LINE] -> Line s.
Proof. intros Hb H Et. destruct (one_in _ _ _ _ H) as (g & T & Hs). exact (says_line t b g s Hb Et T Hs). Qed.
Lemma optional_line t b o : incl b gs -> Optional SaysLine t b o -> takes t = [TT_LINE] -> IfSome Line o.
Proof. intros Hb H Et. destruct o as [s|]; [|exact I]. destruct (optional_in _ _ _ _ H) as (g & T & Hs). exact (says_line t b g s Hb Et T Hs). Qed.
Lemma each_line t b l : incl b gs -> Each SaysLine t b l -> takes t = [TT_LINE] -> Forall Line l.
Proof. intros Hb H Et. apply Forall_forall. intros s Hs. destruct (each_in _ _ _ _ _ H Hs) as (g & T & K). exact (says_line t b g s Hb Et T K). Qed.
(** free texts *)
Lemma text_token k s : In (tk_type k) texts -> Sharp text k -> TextOf k s -> (~ In LF s -> Line s \/ In s [$"NOASSERTION"; $"NONE"]) -> Text s.
Proof.
  intros T Sh H One. destruct (has_char LF s) eqn:E.
  2:{ apply has_char_false in E. destruct (One E) as [L|L]; [left; exact L|right; left; exact L]. }
  clear One. assert (HL : In LF s) by (destruct (In_dec N.eq_dec LF s) as [K|K]; [exact K|apply has_char_false in K; congruence]). right. right. split; [exact HL|].
  destruct Sh as [L X Wd _ F]. unfold TextOf in H. destruct T as [T|[T|[T|[T|[]]]]]; rewrite <- T in H.
  - destruct (X (eq_sym T)) as (v & Ev & C & Iv). destruct H as [[_ H]|[H _]]; [|subst s; vm_compute in E; discriminate E].
    rewrite Ev in H. apply app_inv_head, app_inv_tail in H. subst v. split; [exact (no_CR _ Iv)|exact C].
  - subst s. destruct (L (eq_sym T)) as (K & _). contradiction.
  - subst s. exfalso. rewrite <- T in Wd. destruct (Wd (or_introl eq_refl)) as [K|[K|[]]]; rewrite <- K in E; vm_compute in E; discriminate E.
  - subst s. exfalso. rewrite <- T in Wd. destruct (Wd (or_intror (or_introl eq_refl))) as [K|[K|[]]]; rewrite <- K in E; vm_compute in E; discriminate E.
Qed.
Lemma says_text t b g s : incl b gs -> takes t = texts -> tagged t b g -> SaysText g s -> In (Some s) (free_texts d) -> Text s.
Proof.
  intros Hb Et T Hs F. destruct (kind t b g Hb T) as [K Sh]. rewrite Et in K. apply (text_token _ _ K Sh Hs). apply (kept_texts _ _ HK). left. exact F.
Qed.
Lemma one_text t b s : incl b gs -> One SaysText t b s -> takes t = texts -> In (Some s) (free_texts d) -> Text s.
Proof. intros Hb H Et F. destruct (one_in _ _ _ _ H) as (g & T & Hs). exact (says_text t b g s Hb Et T Hs F). Qed.
Lemma optional_text t b o : incl b gs -> Optional SaysText t b o -> takes t = texts -> In o (free_texts d) -> IfSome Text o.
Proof. intros Hb H Et F. destruct o as [s|]; [|exact I]. destruct (optional_in _ _ _ _ H) as (g & T & Hs). exact (says_text t b g s Hb Et T Hs F). Qed.
Lemma each_text t b l : incl b gs -> Each SaysText t b l -> takes t = texts -> incl (map Some l) (free_texts d) -> Forall Text l.
Proof. intros Hb H Et F. apply Forall_forall. intros s Hs. destruct (each_in _ _ _ _ _ H Hs) as (g & T & K). apply (says_text t b g s Hb Et T K). apply F. apply in_map. exact Hs. Qed.
Lemma copyright_text t b o : incl b gs -> Optional SaysWord t b o -> takes t = texts -> In (word_text o) (copyright_texts d) -> IfSome TvText o.
Proof.
  intros Hb H Et F. destruct o as [[s| |]|]; try exact I. cbn [word_text] in F. destruct (optional_in _ _ _ _ H) as (g & T & Hs). destruct (kind t b g Hb T) as [K Sh]. rewrite Et in K.
  assert (Hs' : SaysText g s).
  { unfold SaysWord in Hs. assert (X : exists s', NVal s = NVal s' /\ SaysText g s') by (destruct (tk_type (g_val g)); try exact Hs; discriminate Hs). destruct X as (s' & E & X). injection E as <-. exact X. }
  destruct (kept_copyrights _ _ HK s F) as [C1 C2]. split; [|split; assumption]. apply (text_token _ _ K Sh Hs'). apply (kept_texts _ _ HK). right. exact F.
Qed.
Lemma comment_text t b g o : incl b gs -> tagged t b g -> SaysComment g o -> In o (free_texts d) -> IfSome Text o.
Proof.
  intros Hb [Hg _] H F. destruct o as [s|]; [|exact I]. unfold SaysComment in H. destruct (Hsh g (Hb g Hg)) as (G & _ & Sh). apply good_iff in G as [_ G].
  destruct (g_com g) as [c|]; [|discriminate H]. destruct G as [_ G]. destruct H as (s' & E & H). injection E as <-. apply (text_token _ _ G (Sh c eq_refl) H). apply (kept_texts _ _ HK). left. exact F.
Qed.
(** actors *)
Lemma says_tv_actor t b g a : incl b gs -> (forall ty, In ty (takes t) -> ty <> TT_ERROR /\ ty <> TT_TEXT) -> tagged t b g -> SaysActor g a -> ActorOf d a -> TvActor a.
Proof.
  intros Hb Et T Hs Ha. destruct (kind t b g Hb T) as [K Sh]. destruct (Et _ K) as [K1 K2]. pose proof (sh_from _ _ Sh K1 K2) as Hi. destruct (actor_chars _ _ Hs) as [C1 C2]. split; [|split].
  - apply (says_readable _ _ Hs). apply (kept_actors _ _ HK). exact Ha.
  - apply no_CR. intros c Hc. auto.
  - destruct (ac_email a) as [e|]; [|exact I]. cbn in C2 |- *. apply no_CR. intros c Hc. auto.
Qed.
Lemma actor_or_not t b o : incl b gs -> Optional SaysActorOrNot t b o -> takes t = [TT_PERSON_VALUE; TT_ORGANIZATION_VALUE; TT_NO_ASSERTION] ->
  (forall a, o = Some (AVal a) -> ActorOf d a) -> IfSome TvActorNA o.
Proof.
  intros Hb H Et Ho. destruct o as [[a|]|]; try exact I. destruct (optional_in _ _ _ _ H) as (g & T & Hs). unfold SaysActorOrNot in Hs. destruct (kind t b g Hb T) as [K Sh].
  assert (K' : exists a', AVal a = AVal a' /\ SaysActor g a') by (destruct (tk_type (g_val g)); try exact Hs; discriminate Hs). destruct K' as (a' & E & Ha). injection E as <-. split.
  - apply (says_tv_actor t b g a Hb); auto. intros ty Hy. rewrite Et in Hy. cbn in Hy. split; intro; subst; intuition discriminate.
  - intro Ty. destruct (ActorFacts.parse_prefix _ _ Ha) as (u & Eu). rewrite Ty in Eu. rewrite Et in K. destruct K as [K|[K|[K|[]]]].
    + pose proof (sh_actor _ _ Sh (or_introl (eq_sym K))) as S. rewrite Eu in S. discriminate S.
    + pose proof (sh_actor _ _ Sh (or_intror (eq_sym K))) as S. rewrite Eu in S. discriminate S.
    + rewrite <- K in Hs. discriminate Hs.
Qed.
(** checksums *)
Lemma checksum_hex t b l v : Each SaysChecksum t b l -> Forall (ValidChecksum v) l -> incl l (checksums_of d) -> Forall TvChecksum l.
Proof.
  intros H V F. apply Forall_forall. intros c Hc. destruct (each_in _ _ _ _ _ H Hc) as (g & _ & (alg & x & _ & _ & _ & _ & E)). rewrite Forall_forall in V. destruct (V c Hc) as [_ D].
  apply modulo_strip in D as [D _]; [|rewrite E; apply strip_twice]. split; [apply (kept_digests _ _ HK); auto|apply hexes; exact D].
Qed.
Lemma one_word t b x : incl b gs -> One SaysWord t b x -> In (word_text (Some x)) (location_texts d) -> TvLine x.
Proof. intros _ _ H. destruct x as [s| |]; try exact I. exact (kept_locations _ _ HK s H). Qed.
Lemma opt_license o : (forall e, o = Some (NVal e) -> LicenseOf d e) -> IfSome (TvLicense O) o.
Proof. destruct o as [[e| |]|]; try (intros; exact I). intro H. exact (kept_licenses _ _ HK e (H e eq_refl)). Qed.
Lemma list_license l : (forall e, In (NVal e) l -> LicenseOf d e) -> Forall (TvLicense O) l.
Proof. intro H. apply Forall_forall. intros [e| |] Hi; [exact (kept_licenses _ _ HK e (H e Hi))|exact I|exact I]. Qed.
Lemma all_distinct : NoDup (element_ids d).
Proof.
  pose proof (wf_distinct _ _ _ W) as H. inversion H as [|x l Hn Hd]; subst. unfold element_ids. refine (Permutation_NoDup _ Hd). rewrite !app_assoc. apply Permutation_app_tail, Permutation_app_comm.
Qed.
Lemma incl_self : incl gs gs.
Proof. apply incl_refl. Qed.
Lemma no_LF s : Line s -> ~ In LF s.
Proof. intros [H _]. exact H. Qed.

Lemma tv_docref g r : tagged T_ExternalDocumentRef gs g -> SaysDocRef g r -> In r (ci_refs (do_ci d)) -> ValidExtDocRef O (ci_version (do_ci d)) r -> TvDocRef r.
Proof.
  intros T (m & a & b & M & G1 & G2 & E & _ & _ & C) Hr (V1 & _ & V3).
  assert (Ln : Line (tk_value (g_val g))) by (apply (says_line T_ExternalDocumentRef gs g); auto using incl_self; reflexivity).
  assert (N : ~ In LF (edr_id r)).
  { intro K. assert (K' : In LF (strip a)) by (rewrite E; apply in_or_app; left; exact K). apply strip_incl in K'. apply (group_incl _ _ _ _ _ M G1) in K'. exact (no_LF _ Ln K'). }
  pose proof (docref_sha1 _ _ _ _ M G2 C) as Al. destruct V3 as [_ V3]. rewrite Al in V3. destruct C as (alg & x & _ & _ & _ & _ & Ev).
  apply modulo_strip in V3 as [V3 V4]; [|rewrite Ev; apply strip_twice]. change (List.length (ck_value (edr_checksum r)) = 40) in V4. constructor; auto.
  - exact (docref_line _ V1 N).
  - exact (kept_uris _ _ HK r Hr).
  - split; [|exact V4]. split; [intro K; rewrite K in V4; discriminate V4|apply hexes; exact V3].
Qed.
Lemma tv_code b g v p : incl b gs -> tagged T_PackageVerificationCode b g -> SaysCode g v -> In p (do_packages d) -> pk_verif p = Some v -> ValidVerificationCode v -> TvVerif v.
Proof.
  intros Hb T (m & M & G1 & G3) Hp Hv [_ V].
  assert (Ln : Line (tk_value (g_val g))) by (apply (says_line T_PackageVerificationCode b g); auto; reflexivity).
  assert (N : ~ In LF (vc_value v)) by (intro K; apply (group_incl _ _ _ _ _ M G1) in K; exact (no_LF _ Ln K)).
  apply modulo_line in V as [V1 V2]; [|exact N]. change (List.length (vc_value v) = 40) in V2. split; [|split; [exact V2|]].
  - split; [intro K; rewrite K in V2; discriminate V2|apply hexes; exact V1].
  - destruct (kept_codes _ _ HK p v Hp Hv) as [->|(c & t & E & Hc)]; [exact I|]. rewrite E in G3 |- *.
    destruct (group 3 m) as [[|y x]|] eqn:G; try discriminate G3. symmetry in G3. apply split_one in G3 as [Ex Nc]. pose proof (group_incl _ _ _ _ _ M G) as Hi. rewrite Ex in Hi.
    split; [exists c, t; auto|]. split; [intro K; exact (no_LF _ Ln (Hi _ K))|]. split; [intro K; destruct Ln as (_ & Ln & _); exact (Ln (Hi _ K))|exact Nc].
Qed.

Lemma tv_creation : TvCreationInfo (do_ci d).
Proof.
  destruct HD as [[C1 C2 C3 C4 [C5 C6] C7 C8 C9 C10 C11 C12] _ _]. destruct (wf_ci _ _ _ W) as (V1 & V2 & _ & _ & V5). constructor.
  - apply (one_line _ _ _ incl_self C1 eq_refl).
  - rewrite V2. apply unspaced_line; [split; [discriminate|]|vm_compute; reflexivity]. intros c Hc. assert (B : forallb (fun c => negb (is_space c)) $"CC0-1.0" = true) by reflexivity. rewrite forallb_forall in B. apply negb_true_iff, B. exact Hc.
  - destruct C2 as (g & l & E & Hs). apply (says_line T_SPDXID gs g); [apply incl_self|reflexivity| |exact Hs]. apply with_tag_in. rewrite E. left. reflexivity.
  - apply (one_line _ _ _ incl_self C3 eq_refl).
  - apply (one_line _ _ _ incl_self C4 eq_refl).
  - apply (optional_text _ _ _ incl_self C12 eq_refl). right. left. reflexivity.
  - apply Forall_forall. intros r Hr. destruct (each_in _ _ _ _ _ C10 Hr) as (g & T & Hs). rewrite Forall_forall in V5. exact (tv_docref g r T Hs Hr (V5 r Hr)).
  - exact C6.
  - apply Forall_forall. intros a Ha. destruct (each_in _ _ _ _ _ C5 Ha) as (g & T & Hs). apply (says_tv_actor T_Creator gs g a incl_self); auto.
    + intros ty Hy. cbn in Hy. split; intro; subst; intuition discriminate.
    + left. exact Ha.
  - destruct (one_in _ _ _ _ C7) as (g & _ & Hs). exact (date_plain _ _ Hs).
  - apply (optional_text _ _ _ incl_self C8 eq_refl). left. reflexivity.
Qed.
Lemma free_package p o : In p (do_packages d) -> In o ([pk_source_info p; pk_lic_comment p; pk_summary p; pk_description p; pk_comment p] ++ map er_comment (pk_refs p) ++ map Some (pk_attribution p)) -> In o (free_texts d).
Proof.
  intros Hp H. unfold free_texts. apply in_or_app. right. apply in_or_app. left. apply in_flat_map. exists p. split; [exact Hp|exact H].
Qed.
Lemma free_file p o : In p (do_files d) -> In o ([fi_lic_comment p; fi_comment p; fi_notice p] ++ map Some (fi_attribution p)) -> In o (free_texts d).
Proof.
  intros Hp H. unfold free_texts. do 2 (apply in_or_app; right). apply in_or_app. left. apply in_flat_map. exists p. split; [exact Hp|exact H].
Qed.
Lemma free_snippet p o : In p (do_snippets d) -> In o ([sn_lic_comment p; sn_comment p] ++ map Some (sn_attribution p)) -> In o (free_texts d).
Proof.
  intros Hp H. unfold free_texts. do 3 (apply in_or_app; right). apply in_or_app. left. apply in_flat_map. exists p. split; [exact Hp|exact H].
Qed.
Lemma free_annotation p : In p (do_annotations d) -> In (Some (an_comment p)) (free_texts d).
Proof.
  intros Hp. unfold free_texts. do 4 (apply in_or_app; right). apply in_or_app. left. apply (in_map (fun a => Some (an_comment a)) _ p Hp).
Qed.
Lemma free_relationship p : In p (do_relationships d) -> In (re_comment p) (free_texts d).
Proof.
  intros Hp. unfold free_texts. do 5 (apply in_or_app; right). apply in_or_app. left. apply (in_map re_comment _ p Hp).
Qed.
Lemma free_extracted p o : In p (do_extracted d) -> In o [el_text p; el_comment p] -> In o (free_texts d).
Proof.
  intros Hp H. unfold free_texts. do 6 (apply in_or_app; right). apply in_flat_map. exists p. split; [exact Hp|exact H].
Qed.
Lemma last_id_line b s : incl b gs -> LastId b s -> ElementId d s -> Line s /\ special s = false.
Proof.
  intros Hb H V. destruct (last_id_in _ _ H) as (g & T & Hs). pose proof (says_line T_SPDXID b g s Hb eq_refl T Hs) as L. split; [exact L|]. apply (element_line _ _ V (no_LF _ L)).
Qed.
Lemma tv_package p : In p (do_packages d) -> TvPackage O p.
Proof.
  intro Hp. destruct (says_package O gs d HD p Hp) as (b & Hb & X). pose proof (wf_packages _ _ _ W) as WP. rewrite Forall_forall in WP. specialize (WP p Hp).
  assert (FL : forall e, (pk_concluded p = Some (NVal e) \/ pk_declared p = Some (NVal e) \/ In (NVal e) (pk_info p)) -> LicenseOf d e) by (intros e He; left; exists p; auto).
  assert (LT : forall o, In o [word_text (Some (pk_download p)); word_text (pk_homepage p)] -> In o (location_texts d)) by (intros o Ho; apply in_flat_map; exists p; auto).
  constructor.
  - apply (last_id_line b _ Hb (sp_id _ _ _ X) (vp_id _ _ _ _ WP)).
  - apply (one_line _ _ _ Hb (sp_name _ _ _ X) eq_refl).
  - apply (one_word _ _ _ Hb (sp_download _ _ _ X)). apply LT. left. reflexivity.
  - apply (optional_line _ _ _ Hb (sp_version _ _ _ X) eq_refl).
  - apply (optional_line _ _ _ Hb (sp_file_name _ _ _ X) eq_refl).
  - apply (actor_or_not _ _ _ Hb (sp_supplier _ _ _ X) eq_refl). intros a Ea. right. left. exists p. auto.
  - apply (actor_or_not _ _ _ Hb (sp_originator _ _ _ X) eq_refl). intros a Ea. right. left. exists p. auto.
  - destruct (pk_verif p) as [v|] eqn:E; [|exact I]. pose proof (sp_verif _ _ _ X) as H. rewrite E in H. destruct (optional_in _ _ _ _ H) as (g & T & Hs).
    exact (tv_code b g v p Hb T Hs Hp E (vp_verif _ _ _ _ WP v E)).
  - apply (checksum_hex _ _ _ _ (sp_checksums _ _ _ X) (vp_checksums _ _ _ _ WP)). intros c Hc. apply in_or_app. left. apply in_flat_map. exists p. auto.
  - destruct (pk_homepage p) as [[s| |]|] eqn:E; try exact I. apply (kept_locations _ _ HK). apply LT. right. left. reflexivity.
  - apply (optional_text _ _ _ Hb (sp_source_info _ _ _ X) eq_refl). apply (free_package p); [exact Hp|]. cbn; auto 8.
  - apply opt_license. auto.
  - apply list_license. auto.
  - apply opt_license. auto.
  - apply (optional_text _ _ _ Hb (sp_lic_comment _ _ _ X) eq_refl). apply (free_package p); [exact Hp|]. cbn; auto 8.
  - apply (copyright_text _ _ _ Hb (sp_copyright _ _ _ X) eq_refl). apply in_or_app. left. apply (in_map (fun p => word_text (pk_copyright p)) _ p Hp).
  - apply (optional_text _ _ _ Hb (sp_summary _ _ _ X) eq_refl). apply (free_package p); [exact Hp|]. cbn; auto 8.
  - apply (optional_text _ _ _ Hb (sp_description _ _ _ X) eq_refl). apply (free_package p); [exact Hp|]. cbn; auto 8.
  - apply (optional_text _ _ _ Hb (sp_comment _ _ _ X) eq_refl). apply (free_package p); [exact Hp|]. cbn; auto 8.
  - apply Forall_forall. intros r Hr. destruct (each_in _ _ _ _ _ (sp_refs _ _ _ X) Hr) as (g & T & _ & Hc). destruct (kept_refs _ _ HK p r Hp Hr) as (K1 & K2 & K3). constructor; auto. split; [|exact K3].
    apply (comment_text _ _ _ _ Hb T Hc). apply (free_package p); [exact Hp|]. apply in_or_app. right. apply in_or_app. left. apply in_map. exact Hr.
  - apply (each_text _ _ _ Hb (sp_attribution _ _ _ X) eq_refl). intros o Ho. apply (free_package p); [exact Hp|]. apply in_or_app. right. apply in_or_app. right. exact Ho.
  - exact (optional_date _ _ _ (sp_release _ _ _ X)).
  - exact (optional_date _ _ _ (sp_built _ _ _ X)).
  - exact (optional_date _ _ _ (sp_valid _ _ _ X)).
Qed.
Lemma tv_file p : In p (do_files d) -> TvFile O p.
Proof.
  intro Hp. destruct (says_file O gs d HD p Hp) as (b & Hb & X). pose proof (wf_files _ _ _ W) as WP. rewrite Forall_forall in WP. specialize (WP p Hp).
  assert (FL : forall e, (fi_concluded p = Some (NVal e) \/ In (NVal e) (fi_info p)) -> LicenseOf d e) by (intros e He; right; left; exists p; auto).
  constructor.
  - apply (one_line _ _ _ Hb (sf_name _ _ _ X) eq_refl).
  - apply (last_id_line b _ Hb (sf_id _ _ _ X) (vf_id _ _ _ _ WP)).
  - apply (sf_checksums _ _ _ X).
  - apply (checksum_hex _ _ _ _ (proj1 (sf_checksums _ _ _ X)) (vf_checksums _ _ _ _ WP)). intros c Hc. apply in_or_app. right. apply in_flat_map. exists p. auto.
  - apply opt_license. auto.
  - apply list_license. auto.
  - apply (optional_text _ _ _ Hb (sf_lic_comment _ _ _ X) eq_refl). apply (free_file p); [exact Hp|]. cbn; auto 8.
  - apply (copyright_text _ _ _ Hb (sf_copyright _ _ _ X) eq_refl). apply in_or_app. right. apply in_or_app. left. apply (in_map (fun p => word_text (fi_copyright p)) _ p Hp).
  - apply (optional_text _ _ _ Hb (sf_comment _ _ _ X) eq_refl). apply (free_file p); [exact Hp|]. cbn; auto 8.
  - apply (optional_text _ _ _ Hb (sf_notice _ _ _ X) eq_refl). apply (free_file p); [exact Hp|]. cbn; auto 8.
  - apply (each_line _ _ _ Hb (sf_contributors _ _ _ X) eq_refl).
  - apply (each_text _ _ _ Hb (sf_attribution _ _ _ X) eq_refl). intros o Ho. apply (free_file p); [exact Hp|]. apply in_or_app. right. exact Ho.
Qed.
Lemma id_from_line t b s : incl b gs -> IdFrom t b s -> takes t = [TT_LINE] -> Line s.
Proof. intros Hb H Et. destruct (id_from_in _ _ _ H) as (g & [T|T] & Hs); [exact (says_line _ _ _ _ Hb Et T Hs)|exact (says_line T_SPDXID _ _ _ Hb eq_refl T Hs)]. Qed.
Lemma range_nat g r : SaysRange g r -> (0 <= fst r /\ 0 <= snd r)%Z.
Proof. intros (a & b & m & n & _ & _ & _ & ->). cbn [fst snd]. lia. Qed.
Lemma tv_snippet p : In p (do_snippets d) -> TvSnippet O p.
Proof.
  intro Hp. destruct (says_snippet O gs d HD p Hp) as (b & Hb & X).
  assert (FL : forall e, (sn_concluded p = Some (NVal e) \/ In (NVal e) (sn_info p)) -> LicenseOf d e) by (intros e He; right; right; exists p; auto).
  constructor.
  - apply (id_from_line _ _ _ Hb (ss_id _ _ _ X) eq_refl).
  - apply (one_line _ _ _ Hb (ss_file _ _ _ X) eq_refl).
  - destruct (one_in _ _ _ _ (ss_bytes _ _ _ X)) as (g & _ & Hs). exact (range_nat _ _ Hs).
  - pose proof (ss_lines _ _ _ X) as H. destruct (sn_lines p) as [r|]; [|exact I]. destruct (optional_in _ _ _ _ H) as (g & _ & Hs). exact (range_nat _ _ Hs).
  - apply opt_license. auto.
  - apply list_license. auto.
  - apply (optional_text _ _ _ Hb (ss_lic_comment _ _ _ X) eq_refl). apply (free_snippet p); [exact Hp|]. cbn; auto 8.
  - apply (copyright_text _ _ _ Hb (ss_copyright _ _ _ X) eq_refl). apply in_or_app. right. apply in_or_app. right. apply (in_map (fun p => word_text (sn_copyright p)) _ p Hp).
  - apply (optional_text _ _ _ Hb (ss_comment _ _ _ X) eq_refl). apply (free_snippet p); [exact Hp|]. cbn; auto 8.
  - apply (optional_line _ _ _ Hb (ss_name _ _ _ X) eq_refl).
  - apply (each_text _ _ _ Hb (ss_attribution _ _ _ X) eq_refl). intros o Ho. apply (free_snippet p); [exact Hp|]. apply in_or_app. right. exact Ho.
Qed.
Lemma tv_annotation p : In p (do_annotations d) -> TvAnnotation p.
Proof.
  intro Hp. destruct (says_annotation O gs d HD p Hp) as (b & Hb & X). constructor.
  - destruct (sa_id _ _ X) as [H|[_ H]]; [exact (id_from_line _ _ _ Hb H eq_refl)|]. destruct (last_id_in _ _ H) as (g & T & Hs). exact (says_line T_SPDXID _ _ _ Hb eq_refl T Hs).
  - destruct (one_in _ _ _ _ (sa_annotator _ _ X)) as (g & T & Hs). apply (says_tv_actor T_Annotator b g _ Hb); auto.
    + intros ty Hy. cbn in Hy. split; intro; subst; intuition discriminate.
    + right. right. eauto.
  - destruct (one_in _ _ _ _ (sa_date _ _ X)) as (g & _ & Hs). exact (date_plain _ _ Hs).
  - apply (one_text _ _ _ Hb (sa_comment _ _ X) eq_refl). apply free_annotation. exact Hp.
Qed.
Lemma tv_extracted p : In p (do_extracted d) -> TvExtracted p.
Proof.
  intro Hp. destruct (says_extracted O gs d HD p Hp) as (b & Hb & X). constructor.
  - destruct (se_id _ _ X) as (s & E & H). exists s. split; [exact E|]. exact (one_line _ _ _ Hb H eq_refl).
  - apply (optional_text _ _ _ Hb (se_text _ _ X) eq_refl). apply (free_extracted p); [exact Hp|]. cbn; auto.
  - pose proof (se_name _ _ X) as H. destruct (el_name p) as [[s|]|]; try exact I. destruct (optional_in _ _ _ _ H) as (g & T & Hs). destruct (kind _ b g Hb T) as [K Sh].
    unfold SaysName, SaysText, TextOf in Hs. destruct K as [K|[K|[]]]; rewrite <- K in Hs; [|discriminate Hs]. destruct Hs as (s' & E & ->). injection E as ->. exact (line_token _ (eq_sym K) Sh).
  - apply (each_line _ _ _ Hb (se_refs _ _ X) eq_refl).
  - apply (optional_text _ _ _ Hb (se_comment _ _ X) eq_refl). apply (free_extracted p); [exact Hp|]. cbn; auto.
Qed.
Lemma tv_relationship r : In r (do_relationships d) -> TvRelationship r.
Proof.
  intro Hr. pose proof (wf_relationships _ _ _ W) as WR. rewrite Forall_forall in WR. destruct (WR r Hr) as (V1 & V2 & _).
  destruct (says_relationship O gs d HD r Hr) as [(g & T & (x & (E & _ & _ & _) & Hx) & Hc)|(p & f & Hp & Hf & ->)].
  - assert (Ln : Line (tk_value (g_val g))) by (apply (says_line T_Relationship gs g); auto using incl_self; reflexivity).
    pose proof (no_LF _ Ln) as N. rewrite E in N. rewrite !in_app_iff in N. constructor.
    + apply (resolves_line _ _ V1). tauto.
    + destruct (re_related r) as [s| |] eqn:Er; try exact I. destruct Hx as (-> & N1 & N2). split; [|split; assumption]. apply (resolves_line _ _ (V2 s eq_refl)). tauto.
    + apply (comment_text _ _ _ _ incl_self T Hc). apply free_relationship. exact Hr.
  - constructor; cbn [contained re_id re_related re_comment] in *.
    + destruct (tp_id _ _ (tv_package p Hp)) as [L _]. apply (resolves_line _ _ V1). exact (no_LF _ L).
    + destruct (tf_id _ _ (tv_file f Hf)) as [L _]. pose proof (V2 _ eq_refl) as R. destruct (Resave.resolves_plain _ _ R) as [P1 P2]. split; [|split; assumption].
      apply (resolves_line _ _ R). exact (no_LF _ L).
    + exact I.
Qed.
Lemma tv_tv : TvDocument O d.
Proof.
  constructor; try (apply Forall_forall; intros x Hx).
  - exact tv_creation.
  - exact (tv_package x Hx).
  - exact (tv_file x Hx).
  - exact (tv_snippet x Hx).
  - exact (tv_annotation x Hx).
  - exact (tv_relationship x Hx).
  - exact (tv_extracted x Hx).
  - exact all_distinct.
Qed.
End Read.
