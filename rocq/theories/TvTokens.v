(** The values of the tokens of a file. *)
From Verif Require Import Py PyFacts PyRe PyReFacts PyReSound Data Oracles Basics JsonSpec TvLexer TvSpec TvTokSpec TvLexFacts TvLexValues TvParser TvRaises
  TvReadSpec TvStreamSpec TvRead5 TvRead9.

Section Text.
Variable text : pystr.
Record Sharp (k : token) : Prop := {
  sh_line : tk_type k = TT_LINE -> ~ In LF (tk_value k) /\ strip (tk_value k) = tk_value k
              /\ (special (tk_value k) = false \/ In (tk_value k) [$"Tool:"; $"Organization:"; $"Person:"]);
  sh_text : tk_type k = TT_TEXT -> exists v, tk_value k = $"<text>" ++ v ++ $"</text>" /\ contains $"</text>" v = false /\ incl v text;
  sh_word : In (tk_type k) [TT_NO_ASSERTION; TT_NONE] -> In (tk_value k) [$"NOASSERTION"; $"NONE"];
  sh_actor : tk_type k = TT_PERSON_VALUE \/ tk_type k = TT_ORGANIZATION_VALUE -> startswith $"Tool:" (tk_value k) = false;
  sh_from : tk_type k <> TT_ERROR -> tk_type k <> TT_TEXT -> incl (tk_value k) text }.

Lemma strip_incl s : incl (strip s) s.
Proof.
  assert (D : forall p s', incl (dropwhile p s') s').
  { intros p s'. induction s' as [|c s' IH]; intros x Hx; [contradiction|]. cbn [dropwhile] in Hx. destruct (p c); [right; apply IH; exact Hx|exact Hx]. }
  intros x Hx. unfold strip, rstrip, lstrip in Hx. apply in_rev in Hx. apply D in Hx. apply in_rev in Hx. apply D in Hx. exact Hx.
Qed.
Lemma startswith_prefix p a b : startswith p a = true -> startswith p (a ++ b) = true.
Proof. revert a; induction p as [|x p IH]; intros [|c a] H; try reflexivity; try discriminate. cbn in *. apply andb_true_iff in H as [H1 H2]. rewrite H1, IH; auto. Qed.
Lemma begins_prefix p a b : begins_like p a = true -> begins_like p (a ++ b) = true.
Proof. revert a; induction p as [|x p IH]; intros [|c a] H; try reflexivity; try discriminate. cbn in *. apply andb_true_iff in H as [H1 H2]. rewrite H1, IH; auto. Qed.

(** the start of a stripped value *)
Lemma lstrip_strip x rest : strip x <> [] -> exists w, lstrip (x ++ rest) = strip x ++ w ++ rest /\ forallb is_space w = true.
Proof.
  intro N. assert (L : lstrip (x ++ rest) = lstrip x ++ rest).
  { unfold lstrip. assert (X : dropwhile is_space x <> []) by (intro E; apply N; unfold strip, lstrip; rewrite E; reflexivity).
    clear N. induction x as [|c x IH]; [contradiction X; reflexivity|]. cbn [app dropwhile] in *. destruct (is_space c); [apply IH; exact X|reflexivity]. }
  rewrite L. unfold strip, rstrip. set (y := lstrip x). exists (rev (takewhile is_space (rev y))).
  pose proof (takewhile_dropwhile is_space (rev y)) as E. apply (f_equal (@rev _)) in E. rewrite rev_involutive, rev_app_distr in E.
  split; [rewrite E at 1; rewrite <- app_assoc; reflexivity|]. apply forallb_forall. intros c Hc. apply in_rev in Hc. pose proof (takewhile_all is_space (rev y)) as T. rewrite forallb_forall in T. auto.
Qed.
Lemma checksum_some s : matched checksum_re (colon s) = None -> forall a, In a lex_algorithms -> startswith (a ++ $":") (lstrip s) = false.
Proof.
  intros H a Ha. destruct (startswith (a ++ $":") (lstrip s)) eqn:E; [exfalso|reflexivity]. unfold matched in H. rewrite checksum_re_eq in H.
  assert (K : pm (palts (map plit lex_algorithms)) (lstrip s) [] (fun s' g' => pm checksum_tail s' g' kend) <> None).
  { rewrite startswith_split in E. apply andb_true_iff in E as [E1 E2].
    assert (T : pm (plit a) (lstrip s) [] (fun s' g' => pm checksum_tail s' g' kend) <> None).
    { rewrite pm_plit, E1. unfold checksum_tail. rewrite pcats_cons, pm_pcat, pm_plit, E2, pcats_cons, pm_pcat. cbn [pcats].
      destruct (TvSpecialFacts.star_bt_ex is_space (fun s' => pm (PStar lex_hex) s' [] kend) (skipn (List.length $":") (skipn (List.length a) (lstrip s)))) as [r Hr].
      - destruct (TvSpecialFacts.star_bt_ex lex_hex (fun s' => kend s' []) (dropwhile is_space (skipn (List.length $":") (skipn (List.length a) (lstrip s))))) as [r Hr]; [eexists; reflexivity|]. exists r. exact Hr.
      - cbn [pm]. cbn [pm] in Hr. rewrite Hr. discriminate. }
    clear H. revert Ha. induction lex_algorithms as [|b l IH]; intro Ha; [destruct Ha|]. destruct l as [|c l].
    - destruct Ha as [->|[]]. exact T.
    - change (palts (map plit (b :: c :: l))) with (PAlt (plit b) (palts (map plit (c :: l)))). cbn [pm]. destruct Ha as [->|Ha].
      + destruct (pm (plit a) (lstrip s) [] _) eqn:P; [discriminate|contradiction T; reflexivity].
      + destruct (pm (plit b) (lstrip s) [] _); [discriminate|]. apply IH. exact Ha. }
  destruct (pm (palts (map plit lex_algorithms)) (lstrip s) [] _) as [[rest gs]|]; [discriminate H|apply K; reflexivity].
Qed.
Lemma text_some s : matched text_re (colon s) = None -> startswith $"<text>" (lstrip s) = false.
Proof. unfold matched. rewrite text_re_eq. destruct (startswith _ (lstrip s)); [discriminate|reflexivity]. Qed.
Lemma date_some s : matched date_re (colon s) = None -> begins_like stamp_shape (lstrip s) = false.
Proof. unfold matched. rewrite date_re_eq. destruct (begins_like _ (lstrip s)); [discriminate|reflexivity]. Qed.
Lemma actor_some p c r s : solid p = true -> matched (actor_re p) (colon s) = None -> lstrip s = p ++ c :: r -> c = LF.
Proof.
  destruct p as [|x p]; [discriminate|]. intros Hx H L. apply negb_true_iff in Hx. unfold matched in H. rewrite actor_re_eq, L, startswith_app, skipn_len_app in H by exact Hx.
  destruct (N.eqb_spec c LF) as [E|E]; [exact E|exfalso]. unfold pplus in H. cbn [pm] in H.
  assert (Hc : not_lf c = true) by (unfold not_lf; apply negb_true_iff, N.eqb_neq; exact E). rewrite Hc in H.
  destruct (TvSpecialFacts.star_bt_ex not_lf (fun s' => kend s' []) r) as [[a b] Hr]; [eexists; reflexivity|]. rewrite Hr in H. discriminate H.
Qed.
Lemma reserved_words v : reserved v = None -> str_in v format_words = false.
Proof.
  intro H. apply str_in_false. intro K. unfold reserved in H.
  destruct (str_eqb v $"NOASSERTION") eqn:E1; [discriminate|]. destruct (str_eqb v $"NONE") eqn:E2; [discriminate|].
  destruct (enum_lookup tag_all tag_name v) as [t|] eqn:E3; [discriminate|].
  unfold format_words in K. cbn [In] in K.
  repeat (destruct K as [K|K]; [subst v; first [vm_compute in E1; discriminate E1|vm_compute in E2; discriminate E2|vm_compute in E3; discriminate E3]|]). exact K.
Qed.
Lemma alg_of p : str_in p (map (fun a => a ++ $":") lex_algorithms) = true -> exists a, In a lex_algorithms /\ p = a ++ $":".
Proof. intro H. apply str_in_In in H. apply in_map_iff in H as (a & <- & Ha). eauto. Qed.
Lemma line_value s y rest : matched text_re (colon s) = None -> matched checksum_re (colon s) = None ->
  (forall p, In p [$"Tool:"; $"Organization:"; $"Person:"] -> matched (actor_re p) (colon s) = None) -> matched date_re (colon s) = None ->
  s = y ++ rest -> ~ In LF y -> reserved (strip y) = None -> special (strip y) = false \/ In (strip y) [$"Tool:"; $"Organization:"; $"Person:"].
Proof.
  intros T C A D E Hl R. destruct (special (strip y)) eqn:S; [right|left; reflexivity].
  assert (N : strip y <> []) by (intro X; rewrite X in S; vm_compute in S; discriminate S).
  destruct (lstrip_strip y rest N) as (w & L & _). rewrite <- E in L. unfold special in S. rewrite (reserved_words _ R) in S. cbn [orb] in S.
  assert (Hn : ~ In LF (strip y)) by (intro K; apply strip_incl in K; contradiction).
  apply orb_true_iff in S as [S|S].
  - apply existsb_exists in S as (p & Hp & S). pose proof (startswith_prefix _ _ (w ++ rest) S) as S'. rewrite <- L in S'.
    assert (X : p = $"<text>" \/ (exists a, In a lex_algorithms /\ p = a ++ $":") \/ In p [$"Tool:"; $"Organization:"; $"Person:"]).
    { unfold special_prefixes in Hp. cbn [In] in Hp. destruct Hp as [Hp|Hp]; [left; auto|]. do 3 (destruct Hp as [Hp|Hp]; [right; right; subst p; cbn [In]; auto|]).
      right. left. repeat (destruct Hp as [Hp|Hp]; [subst p; apply alg_of; reflexivity|]). destruct Hp. }
    destruct X as [->|[(a & Ha & ->)|X]].
    + rewrite (text_some _ T) in S'. discriminate S'.
    + rewrite (checksum_some _ C a Ha) in S'. discriminate S'.
    + apply startswith_spec in S as (r & Er). destruct r as [|c r]; [rewrite app_nil_r in Er; rewrite Er; exact X|]. exfalso.
      assert (Sp : solid p = true) by (repeat (destruct X as [<-|X]; [reflexivity|]); destruct X).
      rewrite Er, <- app_assoc in L. pose proof (actor_some p c (r ++ w ++ rest) s Sp (A p X) L) as K. subst c. apply Hn. rewrite Er. apply in_or_app. right. left. reflexivity.
  - exfalso. apply (begins_prefix _ _ (w ++ rest)) in S. rewrite <- L, (date_some _ D) in S. discriminate S.
Qed.
Lemma line_matched_sound s x : matched line_re s = Some x -> exists y rest, s = colon (y ++ rest) /\ x = colon y /\ ~ In LF y.
Proof.
  intro H. apply matched_sound in H as (rest & gs & E & M). unfold line_re in M. cbn [pcats Matches] in M. destruct M as (a & b & g1 & g2 & -> & _ & M1 & M2).
  apply Matches_lit in M1 as [-> _]. apply Matches_plus in M2 as (_ & M2 & _). exists b, rest. split; [exact E|]. split; [reflexivity|].
  intro K. rewrite forallb_forall in M2. apply M2 in K. discriminate K.
Qed.

(** what has been read of a text *)
Definition Scan (m : lmode) (rest : pystr) : Prop :=
  match m with
  | LInitial => True
  | LText r => exists u, r = $"<text>" ++ u /\ incl u text /\ forall a b, u = a ++ b -> b <> [] -> startswith $"</text>" (b ++ rest) = false
  end.
Lemma contains_split s : contains $"</text>" s = true -> exists a b, s = a ++ b /\ startswith $"</text>" b = true.
Proof.
  induction s as [|c s IH]; intro H; [vm_compute in H; discriminate H|]. cbn [contains] in H. apply orb_true_iff in H as [H|H].
  - exists [], (c :: s). split; [reflexivity|exact H].
  - destruct (IH H) as (a & b & -> & K). exists (c :: a), b. split; [reflexivity|exact K].
Qed.
Lemma value_incl x s : incl (x ++ s) text -> incl (value_of x) text.
Proof. intros H c Hc. unfold value_of in Hc. apply strip_incl in Hc. apply H, in_or_app. left. destruct x as [|y x]; [contradiction|]. right. exact Hc. Qed.
Lemma reserved_types v : match reserved v with Some t => t | None => TT_UNKNOWN_TAG end <> TT_LINE /\ match reserved v with Some t => t | None => TT_UNKNOWN_TAG end <> TT_TEXT
  /\ match reserved v with Some t => t <> TT_LINE /\ t <> TT_TEXT /\ t <> TT_PERSON_VALUE /\ t <> TT_ORGANIZATION_VALUE | None => True end.
Proof.
  unfold reserved. destruct (str_eqb v _); [repeat split; discriminate|]. destruct (str_eqb v _); [repeat split; discriminate|].
  destruct (enum_lookup tag_all tag_name v) as [t|]; repeat split; discriminate.
Qed.
Lemma actor_value p s x : In p [$"Organization:"; $"Person:"] -> matched (actor_re p) s = Some x -> startswith $"Tool:" (value_of x) = false.
Proof.
  intros Hp M. pose proof M as M'. apply matched_sound in M' as (rest & gs & E & M'). unfold actor_re in M'. rewrite pcats_cons in M'. cbn [Matches] in M'. destruct M' as (a & b & g1 & g2 & -> & _ & M1 & _).
  apply Matches_lit in M1 as [-> _]. destruct (startswith $"Tool:" (value_of ($":" ++ b))) eqn:S; [exfalso|reflexivity].
  change (value_of ($":" ++ b)) with (strip b) in S. assert (N : strip b <> []) by (intro K; rewrite K in S; discriminate S).
  destruct (lstrip_strip b rest N) as (w & L & _). apply (startswith_prefix _ _ (w ++ rest)) in S. rewrite <- L in S.
  rewrite <- app_assoc in E. change ($":" ++ b ++ rest) with (colon (b ++ rest)) in E. subst s. apply startswith_spec in S as (t & S).
  assert (K : startswith p (lstrip (b ++ rest)) = false) by (rewrite S; destruct Hp as [<-|[<-|[]]]; reflexivity).
  rewrite actor_none in M; [discriminate M| |exact K]. destruct Hp as [<-|[<-|[]]]; reflexivity.
Qed.
Lemma reserved_word v t : reserved v = Some t -> In t [TT_NO_ASSERTION; TT_NONE] -> In v [$"NOASSERTION"; $"NONE"].
Proof.
  unfold reserved. destruct (str_eqb v $"NOASSERTION") eqn:E1; [apply str_eqb_eq in E1; subst v; intros; left; reflexivity|].
  destruct (str_eqb v $"NONE") eqn:E2; [apply str_eqb_eq in E2; subst v; intros; right; left; reflexivity|].
  destruct (enum_lookup tag_all tag_name v) as [x|]; [|discriminate]. intros E [K|[K|[]]]; subst t; discriminate E.
Qed.
Lemma step_sharp m s k n m' dl : incl s text -> Scan m s -> lex_step m s = (k, n, m', dl) ->
  (forall t, k = Some t -> Sharp t) /\ Scan m' (skipn n s) /\ (n = 0 -> forall r, Scan m' r).
Proof.
  intros Hs Sc H. assert (Ini : forall x y r, Scan LInitial r /\ (x = y :> nat -> forall r, Scan LInitial r)) by (split; [exact I|intros; exact I]). destruct m as [|r].
  - cbn [lex_step] in H. unfold initial_rules in H. cbn [first_rule] in H.
    assert (Other : forall t v x r', s = x ++ r' -> incl v x -> t <> TT_LINE -> t <> TT_TEXT ->
      (t = TT_PERSON_VALUE \/ t = TT_ORGANIZATION_VALUE -> startswith $"Tool:" v = false) ->
      (In t [TT_NO_ASSERTION; TT_NONE] -> In v [$"NOASSERTION"; $"NONE"]) -> Sharp {| tk_type := t; tk_value := v |}).
    { intros t v x r' E Hv T1 T2 T3 T4. constructor; cbn [tk_type tk_value]; try contradiction; [exact T4|exact T3|]. intros _ _ c Hc. apply Hs. rewrite E. apply in_or_app. left. apply Hv. exact Hc. }
    assert (V : forall x, incl (value_of x) x). { intros x c Hc. unfold value_of in Hc. apply strip_incl in Hc. destruct x; [contradiction|right; exact Hc]. }
    destruct (matched text_re s) as [x|] eqn:M1.
    { injection H as <- <- <- <-. split; [discriminate|]. assert (Z : forall r, Scan (LText $"<text>") r); [|split; auto]. intro r.
      exists []. split; [rewrite app_nil_r; reflexivity|]. split; [intros c []|]. intros a b E N. symmetry in E. apply app_eq_nil in E as [_ ->]. contradiction N; reflexivity. }
    destruct (matched checksum_re s) as [x|] eqn:M2.
    { unfold emit in H. injection H as <- <- <- <-. split; [|apply Ini]. intros t E. injection E as <-. apply matched_sound in M2 as (r' & gs & E & _). eapply Other; eauto; try discriminate; try (intros [K|K]; discriminate K); try (intros [K|[K|[]]]; discriminate K). }
    destruct (matched (actor_re $"Tool:") s) as [x|] eqn:M3.
    { unfold emit in H. injection H as <- <- <- <-. split; [|apply Ini]. intros t E. injection E as <-. apply matched_sound in M3 as (r' & gs & E & _). eapply Other; eauto; try discriminate; try (intros [K|K]; discriminate K); try (intros [K|[K|[]]]; discriminate K). }
    destruct (matched (actor_re $"Organization:") s) as [x|] eqn:M4.
    { unfold emit in H. injection H as <- <- <- <-. split; [|apply Ini]. intros t E. injection E as <-. pose proof (actor_value $"Organization:" s x ltac:(cbn; auto) M4) as VA. apply matched_sound in M4 as (r' & gs & E & _). eapply Other; eauto; try discriminate; try (intros [K|K]; discriminate K); try (intros [K|[K|[]]]; discriminate K). }
    destruct (matched (actor_re $"Person:") s) as [x|] eqn:M5.
    { unfold emit in H. injection H as <- <- <- <-. split; [|apply Ini]. intros t E. injection E as <-. pose proof (actor_value $"Person:" s x ltac:(cbn; auto) M5) as VA. apply matched_sound in M5 as (r' & gs & E & _). eapply Other; eauto; try discriminate; try (intros [K|K]; discriminate K); try (intros [K|[K|[]]]; discriminate K). }
    destruct (matched date_re s) as [x|] eqn:M6.
    { unfold emit in H. injection H as <- <- <- <-. split; [|apply Ini]. intros t E. injection E as <-. apply matched_sound in M6 as (r' & gs & E & _). eapply Other; eauto; try discriminate; try (intros [K|K]; discriminate K); try (intros [K|[K|[]]]; discriminate K). }
    destruct (matched keyword_re s) as [x|] eqn:M7.
    { unfold emit in H. injection H as <- <- <- <-. split; [|apply Ini]. intros t E. injection E as <-. apply matched_sound in M7 as (r' & gs & E & _).
      destruct (reserved_types x) as (R1 & R2 & R). eapply Other; eauto; [apply strip_incl| |].
      2: { intro K. destruct (reserved x) as [t|] eqn:Rx; [|destruct K as [K|[K|[]]]; discriminate K]. destruct (reserved_word _ _ Rx K) as [<-|[<-|[]]]; cbn; auto. }
      destruct (reserved x); [destruct R as (_ & _ & R3 & R4)|]; intros [K|K]; congruence. }
    destruct (matched line_re s) as [x|] eqn:M8.
    { destruct (line_matched_sound _ _ M8) as (y & rest & E & -> & Hl). cbv zeta in H. change (value_of (colon y)) with (strip y) in H. unfold emit in H. injection H as <- <- <- <-. split; [|apply Ini].
      intros t Et. injection Et as <-. destruct (reserved_types (strip y)) as (_ & _ & R). destruct (reserved (strip y)) as [t|] eqn:Rv.
      - destruct R as (R1 & R2 & R3 & R4). apply (Other t (strip y) (colon y) rest E); auto; [apply (V (colon y))|intros [K|K]; contradiction|]. apply (reserved_word _ _ Rv).
      - constructor; cbn [tk_type tk_value]; try discriminate; try (intros [K|K]; discriminate K); try (intros [K|[K|[]]]; discriminate K).
        + intros _. split; [intro K; apply strip_incl in K; contradiction|]. split; [apply strip_id, strip_stripped|]. subst s. eapply line_value; try eassumption; [|reflexivity].
          intros p [<-|[<-|[<-|[]]]]; assumption.
        + intros _ _ c Hc. apply Hs. rewrite E. right. apply in_or_app. left. apply strip_incl. exact Hc. }
    destruct (matched comment_re s); [unfold drop in H; injection H as <- <- <- <-; split; [discriminate|apply Ini]|].
    destruct (matched newline_re s); [injection H as <- <- <- <-; split; [discriminate|apply Ini]|].
    destruct (matched whitespace_re s); [unfold drop in H; injection H as <- <- <- <-; split; [discriminate|apply Ini]|].
    injection H as <- <- <- <-. split; [|apply Ini]. intros t E. injection E as <-. constructor; cbn [tk_type]; try discriminate; try (intros [K|K]; discriminate K); try (intros [K|[K|[]]]; discriminate K). intro K. contradiction K; reflexivity.
  - cbn [lex_step] in H. unfold text_step in H. destruct Sc as (u & -> & Hu & Sc). destruct (matched text_end_re s) as [x|] eqn:E.
    + pose proof E as E'. apply matched_sound in E as (rest & gs & E & M). injection H as <- <- <- <-. split; [|apply Ini]. intros t Et. injection Et as <-.
      constructor; cbn [tk_type tk_value]; try discriminate; try (intros [K|K]; discriminate K); try (intros [K|[K|[]]]; discriminate K).
      * intros _. exists u. split; [eapply text_stripped; exact M|]. split; [|exact Hu].
        destruct (contains $"</text>" u) eqn:C; [exfalso|reflexivity]. apply contains_split in C as (a & b & -> & K). assert (N : b <> []) by (intros ->; discriminate K).
        specialize (Sc a b eq_refl N). rewrite (startswith_prefix _ _ _ K) in Sc. discriminate Sc.
      * intros _ K. contradiction K; reflexivity.
    + injection H as <- <- <- <-. split; [discriminate|]. split; [|discriminate]. exists (u ++ firstn 1 s). split; [rewrite app_assoc; reflexivity|]. split.
      * intros c Hc. apply in_app_or in Hc as [Hc|Hc]; [auto|]. apply Hs. destruct s; [contradiction|]. destruct Hc as [<-|[]]. left. reflexivity.
      * intros a b Eab N. destruct s as [|c s].
        { cbn [firstn] in Eab. rewrite app_nil_r in Eab. cbn [skipn]. exact (Sc a b Eab N). }
        cbn [firstn skipn] in *. destruct (exists_last N) as (b' & z & ->). rewrite app_assoc in Eab. apply app_inj_tail in Eab as [Eu Ez]. subst z.
        rewrite <- app_assoc. cbn [app]. destruct b' as [|z b'].
        -- cbn [app]. destruct (startswith $"</text>" (c :: s)) eqn:W; [exfalso|reflexivity]. apply startswith_spec in W as (r & W).
           rewrite W, text_end_yes in E. discriminate E.
        -- apply (Sc a (z :: b') Eu). discriminate.
Qed.
Lemma lex_sharp s : forall skip m line, incl s text -> Scan m (skipn skip s) -> Forall (fun x => Sharp (fst x)) (lex skip m line s).
Proof.
  induction s as [|c s IH]; intros skip m line Hs Sc; cbn [lex]; [constructor|]. assert (Hs' : incl s text) by (intros x Hx; apply Hs; right; exact Hx).
  destruct skip as [|skip]; [|apply IH; auto]. destruct (lex_step m (c :: s)) as [[[t n] m'] dl] eqn:E. cbn [skipn] in Sc.
  destruct (step_sharp _ _ _ _ _ _ Hs Sc E) as (A & B & Z).
  assert (B' : Scan m' (skipn (n - 1) s)).
  { destruct n as [|n]; [|cbn [skipn] in B; rewrite Nat.sub_succ, Nat.sub_0_r; exact B]. apply Z; reflexivity. }
  destruct t as [k|]; [|apply IH; auto]. constructor; [apply A; reflexivity|apply IH; auto].
Qed.
End Text.
Lemma tokens_sharp text : Forall (Sharp text) (tokens text).
Proof.
  apply Forall_forall. intros k Hk. unfold tokens in Hk. apply in_map_iff in Hk as (x & <- & Hx).
  pose proof (lex_sharp text text 0 LInitial 1%N (incl_refl _) I) as F. rewrite Forall_forall in F. apply F. exact Hx.
Qed.
Lemma newlines_CR n : forall s, List.length s <= n -> ~ In CR (universal_newlines s).
Proof.
  induction n as [|n IH]; intros [|c s] L; cbn in L; try lia; try (intros []; fail); cbn [universal_newlines].
  destruct (N.eqb_spec c 13) as [->|E].
  - intros [K|K]; [discriminate K|]. destruct s as [|c' s]; [exact K|]. cbn in L. destruct (N.eqb c' LF); [apply (IH s) in K; [exact K|lia]|]. apply (IH (c' :: s)) in K; [exact K|cbn; lia].
  - intros [K|K]; [apply E; exact K|]. apply (IH s) in K; [exact K|lia].
Qed.

(** the values of the attributes of a file *)
Lemma taken_values (P : token -> Prop) x l gs b : Taken x l gs b -> Forall P l ->
  Forall (fun g => Good g /\ P (g_val g) /\ forall c, g_com g = Some c -> P c) gs.
Proof.
  induction 1 as [x|x g l gs b G T IH|k l gs b Hk T IH|x t q C|x k l gs b Hk T IH|x v k l gs b Hv Hk T IH|x u k l gs b Hu Hk Ha T IH|x u v k l gs b Hu Ha Hk T IH|x t q l gs b Ht Q W C T IH];
    intro N; auto; rewrite Forall_forall in N; try (apply IH; apply Forall_forall; intros y Hy; apply N; cbn; auto; fail).
  - constructor; [|apply IH; apply Forall_forall; intros y Hy; apply N, in_or_app; auto]. split; [exact G|]. unfold tokens_of, fields in N. cbn [flat_map fst snd app] in N.
    split; [apply N; right; left; reflexivity|]. intros c Hc. destruct G as [_ G]. rewrite Hc in G, N. destruct (comment_tag (g_tag g)) as [ct|]; [|destruct G; contradiction].
    cbn [flat_map fst snd app] in N. apply N. cbn. auto 6.
  - apply IH. apply Forall_forall. intros y Hy. apply N. right. apply in_or_app. auto.
Qed.
