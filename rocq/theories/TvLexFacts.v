(** How the lexer reads the lines of the tag-value format. *)
From Verif Require Import Py PyFacts PyRe PyReFacts Data TvLexer TvSpec.
From Verif Require UniTables.

(** ** Steps *)
Lemma lex_skip k m l s : lex k m l s = lex 0 m l (skipn k s).
Proof.
  revert k; induction s as [|c s IH]; intros [|k]; cbn [lex skipn]; auto.
Qed.
Lemma lex_line k m l l' s : map fst (lex k m l s) = map fst (lex k m l' s).
Proof.
  revert k m l l'; induction s as [|c s IH]; intros [|k] m l l'; cbn [lex]; auto.
  destruct (lex_step m (c :: s)) as [[[t n] m'] dl]. destruct t; cbn [map fst]; rewrite (IH _ _ _ (l' + dl)%N); reflexivity.
Qed.
(** the tokens of a text *)
Definition toks (m : lmode) (s : pystr) : list token := map fst (lex 0 m 1%N s).
Lemma toks_tokenize s : map fst (tokenize s) = toks LInitial s.
Proof. reflexivity. Qed.
Lemma toks_step m s t n m' dl : s <> [] -> lex_step m s = (t, S n, m', dl) ->
  toks m s = match t with Some k => [k] | None => [] end ++ toks m' (skipn (S n) s).
Proof.
  intros Hs H. destruct s as [|c s]; [congruence|]. unfold toks. cbn [lex]. rewrite H. cbn [Nat.sub skipn].
  rewrite Nat.sub_0_r, lex_skip. destruct t; cbn [map fst app]; rewrite (lex_line _ _ _ 1%N); reflexivity.
Qed.

(** ** Patterns after the colon *)
Lemma matched_some r s a b g : re_match_rest r s = Some (b, g) -> s = a ++ b -> matched r s = Some a.
Proof. intros H ->. unfold matched. rewrite H, firstn_len_app. reflexivity. Qed.
Lemma matched_none r s : re_match_rest r s = None -> matched r s = None.
Proof. intro H. unfold matched. rewrite H. reflexivity. Qed.

(** [\s*] before something that cannot start with white space *)
Lemma star_space r s g k : (forall c t g', is_space c = true -> pm r (c :: t) g' k = None) ->
  pm (PCat (PStar is_space) r) s g k = pm r (lstrip s) g k.
Proof. intro H. cbn [pm]. rewrite star_bt_max; auto. Qed.
Lemma pm_lit_space x l c t g k : is_space x = false -> is_space c = true -> pm (plit (x :: l)) (c :: t) g k = None.
Proof. intros Hx Hc. cbn [plit pm]. destruct (N.eqb_spec x c); [congruence|reflexivity]. Qed.

Definition colon : pystr -> pystr := cons #":".
Definition kend : pystr -> groups -> mres := fun s' g' => Some (s', g').

Lemma colon_pm r s k : pm (PCat (plit $":") r) (colon s) [] k = pm r s [] k.
Proof. unfold colon. rewrite pm_pcat, pm_plit. reflexivity. Qed.

Lemma text_re_eq s : re_match_rest text_re (colon s) = if startswith $"<text>" (lstrip s) then Some (skipn 6 (lstrip s), []) else None.
Proof.
  unfold re_match_rest, text_re. rewrite pcats_cons, colon_pm, pcats_cons, star_space.
  - cbn [pcats]. rewrite pm_plit. reflexivity.
  - intros. cbn [pcats]. apply pm_lit_space; auto.
Qed.
Lemma palts_lits_none l s g k : Forall (fun a => startswith a s = false) l -> pm (palts (map plit l)) s g k = None.
Proof.
  induction l as [|a l IH]; intro H; [destruct s; reflexivity|]. inversion H as [|? ? H1 H2]; subst.
  assert (E : pm (plit a) s g k = None) by (rewrite pm_plit, H1; reflexivity).
  destruct l as [|b l]; [exact E|]. change (palts (map plit (a :: b :: l))) with (PAlt (plit a) (palts (map plit (b :: l)))).
  cbn [pm]. rewrite E. apply IH. exact H2.
Qed.
Lemma alg_space c t : is_space c = true -> Forall (fun a => startswith a (c :: t) = false) lex_algorithms.
Proof.
  intro H. unfold lex_algorithms. repeat constructor; cbn [lit map list_ascii_of_string startswith N_of_ascii];
    match goal with |- N.eqb ?x c && _ = false => destruct (N.eqb_spec x c); [subst; vm_compute in H; discriminate|reflexivity] end.
Qed.
Definition checksum_tail : prx := pcats [plit $":"; PStar is_space; PStar lex_hex].
Lemma checksum_re_eq s : re_match_rest checksum_re (colon s) =
  pm (palts (map plit lex_algorithms)) (lstrip s) [] (fun s' g' => pm checksum_tail s' g' kend).
Proof.
  unfold re_match_rest, checksum_re. rewrite pcats_cons, colon_pm, pcats_cons, star_space.
  - rewrite pcats_cons, pm_pcat. reflexivity.
  - intros c t g' H. rewrite pcats_cons, pm_pcat. apply palts_lits_none, alg_space, H.
Qed.
Lemma actor_re_eq x p s : is_space x = false -> re_match_rest (actor_re (x :: p)) (colon s) =
  if startswith (x :: p) (lstrip s) then pm (pplus not_lf) (skipn (List.length (x :: p)) (lstrip s)) [] kend else None.
Proof.
  intro Hx. unfold re_match_rest, actor_re. rewrite pcats_cons, colon_pm, pcats_cons, star_space.
  - rewrite pcats_cons, pm_pcat, pm_plit. reflexivity.
  - intros. rewrite pcats_cons, pm_pcat. apply pm_lit_space; auto.
Qed.
Lemma space_not_digit c : is_space c = true -> is_digit c = false.
Proof.
  intro H. destruct (is_digit c) eqn:D; auto. exfalso. unfold is_digit in D. destruct (digit_val c) as [v|] eqn:E; [|discriminate].
  assert (K : forallb (fun c => negb (match digit_val c with Some _ => true | None => false end))
    [9;10;11;12;13;28;29;30;31;32;133;160;5760;8192;8193;8194;8195;8196;8197;8198;8199;8200;8201;8202;8232;8233;8239;8287;12288]%N = true)
    by (vm_compute; reflexivity).
  rewrite forallb_forall in K. specialize (K c). rewrite E in K. enough (I : false = true) by discriminate. apply K.
  unfold is_space in H. rewrite !orb_true_iff, !andb_true_iff, !N.leb_le, !N.eqb_eq in H.
  clear K E D. 
  assert (B : (9 <= c <= 13 \/ 28 <= c <= 32 \/ c = 133 \/ c = 160 \/ c = 5760 \/ 8192 <= c <= 8202 \/ c = 8232 \/ c = 8233 \/ c = 8239 \/ c = 8287 \/ c = 12288)%N) by tauto.
  clear H. cbn [In]. lia.
Qed.
Fixpoint shape_rx (sh : pystr) : prx :=
  match sh with [] => PEps | x :: sh' => PCat (PSet (fun c => if N.eqb x #"0" then is_digit c else N.eqb x c)) (shape_rx sh') end.
Lemma shape_rx_pm sh w g k : pm (shape_rx sh) w g k = if begins_like sh w then k (skipn (List.length sh) w) g else None.
Proof.
  revert w; induction sh as [|x sh IH]; intro w; cbn [shape_rx pm begins_like List.length skipn]; auto.
  destruct w as [|c w]; auto. destruct (if N.eqb x #"0" then is_digit c else N.eqb x c); cbn [andb]; auto.
Qed.
Lemma shape_pm w g k :
  pm (pcats [pexact 4 is_digit; plit $"-"; pexact 2 is_digit; plit $"-"; pexact 2 is_digit;
         plit $"T"; pexact 2 is_digit; plit $":"; pexact 2 is_digit; plit $":"; pexact 2 is_digit; plit $"Z"]) w g k
  = if begins_like stamp_shape w then k (skipn 20 w) g else None.
Proof. rewrite <- (shape_rx_pm stamp_shape). reflexivity. Qed.
Lemma date_re_eq s : re_match_rest date_re (colon s) = if begins_like stamp_shape (lstrip s) then Some (skipn 20 (lstrip s), []) else None.
Proof.
  unfold re_match_rest, date_re. rewrite pcats_cons, colon_pm, pcats_cons, star_space.
  - rewrite shape_pm. reflexivity.
  - intros c t g' H. rewrite shape_pm. cbn [begins_like stamp_shape lit map list_ascii_of_string].
    unfold stamp_shape. cbn [lit map list_ascii_of_string begins_like]. change (N.eqb (N_of_ascii "0") #"0") with true. cbv iota.
    rewrite (space_not_digit c H). reflexivity.
Qed.

(** ** Which rule applies *)
Lemma startswith_split p q s : startswith (p ++ q) s = startswith p s && startswith q (skipn (List.length p) s).
Proof.
  revert s; induction p as [|x p IH]; intro s; cbn [app startswith List.length skipn]; auto.
  destruct s as [|c s]; auto. rewrite IH, andb_assoc. reflexivity.
Qed.
(** no special meaning at the start of w *)
Definition plain_start (w : pystr) : bool := negb (existsb (fun p => startswith p w) special_prefixes || begins_like stamp_shape w).
Lemma plain_prefix w p : plain_start w = true -> In p special_prefixes -> startswith p w = false.
Proof.
  intros H I. unfold plain_start in H. apply negb_true_iff, orb_false_iff in H as [H _].
  destruct (startswith p w) eqn:E; auto. rewrite <- H. symmetry. apply existsb_exists. eauto.
Qed.
Ltac pick := cbn [special_prefixes In]; unfold special_prefixes; cbn [In]; repeat (first [left; reflexivity|right]).
Lemma no_alg_tail a w g k : startswith (a ++ $":") w = false ->
  pm (plit a) w g (fun s' g' => pm checksum_tail s' g' k) = None.
Proof.
  rewrite startswith_split, pm_plit. destruct (startswith a w); cbn [andb]; auto. intro H.
  unfold checksum_tail. rewrite pcats_cons, pm_pcat, pm_plit, H. reflexivity.
Qed.
Lemma palts_none l s g k : Forall (fun a => pm a s g k = None) l -> pm (palts l) s g k = None.
Proof.
  induction l as [|a l IH]; intro H; [destruct s; reflexivity|]. inversion H as [|? ? H1 H2]; subst.
  destruct l as [|b l]; [exact H1|]. change (palts (a :: b :: l)) with (PAlt a (palts (b :: l))). cbn [pm]. rewrite H1. apply IH. exact H2.
Qed.
Lemma checksum_none s : (forall a, In a lex_algorithms -> startswith (a ++ $":") (lstrip s) = false) ->
  matched checksum_re (colon s) = None.
Proof.
  intro H. apply matched_none. rewrite checksum_re_eq. apply palts_none. apply Forall_map, Forall_forall. intros a Ha.
  apply no_alg_tail. auto.
Qed.
Lemma alg_special a : In a lex_algorithms -> In (a ++ $":") special_prefixes.
Proof.
  intro H. unfold lex_algorithms in H. cbn [In] in H. repeat (destruct H as [<-|H]; [pick|]). destruct H.
Qed.
Lemma text_none s : startswith $"<text>" (lstrip s) = false -> matched text_re (colon s) = None.
Proof. intro H. apply matched_none. rewrite text_re_eq, H. reflexivity. Qed.
Lemma date_none s : begins_like stamp_shape (lstrip s) = false -> matched date_re (colon s) = None.
Proof. intro H. apply matched_none. rewrite date_re_eq, H. reflexivity. Qed.
Definition solid (p : pystr) : bool := match p with x :: _ => negb (is_space x) | [] => false end.
Lemma actor_none p s : solid p = true -> startswith p (lstrip s) = false -> matched (actor_re p) (colon s) = None.
Proof. destruct p as [|x p]; [discriminate|]. intros Hx H. apply negb_true_iff in Hx. apply matched_none. rewrite actor_re_eq, H; auto. Qed.
Lemma keyword_none c s : is_alpha c = false -> matched keyword_re (c :: s) = None.
Proof. intro H. apply matched_none. unfold re_match_rest, keyword_re, pplus. cbn [pm]. rewrite H. reflexivity. Qed.
(** the rule for lines *)
Definition line_rest (r : pystr) : Prop := r = [] \/ exists r', r = LF :: r'.
Lemma dropwhile_not_lf v r : ~ In LF v -> line_rest r -> dropwhile not_lf (v ++ r) = r.
Proof.
  intros Hv Hr. rewrite dropwhile_app.
  - destruct Hr as [->|(r' & ->)]; reflexivity.
  - apply forallb_forall. intros c Hc. unfold not_lf. apply negb_true_iff, N.eqb_neq. intros ->. contradiction.
Qed.
Lemma line_matched v r : v <> [] -> ~ In LF v -> line_rest r -> matched line_re (colon (v ++ r)) = Some (colon v).
Proof.
  intros Hn Hv Hr. destruct v as [|c v]; [congruence|]. apply matched_some with (b := r) (g := []); [|reflexivity].
  unfold re_match_rest, line_re. rewrite pcats_cons, colon_pm. cbn [pcats pplus app pm].
  assert (Hc : not_lf c = true) by (unfold not_lf; apply negb_true_iff, N.eqb_neq; intros ->; apply Hv; left; reflexivity).
  rewrite Hc. apply star_bt_greedy. rewrite dropwhile_not_lf; auto. intro K. apply Hv. right. exact K.
Qed.
Lemma line_step u r : plain_start (lstrip (u ++ r)) = true -> u <> [] -> ~ In LF u -> line_rest r ->
  lex_step LInitial (colon (u ++ r)) =
  (Some {| tk_type := match reserved (strip u) with Some t => t | None => TT_LINE end; tk_value := strip u |}, S (List.length u), LInitial, 0%N).
Proof.
  intros Hp Hn Hv Hr. cbn [lex_step]. unfold initial_rules. cbn [first_rule].
  rewrite text_none by (apply plain_prefix; auto; pick).
  rewrite checksum_none by (intros a Ha; apply plain_prefix; auto; apply alg_special; auto).
  rewrite !actor_none by (try reflexivity; apply plain_prefix; auto; pick).
  rewrite date_none by (unfold plain_start in Hp; apply negb_true_iff, orb_false_iff in Hp as [_ Hp]; exact Hp).
  unfold colon at 1. rewrite keyword_none by reflexivity. fold (colon (u ++ r)). rewrite line_matched by auto. reflexivity.
Qed.
(** a value that is a line *)
Lemma startswith_app_stop p v c r : ~ In c p -> startswith p (v ++ c :: r) = startswith p v.
Proof.
  revert v; induction p as [|x p IH]; intros [|y v] H; cbn [startswith app]; auto.
  - destruct (N.eqb_spec x c); [exfalso; apply H; left; auto|reflexivity].
  - rewrite IH; auto. intro K. apply H. right. exact K.
Qed.
Lemma begins_like_stop sh v c r : is_digit c = false -> ~ In c sh -> begins_like sh (v ++ c :: r) = begins_like sh v.
Proof.
  intro D. revert v; induction sh as [|x sh IH]; intros [|y v] H; cbn [begins_like app]; auto.
  - destruct (N.eqb x #"0"); [rewrite D; reflexivity|]. destruct (N.eqb_spec x c); [exfalso; apply H; left; auto|reflexivity].
  - rewrite IH; auto. intro K. apply H. right. exact K.
Qed.
Lemma plain_stop v c r : is_space c = true -> plain_start (v ++ c :: r) = plain_start v.
Proof.
  intro H. unfold plain_start. f_equal. f_equal.
  - assert (K : Forall (fun p => ~ In c p) special_prefixes).
    { assert (K : forallb (forallb (fun c => negb (is_space c))) special_prefixes = true) by (vm_compute; reflexivity).
      apply Forall_forall. intros p Hp Hc. rewrite forallb_forall in K. specialize (K p Hp). rewrite forallb_forall in K.
      specialize (K c Hc). rewrite H in K. discriminate. }
    induction K as [|p l Hp K IH]; cbn [existsb]; auto. rewrite IH, startswith_app_stop; auto.
  - apply begins_like_stop; [apply space_not_digit; auto|].
    assert (K : forallb (fun c => negb (is_space c)) stamp_shape = true) by (vm_compute; reflexivity).
    intro Hc. rewrite forallb_forall in K. specialize (K c Hc). rewrite H in K. discriminate.
Qed.
Lemma special_plain v : special v = false -> plain_start v = true /\ reserved v = None.
Proof.
  unfold special. rewrite !orb_false_iff. intros [[H1 H2] H3]. split.
  - unfold plain_start. rewrite H2, H3. reflexivity.
  - apply str_in_false in H1. unfold reserved.
    destruct (str_eqb v $"NOASSERTION") eqn:E; [exfalso; apply H1; apply str_eqb_eq in E; subst; apply str_in_In; vm_compute; reflexivity|].
    destruct (str_eqb v $"NONE") eqn:E2; [exfalso; apply H1; apply str_eqb_eq in E2; subst; apply str_in_In; vm_compute; reflexivity|].
    unfold enum_lookup. destruct (find _ tag_all) as [t|] eqn:F; auto. exfalso. apply find_some in F as [_ F]. apply str_eqb_eq in F.
    apply H1. apply str_in_In. destruct t; cbn [tag_name] in F; subst v; vm_compute; reflexivity.
Qed.

(** ** What follows a line *)
Definition Head (w : pystr) : Prop := w = [] \/ (exists u, w = #"#" :: u) \/ (exists t u, w = tag_name t ++ $": " ++ u) \/ exists x u, UnknownTag x /\ w = x ++ $": " ++ u.
(** line feeds, then the end, a comment or a tag *)
Definition Calm (s : pystr) : Prop := exists n w, s = repeat LF n ++ w /\ Head w.

Lemma tag_name_head t : exists c u, tag_name t = c :: u /\ is_alpha c = true /\ is_space c = false /\ c <> LF.
Proof. destruct t; cbn [tag_name]; eexists; eexists; (split; [reflexivity|]); (split; [reflexivity|]); split; try reflexivity; discriminate. Qed.
Lemma tag_name_alpha t : forallb is_alpha (tag_name t) = true.
Proof. destruct t; reflexivity. Qed.
Lemma tag_name_reserved t : reserved (tag_name t) = Some (TT_TAG t).
Proof. destruct t; reflexivity. Qed.
Lemma tag_name_strip t : strip (tag_name t) = tag_name t.
Proof. destruct t; reflexivity. Qed.
Lemma alpha_not_space c : is_alpha c = true -> is_space c = false.
Proof.
  intro H. destruct (is_space c) eqn:E; [|reflexivity]. exfalso. unfold is_space, is_alpha, is_upper, is_lower in *. rewrite ?orb_true_iff, ?andb_true_iff, ?N.leb_le, ?N.eqb_eq in *. lia.
Qed.
Lemma alpha_not_digit c : is_alpha c = true -> is_digit c = false.
Proof.
  intro H. unfold is_alpha, is_upper, is_lower in H. rewrite ?orb_true_iff, ?andb_true_iff, ?N.leb_le in H. unfold is_digit, digit_val.
  assert (D : is_digit09 c = false) by (destruct (is_digit09 c) eqn:D; [|reflexivity]; unfold is_digit09 in D; rewrite andb_true_iff, !N.leb_le in D; lia). rewrite D.
  destruct (find _ UniTables.nd_starts) as [z|] eqn:F; [|reflexivity]. exfalso. apply find_some in F as [I F]. rewrite andb_true_iff, !N.leb_le in F.
  assert (K : forallb (fun z => 123 <=? z)%N UniTables.nd_starts = true) by (vm_compute; reflexivity). rewrite forallb_forall in K. specialize (K z I). apply N.leb_le in K. lia.
Qed.
Lemma unknown_head x : UnknownTag x -> exists c u, x = c :: u /\ is_alpha c = true /\ is_space c = false /\ c <> #":".
Proof.
  intros (N & A & _). destruct x as [|c u]; [congruence|]. exists c, u. cbn [forallb] in A. apply andb_true_iff in A as [A _]. split; [reflexivity|]. split; [exact A|]. split; [apply alpha_not_space; exact A|].
  intros ->. discriminate A.
Qed.
Lemma head_not_space w : Head w -> forall c u, w = c :: u -> is_space c = false.
Proof.
  intros [->|[(u & ->)|[(t & u & ->)|(x & u & U & ->)]]] c v E; [discriminate|injection E as <- _; reflexivity| |].
  - destruct (tag_name_head t) as (x & y & K & _ & H & _). rewrite K in E. injection E as <- _. exact H.
  - destruct (unknown_head x U) as (z & y & K & _ & H & _). rewrite K in E. injection E as <- _. exact H.
Qed.
Lemma lstrip_repeat n w : lstrip (repeat LF n ++ w) = lstrip w.
Proof. unfold lstrip. apply dropwhile_app. induction n; auto. Qed.
Lemma calm_lstrip s : Calm s -> Head (lstrip s).
Proof.
  intros (n & w & -> & H). rewrite lstrip_repeat, lstrip_id; auto. exact (head_not_space w H).
Qed.
Lemma calm_LF s : Calm s -> Calm (LF :: s).
Proof. intros (n & w & -> & H). exists (S n), w. auto. Qed.
Lemma calm_head w : Head w -> Calm w.
Proof. intro H. exists 0, w. auto. Qed.
Lemma word_prefix a : forall w x r u, forallb is_alpha a = true -> forallb is_alpha w = true -> is_alpha x = false -> startswith (a ++ x :: r) (w ++ #":" :: u) = true -> a = w /\ x = #":".
Proof.
  induction a as [|y a IH]; intros [|z w] x r u Ha Hw Hx H; cbn [app startswith forallb] in *; try (apply andb_true_iff in Ha as [Ha1 Ha2]); try (apply andb_true_iff in Hw as [Hw1 Hw2]); apply andb_true_iff in H as [H1 H2]; apply N.eqb_eq in H1; subst.
  - auto.
  - congruence.
  - discriminate Ha1.
  - destruct (IH w x r u Ha2 Hw2 Hx H2) as [-> ->]. auto.
Qed.
Lemma unknown_plain x u : UnknownTag x -> plain_start (x ++ $": " ++ u) = true.
Proof.
  intro U. pose proof U as (N & A & _ & T). unfold plain_start. apply negb_true_iff, orb_false_iff. split.
  - destruct (existsb _ special_prefixes) eqn:E; [|reflexivity]. exfalso. apply existsb_exists in E as (p & I & E).
    assert (K : exists a y r, p = a ++ y :: r /\ forallb is_alpha a = true /\ is_alpha y = false /\ (y = #":" -> In a [$"Tool"; $"Organization"; $"Person"])).
    { assert (G : forallb (fun p => match dropwhile is_alpha p with y :: _ => negb (N.eqb y #":") || str_in (takewhile is_alpha p) [$"Tool"; $"Organization"; $"Person"] | [] => false end) special_prefixes = true) by (vm_compute; reflexivity).
      rewrite forallb_forall in G. specialize (G p I). destruct (dropwhile is_alpha p) as [|y r] eqn:D; [discriminate|].
      exists (takewhile is_alpha p), y, r. rewrite <- D. split; [apply takewhile_dropwhile|]. split; [apply takewhile_all|]. split; [apply (dropwhile_head is_alpha p y r D)|].
      intros ->. cbn [negb orb N.eqb] in G. rewrite N.eqb_refl in G. cbn [negb orb] in G. apply str_in_In. exact G. }
    destruct K as (a & y & r & -> & Ka & Ky & Kt). apply word_prefix in E as [-> ->]; auto.
  - destruct (unknown_head x U) as (c & v & -> & H & _). unfold stamp_shape. cbn [app]. destruct (begins_like _ _) eqn:E; [|reflexivity]. exfalso.
    cbn in E. apply andb_true_iff in E as [E _]. rewrite (alpha_not_digit c H) in E. discriminate E.
Qed.
Lemma head_plain w : Head w -> plain_start w = true.
Proof.
  intros [->|[(u & ->)|[(t & u & ->)|(x & u & U & ->)]]]; [| | |apply unknown_plain; exact U].
  - reflexivity.
  - change (#"#" :: u) with ([#"#"] ++ u). lazy; reflexivity.
  - destruct t; cbn [tag_name]; lazy; reflexivity.
Qed.

(** ** Simple steps *)
Lemma not_colon r c s : c <> #":" -> matched (pcats (plit $":" :: r)) (c :: s) = None.
Proof.
  intro H. apply matched_none. unfold re_match_rest. destruct r as [|x r].
  - cbn [pcats]. rewrite pm_plit. change $":" with [#":"]. cbn [startswith]. destruct (N.eqb_spec #":" c); [congruence|reflexivity].
  - rewrite pcats_cons, pm_pcat, pm_plit. change $":" with [#":"]. cbn [startswith]. destruct (N.eqb_spec #":" c); [congruence|reflexivity].
Qed.
Lemma skip_colon_rules c s : c <> #":" ->
  lex_step LInitial (c :: s) =
  match matched keyword_re (c :: s) with
  | Some m => emit (match reserved m with Some t => t | None => TT_UNKNOWN_TAG end) (strip m) m
  | None => first_rule (skipn 7 initial_rules) (c :: s)
  end.
Proof.
  intro H. cbn [lex_step]. unfold initial_rules. cbn [first_rule skipn]. unfold text_re, checksum_re, actor_re, date_re.
  rewrite !not_colon by exact H. reflexivity.
Qed.
Lemma keyword_matched a u : a <> [] -> forallb is_alpha a = true -> (forall c v, u = c :: v -> is_alpha c = false) ->
  matched keyword_re (a ++ u) = Some a.
Proof.
  intros Ha Hf Hu. apply matched_some with (b := u) (g := []); auto. destruct a as [|c a]; [congruence|].
  cbn [forallb] in Hf. apply andb_true_iff in Hf as [Hc Hf]. unfold re_match_rest, keyword_re, pplus. cbn [app pm]. rewrite Hc.
  apply star_bt_greedy. rewrite dropwhile_app, dropwhile_id; auto.
Qed.
Lemma tag_step t u : lex_step LInitial (tag_name t ++ $": " ++ u) =
  (Some {| tk_type := TT_TAG t; tk_value := tag_name t |}, List.length (tag_name t), LInitial, 0%N).
Proof.
  destruct (tag_name_head t) as (c & v & E & Ha & _).
  assert (M : matched keyword_re (tag_name t ++ $": " ++ u) = Some (tag_name t)).
  { apply keyword_matched; [rewrite E; discriminate|apply tag_name_alpha|]. intros x y K. injection K as <- _. reflexivity. }
  rewrite E in *. cbn [app] in *. rewrite skip_colon_rules by (intros ->; discriminate). rewrite M. unfold emit.
  rewrite <- E, tag_name_reserved, tag_name_strip, E. reflexivity.
Qed.
Lemma unknown_step x u : UnknownTag x -> lex_step LInitial (x ++ $": " ++ u) =
  (Some {| tk_type := TT_UNKNOWN_TAG; tk_value := x |}, List.length x, LInitial, 0%N).
Proof.
  intro U. destruct (unknown_head x U) as (c & v & E & Ha & _ & Hc). pose proof U as (N & A & F & _).
  assert (M : matched keyword_re (x ++ $": " ++ u) = Some x).
  { apply keyword_matched; [exact N|exact A|]. intros y z K. injection K as <- _. reflexivity. }
  assert (R : reserved x = None).
  { unfold reserved.
    destruct (str_eqb x $"NOASSERTION") eqn:E1; [exfalso; apply F; apply str_eqb_eq in E1; rewrite E1; apply str_in_In; vm_compute; reflexivity|].
    destruct (str_eqb x $"NONE") eqn:E2; [exfalso; apply F; apply str_eqb_eq in E2; rewrite E2; apply str_in_In; vm_compute; reflexivity|].
    unfold enum_lookup. destruct (find _ tag_all) as [t|] eqn:G; auto. exfalso. apply find_some in G as [_ G]. apply str_eqb_eq in G.
    apply F. apply str_in_In. rewrite <- G. destruct t; vm_compute; reflexivity. }
  assert (S : strip x = x).
  { rewrite forallb_forall in A. apply strip_id. split; intros y z K; apply alpha_not_space, A; rewrite K; [left; reflexivity|apply in_app_iff; right; left; reflexivity]. }
  rewrite E in *. cbn [app] in *. rewrite skip_colon_rules by exact Hc. rewrite M. unfold emit. rewrite R, S. reflexivity.
Qed.
Lemma toks_tag t u : toks LInitial (tag_name t ++ $": " ++ u) = {| tk_type := TT_TAG t; tk_value := tag_name t |} :: toks LInitial (colon (#" " :: u)).
Proof.
  pose proof (tag_step t u) as M. destruct (tag_name_head t) as (c & v & E & Ha & _).
  rewrite (toks_step _ _ (Some {| tk_type := TT_TAG t; tk_value := tag_name t |}) (List.length v) LInitial 0%N).
  - f_equal. replace (S (List.length v)) with (List.length (tag_name t)) by (rewrite E; reflexivity).
    rewrite skipn_app, Nat.sub_diag, skipn_all. reflexivity.
  - rewrite E. discriminate.
  - rewrite M, E. reflexivity.
Qed.
Lemma LF_step n w : (forall c u, w = c :: u -> c <> LF) -> lex_step LInitial (repeat LF (S n) ++ w) = (None, S n, LInitial, N.of_nat (S n)).
Proof.
  intro H. assert (M : matched newline_re (repeat LF (S n) ++ w) = Some (repeat LF (S n))).
  { apply matched_some with (b := w) (g := []); auto. unfold re_match_rest, newline_re, pplus. cbn [repeat app pm].
    rewrite N.eqb_refl. apply star_bt_greedy. rewrite dropwhile_app, dropwhile_id; auto.
    - intros c u E. apply N.eqb_neq. intro K. apply (H c u E). auto.
    - induction n; auto. }
  cbn [repeat app]. rewrite skip_colon_rules by discriminate. rewrite keyword_none by reflexivity. cbn [skipn initial_rules first_rule].
  unfold initial_rules. cbn [skipn first_rule].
  unfold line_re. rewrite not_colon by discriminate.
  replace (matched comment_re (LF :: repeat LF n ++ w)) with (@None pystr) by reflexivity.
  cbn [repeat app] in M. rewrite M. cbn [List.length]. rewrite repeat_length. reflexivity.
Qed.
Lemma toks_LF n w : (forall c u, w = c :: u -> c <> LF) -> toks LInitial (repeat LF n ++ w) = toks LInitial w.
Proof.
  intro H. destruct n as [|n]; auto. rewrite (toks_step _ _ None n LInitial (N.of_nat (S n))).
  - cbn [app]. rewrite skipn_app, skipn_all2, repeat_length, Nat.sub_diag by (rewrite repeat_length; auto). reflexivity.
  - discriminate.
  - apply LF_step. exact H.
Qed.
Lemma head_not_LF w : Head w -> forall c u, w = c :: u -> c <> LF.
Proof. intros H c u E ->. apply (head_not_space w H) in E. discriminate. Qed.
Lemma toks_calm s : Calm s -> toks LInitial s = toks LInitial (lstrip s).
Proof.
  intro C. pose proof C as (n & w & -> & H). rewrite lstrip_repeat, (lstrip_id w) by (exact (head_not_space w H)).
  apply toks_LF. exact (head_not_LF w H).
Qed.
Lemma comment_step u s : ~ In LF u -> lex_step LInitial (#"#" :: u ++ LF :: s) = (None, S (List.length u), LInitial, 0%N).
Proof.
  intros Hu. assert (M : matched comment_re (#"#" :: u ++ LF :: s) = Some (#"#" :: u)).
  { apply matched_some with (b := LF :: s) (g := []); auto. unfold re_match_rest, comment_re. rewrite pcats_cons, pm_pcat, pm_plit.
    change (startswith $"#" (#"#" :: u ++ LF :: s)) with true. cbv iota. change (List.length $"#") with 1. cbn [skipn pcats pm].
    apply star_bt_greedy. rewrite dropwhile_not_lf; auto. right. eauto. }
  rewrite skip_colon_rules by discriminate. rewrite keyword_none by reflexivity.
  unfold initial_rules. cbn [skipn first_rule]. unfold line_re. rewrite not_colon by discriminate. rewrite M. reflexivity.
Qed.
Lemma toks_comment u s : ~ In LF u -> Calm s -> toks LInitial (#"#" :: u ++ LF :: s) = toks LInitial s.
Proof.
  intros Hu Hs. rewrite (toks_step _ _ None (List.length u) LInitial 0%N).
  - cbn [app skipn]. rewrite skipn_app, skipn_all, Nat.sub_diag. cbn [app skipn].
    rewrite (toks_calm (LF :: s)), (toks_calm s); auto. apply calm_LF; auto.
  - discriminate.
  - apply comment_step. exact Hu.
Qed.

(** ** Values *)
(** the value [v] of a tag is read as the token [k] *)
Definition ValTok (v : pystr) (k : token) : Prop :=
  forall s, Calm s -> toks LInitial (colon (#" " :: v ++ LF :: s)) = k :: toks LInitial s.

Lemma skipn_len_app {A} (a b : list A) : skipn (List.length a) (a ++ b) = b.
Proof. rewrite skipn_app, skipn_all, Nat.sub_diag. reflexivity. Qed.
Lemma val_of_step v k s dl : lex_step LInitial (colon (#" " :: v ++ LF :: s)) = (Some k, S (S (List.length v)), LInitial, dl) -> Calm s ->
  toks LInitial (colon (#" " :: v ++ LF :: s)) = k :: toks LInitial s.
Proof.
  intros H C. assert (Hn : colon (#" " :: v ++ LF :: s) <> []) by (unfold colon; discriminate).
  rewrite (toks_step _ _ _ _ _ _ Hn H). cbn [app]. f_equal. unfold colon. cbn [skipn].
  rewrite skipn_len_app, toks_calm by (apply calm_LF; auto). rewrite (toks_calm s C). reflexivity.
Qed.
(** ... in one step, without any line feed *)
Definition ValStep (v : pystr) (k : token) : Prop := ~ In LF v /\
  forall s, Calm s -> lex_step LInitial (colon (#" " :: v ++ LF :: s)) = (Some k, S (S (List.length v)), LInitial, 0%N).
Lemma step_val v k : ValStep v k -> ValTok v k.
Proof. intros [_ H] s C. apply val_of_step with (dl := 0%N); auto. Qed.
Lemma lstrip_value v r : stripped v -> v <> [] -> lstrip (#" " :: v ++ r) = v ++ r.
Proof.
  intros [H _] Hn. unfold lstrip. cbn [dropwhile]. change (is_space #" ") with true. cbv iota.
  destruct v as [|c v]; [congruence|]. apply lstrip_id. cbn [app]. intros x y E. injection E as -> _. eapply H; reflexivity.
Qed.
Lemma stripped_space v : stripped v -> strip (#" " :: v) = v.
Proof.
  intro H. unfold strip, lstrip. cbn [dropwhile]. change (is_space #" ") with true. cbv iota. change (dropwhile is_space v) with (lstrip v).
  apply strip_id. exact H.
Qed.
Lemma strip_eq_stripped v : strip v = v -> stripped v.
Proof. intros <-. apply strip_stripped. Qed.
Lemma ValStep_plain v t : ~ In LF v -> strip v = v -> plain_start v = true ->
  t = match reserved v with Some t => t | None => TT_LINE end -> ValStep v {| tk_type := t; tk_value := v |}.
Proof.
  intros Hl Hs Hp ->. split; [exact Hl|]. intros s C. apply strip_eq_stripped in Hs.
  change (#" " :: v ++ LF :: s) with ((#" " :: v) ++ LF :: s). rewrite line_step.
  - rewrite stripped_space by auto. reflexivity.
  - cbn [app]. destruct v as [|c v].
    + cbn [app]. unfold lstrip. cbn [dropwhile]. change (is_space #" ") with true. change (is_space LF) with true. cbv iota.
      apply head_plain. apply calm_lstrip. exact C.
    + rewrite lstrip_value by (auto; discriminate). rewrite plain_stop by reflexivity. exact Hp.
  - discriminate.
  - intros [K|K]; [discriminate|contradiction].
  - right. eauto.
Qed.
(** the name of a kind of actor alone *)
Lemma bare_step v s : In v [$"Tool:"; $"Organization:"; $"Person:"] ->
  lex_step LInitial (colon (#" " :: v ++ LF :: s)) = (Some {| tk_type := TT_LINE; tk_value := v |}, S (S (List.length v)), LInitial, 0%N).
Proof.
  intro H. cbn [lex_step]. unfold initial_rules. cbn [first_rule].
  assert (L : lstrip (#" " :: v ++ LF :: s) = v ++ LF :: s) by (repeat (destruct H as [<-|H]; [reflexivity|]); destruct H).
  rewrite text_none by (rewrite L; repeat (destruct H as [<-|H]; [reflexivity|]); destruct H).
  rewrite checksum_none by (intros a Ha; rewrite L; unfold lex_algorithms in Ha; cbn [In] in Ha; repeat (destruct H as [<-|H]; [repeat (destruct Ha as [<-|Ha]; [reflexivity|]); destruct Ha|]); destruct H).
  assert (A : forall p, In p [$"Tool:"; $"Organization:"; $"Person:"] -> matched (actor_re p) (colon (#" " :: v ++ LF :: s)) = None).
  { intros p Hp. assert (Sp : solid p = true) by (repeat (destruct Hp as [<-|Hp]; [reflexivity|]); destruct Hp). destruct p as [|x p]; [discriminate|].
    apply matched_none. rewrite actor_re_eq by (cbn in Sp; apply negb_true_iff; exact Sp). rewrite L.
    repeat (destruct H as [<-|H]; [repeat (destruct Hp as [Hp|Hp]; [injection Hp as <- <-; reflexivity|]); destruct Hp|]); destruct H. }
  rewrite !A by (cbn; auto). rewrite date_none by (rewrite L; repeat (destruct H as [<-|H]; [reflexivity|]); destruct H).
  assert (M : matched line_re (colon (#" " :: v ++ LF :: s)) = Some (colon (#" " :: v))).
  { apply (line_matched (#" " :: v) (LF :: s)); [discriminate|apply has_char_false; repeat (destruct H as [<-|H]; [reflexivity|]); destruct H|right; eauto]. }
  unfold colon at 1. rewrite keyword_none by reflexivity. fold (colon (#" " :: v ++ LF :: s)). rewrite M.
  repeat (destruct H as [<-|H]; [reflexivity|]); destruct H.
Qed.
Lemma ValStep_line v : Line v -> ValStep v {| tk_type := TT_LINE; tk_value := v |}.
Proof.
  intros (H1 & _ & H2 & [H3|H3]). 2: { split; [exact H1|]. intros s C. apply bare_step. exact H3. }
  apply special_plain in H3 as [H3 H4]. apply ValStep_plain; auto. rewrite H4. reflexivity.
Qed.
Lemma ValTok_line v : Line v -> ValTok v {| tk_type := TT_LINE; tk_value := v |}.
Proof. intro H. apply step_val, ValStep_line, H. Qed.
Lemma ValStep_noassertion : ValStep $"NOASSERTION" {| tk_type := TT_NO_ASSERTION; tk_value := $"NOASSERTION" |}.
Proof. apply ValStep_plain; try reflexivity. apply has_char_false. reflexivity. Qed.
Lemma ValStep_none : ValStep $"NONE" {| tk_type := TT_NONE; tk_value := $"NONE" |}.
Proof. apply ValStep_plain; try reflexivity. apply has_char_false. reflexivity. Qed.
Lemma ValTok_noassertion : ValTok $"NOASSERTION" {| tk_type := TT_NO_ASSERTION; tk_value := $"NOASSERTION" |}.
Proof. apply step_val, ValStep_noassertion. Qed.
Lemma ValTok_none : ValTok $"NONE" {| tk_type := TT_NONE; tk_value := $"NONE" |}.
Proof. apply step_val, ValStep_none. Qed.
