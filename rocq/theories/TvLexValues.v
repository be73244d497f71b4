(** How the lexer reads texts, actors, checksums and timestamps, and sequences of lines. *)
From Verif Require Import Py PyFacts PyRe PyReFacts Data Basics ValidationSpec BasicsSpec BasicsFacts ActorFacts DateFacts StampFacts
  JsonSpec TvWriter TvLexer TvSpec TvTokSpec TvLexFacts.

(** ** Texts *)
Lemma end_later c v r : startswith $"</text>" (c :: v ++ $"</text>" ++ r) = startswith $"</text>" (c :: v).
Proof.
  change $"</text>" with (#"<" :: $"/text>"). cbn [startswith app]. rewrite startswith_app_stop; auto.
  apply has_char_false. reflexivity.
Qed.
Lemma text_end_no c s : startswith $"</text>" (c :: s) = false -> matched text_end_re (c :: s) = None.
Proof. intro H. apply matched_none. unfold re_match_rest, text_end_re. rewrite pcats_cons, pm_pcat, pm_plit, H. reflexivity. Qed.
Lemma text_end_yes r : matched text_end_re ($"</text>" ++ r) = Some ($"</text>" ++ takewhile is_space r).
Proof.
  apply matched_some with (b := lstrip r) (g := []).
  - unfold re_match_rest, text_end_re. rewrite pcats_cons, pm_pcat, pm_plit, startswith_app. cbn [pcats pm].
    rewrite skipn_len_app. apply star_bt_greedy. reflexivity.
  - rewrite <- app_assoc. f_equal. apply takewhile_dropwhile.
Qed.
Lemma text_scan v : forall read r, contains $"</text>" v = false ->
  toks (LText read) (v ++ $"</text>" ++ r) =
  {| tk_type := TT_TEXT; tk_value := strip (read ++ v ++ $"</text>" ++ takewhile is_space r) |} :: toks LInitial (lstrip r).
Proof.
  induction v as [|c v IH]; intros read r H.
  - cbn [app]. pose proof (text_end_yes r) as M.
    rewrite (toks_step _ _ (Some {| tk_type := TT_TEXT; tk_value := strip (read ++ $"</text>" ++ takewhile is_space r) |})
               (6 + List.length (takewhile is_space r)) LInitial (count_lf (read ++ $"</text>" ++ takewhile is_space r))).
    + cbn [app]. f_equal. change (S (6 + List.length (takewhile is_space r))) with (List.length ($"</text>" ++ takewhile is_space r)).
      rewrite (takewhile_dropwhile is_space r) at 2. rewrite app_assoc, skipn_len_app. reflexivity.
    + discriminate.
    + cbn [lex_step]. unfold text_step. rewrite M. reflexivity.
  - cbn [contains] in H. apply orb_false_iff in H as [H1 H2]. cbn [app].
    rewrite (toks_step _ _ None 0 (LText (read ++ [c])) 0%N).
    + cbn [app skipn]. rewrite IH by exact H2. rewrite <- app_assoc. reflexivity.
    + discriminate.
    + cbn [lex_step]. unfold text_step. rewrite text_end_no by (rewrite end_later; exact H1). reflexivity.
Qed.
Lemma strip_trailing a w : stripped a -> forallb is_space w = true -> a <> [] -> strip (a ++ w) = a.
Proof.
  intros [H1 H2] Hw Hn. unfold strip. rewrite lstrip_id.
  - unfold rstrip. rewrite rev_app_distr, dropwhile_app.
    + change (rstrip a = a). apply rstrip_id. exact H2.
    + apply forallb_forall. intros c Hc. apply in_rev in Hc. rewrite forallb_forall in Hw. auto.
  - destruct a as [|x a]; [congruence|]. cbn [app]. intros c s' E. injection E as -> _. eapply H1; reflexivity.
Qed.
Lemma text_stripped v : stripped ($"<text>" ++ v ++ $"</text>").
Proof.
  split.
  - intros c s' E. change ($"<text>" ++ v ++ $"</text>") with (#"<" :: $"text>" ++ v ++ $"</text>") in E. injection E as <- _. reflexivity.
  - intros c s' E. change $"</text>" with ($"</text" ++ [#">"]) in E. rewrite !app_assoc in E. apply app_inj_tail in E as [_ <-]. reflexivity.
Qed.
Lemma ValTok_text v : contains $"</text>" v = false ->
  ValTok ($"<text>" ++ v ++ $"</text>") {| tk_type := TT_TEXT; tk_value := $"<text>" ++ v ++ $"</text>" |}.
Proof.
  intros H s C. rewrite <- !app_assoc.
  assert (E : re_match_rest text_re (colon (#" " :: $"<text>" ++ v ++ $"</text>" ++ LF :: s)) = Some (v ++ $"</text>" ++ LF :: s, [])).
  { rewrite text_re_eq. assert (L : lstrip (#" " :: $"<text>" ++ v ++ $"</text>" ++ LF :: s) = $"<text>" ++ v ++ $"</text>" ++ LF :: s) by reflexivity.
    rewrite L, startswith_app. reflexivity. }
  assert (M : matched text_re (colon (#" " :: $"<text>" ++ v ++ $"</text>" ++ LF :: s)) = Some (colon (#" " :: $"<text>"))).
  { eapply matched_some; [exact E|]. reflexivity. }
  rewrite (toks_step _ _ None 7 (LText $"<text>") 0%N).
  - cbn [app]. unfold colon. change (skipn 8 (#":" :: #" " :: $"<text>" ++ v ++ $"</text>" ++ LF :: s)) with (v ++ $"</text>" ++ LF :: s).
    rewrite text_scan by exact H. f_equal.
    + f_equal. rewrite (app_assoc v), (app_assoc $"<text>"). apply strip_trailing.
      * apply text_stripped.
      * apply takewhile_forallb.
      * discriminate.
    + rewrite (toks_calm s C). reflexivity.
  - unfold colon. discriminate.
  - cbn [lex_step]. unfold initial_rules. cbn [first_rule]. rewrite M. reflexivity.
Qed.

(** ** Actors *)
Lemma actor_matched p u s : solid p = true -> ~ In LF p -> u <> [] -> ~ In LF u ->
  matched (actor_re p) (colon (#" " :: (p ++ u) ++ LF :: s)) = Some (colon (#" " :: p ++ u)).
Proof.
  intros Hp Hl Hn Hu. apply matched_some with (b := LF :: s) (g := []); [|reflexivity].
  destruct p as [|x p]; [discriminate|]. cbn [solid] in Hp. apply negb_true_iff in Hp. rewrite actor_re_eq by exact Hp.
  assert (L : lstrip (#" " :: ((x :: p) ++ u) ++ LF :: s) = (x :: p) ++ u ++ LF :: s).
  { unfold lstrip. cbn [dropwhile]. change (is_space #" ") with true. cbv iota. cbn [app dropwhile]. rewrite Hp, <- app_assoc. reflexivity. }
  rewrite L, startswith_app, skipn_len_app. destruct u as [|c u]; [congruence|]. unfold pplus. cbn [app pm].
  assert (Hc : not_lf c = true) by (unfold not_lf; apply negb_true_iff, N.eqb_neq; intros ->; apply Hu; left; reflexivity).
  rewrite Hc. apply star_bt_greedy. rewrite dropwhile_not_lf; auto; [|right; eauto]. intro K. apply Hu. right. exact K.
Qed.
Definition actor_prefix (t : actor_type) : pystr :=
  match t with AT_TOOL => $"Tool:" | AT_PERSON => $"Person:" | AT_ORGANIZATION => $"Organization:" end.
Lemma ValStep_actor_str t u : u <> [] -> ~ In LF u -> stripped (actor_prefix t ++ u) ->
  ValStep (actor_prefix t ++ u) {| tk_type := actor_token t; tk_value := actor_prefix t ++ u |}.
Proof.
  intros Hn Hu Hs. split; [intro K; apply in_app_iff in K as [K|K]; [|contradiction]; revert K; apply has_char_false; destruct t; reflexivity|].
  intros s C. assert (Hne : actor_prefix t ++ u <> []) by (destruct t; discriminate).
  pose proof (lstrip_value (actor_prefix t ++ u) (LF :: s) Hs Hne) as L. rewrite <- app_assoc in L.
  assert (V : value_of (colon (#" " :: actor_prefix t ++ u)) = actor_prefix t ++ u) by (apply stripped_space; exact Hs).
  cbn [lex_step]. unfold initial_rules. cbn [first_rule].
  rewrite text_none by (rewrite <- app_assoc, L; destruct t; reflexivity).
  rewrite checksum_none.
  2:{ intros a Ha. rewrite <- app_assoc, L. unfold lex_algorithms in Ha. cbn [In] in Ha.
      destruct t; repeat (destruct Ha as [<-|Ha]; [reflexivity|]); destruct Ha. }
  assert (F : forall p, solid p = true -> startswith p (actor_prefix t ++ u ++ LF :: s) = false ->
    matched (actor_re p) (colon (#" " :: (actor_prefix t ++ u) ++ LF :: s)) = None).
  { intros p Hp Hq. apply actor_none; auto. rewrite <- app_assoc, L. exact Hq. }
  assert (M : matched (actor_re (actor_prefix t)) (colon (#" " :: (actor_prefix t ++ u) ++ LF :: s)) = Some (colon (#" " :: actor_prefix t ++ u))).
  { apply actor_matched; auto; [destruct t; reflexivity|]. apply has_char_false. destruct t; reflexivity. }
  destruct t; cbn [actor_prefix actor_token] in *; rewrite ?F by reflexivity; rewrite M; unfold emit; rewrite V; reflexivity.
Qed.
Lemma readable_tail a : ReadableActor a -> exists u, actor_str a = actor_prefix (ac_type a) ++ u /\ u <> [] /\ ~ In LF u /\ stripped (actor_str a).
Proof.
  intros (Hn & [Ht1 Ht2] & Hl & He). rewrite actor_str_prefix. eexists. split; [reflexivity|]. split; [discriminate|].
  set (m := match ac_email a with Some ((_ :: _) as e) => $" (" ++ e ++ $")" | _ => [] end).
  assert (Hm : ~ In LF m /\ forall c s', m = s' ++ [c] -> is_space c = false).
  { unfold m. destruct (ac_email a) as [[|c e]|] eqn:Ee; try (split; [intros []|intros c' s' E; destruct s'; discriminate]).
    assert (Hel : ~ In LF (c :: e)) by (destruct (ac_type a); [tauto| |discriminate]; tauto || (destruct He as (_ & _ & K & _); exact K)).
    split.
    - rewrite !in_app_iff. intros [K|[K|K]]; [|contradiction|]; revert K; apply has_char_false; reflexivity.
    - intros x s' E. change $")" with [#")"] in E. rewrite app_assoc in E. apply app_inj_tail in E as [_ <-]. reflexivity. }
  destruct Hm as [Hm1 Hm2]. split.
  - intros [K|K]; [discriminate|]. apply in_app_iff in K as [K|K]; auto.
  - split.
    + intros c s' E. destruct (ac_type a); injection E as <- _; reflexivity.
    + intros c s' E. destruct m as [|y m'] eqn:Em.
      * rewrite app_nil_r in E. destruct (exists_last Hn) as (n' & x & En). rewrite En in E.
        rewrite app_comm_cons, app_assoc in E. apply app_inj_tail in E as [_ <-]. eapply Ht2. exact En.
      * destruct (@exists_last _ (y :: m') ltac:(discriminate)) as (m2 & x & Ex). rewrite Ex in E.
        rewrite app_comm_cons, !app_assoc in E. apply app_inj_tail in E as [_ <-]. eapply Hm2. exact Ex.
Qed.
Lemma ValStep_actor a : ReadableActor a -> ValStep (actor_str a) {| tk_type := actor_token (ac_type a); tk_value := actor_str a |}.
Proof.
  intro H. destruct (readable_tail a H) as (u & E & H1 & H2 & H3). rewrite E in *. apply ValStep_actor_str; auto.
Qed.
Lemma ValTok_actor_str t u : u <> [] -> ~ In LF u -> stripped (actor_prefix t ++ u) ->
  ValTok (actor_prefix t ++ u) {| tk_type := actor_token t; tk_value := actor_prefix t ++ u |}.
Proof. intros. apply step_val, ValStep_actor_str; auto. Qed.
Lemma ValTok_actor a : ReadableActor a -> ValTok (actor_str a) {| tk_type := actor_token (ac_type a); tk_value := actor_str a |}.
Proof. intro H. apply step_val, ValStep_actor, H. Qed.

(** ** Checksums *)
Lemma alg_prefix_eq a b r : ~ In #":" a -> ~ In #":" b -> startswith (a ++ $":") (b ++ #":" :: r) = str_eqb a b.
Proof.
  revert b; induction a as [|x a IH]; intros [|y b] Ha Hb; cbn [app startswith str_eqb].
  - reflexivity.
  - change $":" with [#":"]. cbn [startswith]. destruct (N.eqb_spec #":" y); [exfalso; apply Hb; left; auto|reflexivity].
  - destruct (N.eqb_spec x #":"); [exfalso; apply Ha; left; auto|reflexivity].
  - rewrite IH; auto; intro K; [apply Ha|apply Hb]; right; exact K.
Qed.
Lemma palts_pick l a s g k r : In a l -> pm (plit a) s g k = Some r -> (forall b, In b l -> b <> a -> pm (plit b) s g k = None) ->
  pm (palts (map plit l)) s g k = Some r.
Proof.
  induction l as [|b l IH]; intros I Ha Hn; [destruct I|].
  assert (S : pm (plit b) s g k = Some r \/ (pm (plit b) s g k = None /\ In a l)).
  { destruct (str_dec b a) as [->|N]; auto. right. split; [apply Hn; auto; left; auto|]. destruct I as [I|I]; [congruence|auto]. }
  destruct l as [|b' l].
  - destruct S as [S|[_ []]]. exact S.
  - change (palts (map plit (b :: b' :: l))) with (PAlt (plit b) (palts (map plit (b' :: l)))). cbn [pm].
    destruct S as [->|[-> I']]; [reflexivity|]. apply IH; auto. intros x Hx. apply Hn. right. exact Hx.
Qed.
Lemma alg_no_colon a : In a lex_algorithms -> ~ In #":" a.
Proof.
  intros H. apply has_char_false. unfold lex_algorithms in H. cbn [In] in H. repeat (destruct H as [<-|H]; [reflexivity|]). destruct H.
Qed.
Lemma lex_hex_hex c : lex_hex c = hex c.
Proof. reflexivity. Qed.
Lemma hex_not_space c : hex c = true -> is_space c = false.
Proof.
  unfold hex, is_space. intro H. rewrite orb_true_iff, !andb_true_iff, !N.leb_le in H.
  rewrite !orb_false_iff, !andb_false_iff, !N.leb_gt, !N.eqb_neq. lia.
Qed.
Lemma checksum_matched a h s : In a lex_algorithms -> Hex h ->
  matched checksum_re (colon (#" " :: (a ++ $": " ++ h) ++ LF :: s)) = Some (colon (#" " :: a ++ $": " ++ h)).
Proof.
  intros Ha [Hn Hh]. apply matched_some with (b := LF :: s) (g := []); [|reflexivity]. rewrite checksum_re_eq.
  assert (L : lstrip (#" " :: (a ++ $": " ++ h) ++ LF :: s) = a ++ #":" :: #" " :: h ++ LF :: s).
  { rewrite <- !app_assoc. unfold lstrip. cbn [dropwhile]. change (is_space #" ") with true. cbv iota.
    unfold lex_algorithms in Ha. cbn [In] in Ha. repeat (destruct Ha as [<-|Ha]; [reflexivity|]). destruct Ha. }
  rewrite L. apply palts_pick with (a := a); auto.
  - rewrite pm_plit, startswith_app, skipn_len_app. unfold checksum_tail.
    rewrite pcats_cons, pm_pcat, pm_plit. change (startswith $":" (#":" :: #" " :: h ++ LF :: s)) with true. cbv iota.
    change (List.length $":") with 1. cbn [skipn pcats pm]. apply star_bt_greedy.
    assert (D : dropwhile is_space (#" " :: h ++ LF :: s) = h ++ LF :: s).
    { cbn [dropwhile]. change (is_space #" ") with true. cbv iota. apply dropwhile_id. destruct h as [|c h]; [congruence|].
      intros x s' E. injection E as <- _. apply hex_not_space. cbn [forallb] in Hh. apply andb_true_iff in Hh. apply Hh. }
    rewrite D. apply star_bt_greedy. rewrite dropwhile_app by exact Hh. reflexivity.
  - intros b Hb N. apply no_alg_tail. rewrite alg_prefix_eq by (apply alg_no_colon; auto). apply str_eqb_neq. exact N.
Qed.
Lemma hex_last_not_space h s' c : Hex h -> h = s' ++ [c] -> is_space c = false.
Proof.
  intros [_ H] ->. rewrite forallb_app in H. apply andb_true_iff in H as [_ H]. cbn in H. apply hex_not_space.
  destruct (hex c); auto.
Qed.
Lemma alg_solid a : In a lex_algorithms -> solid a = true.
Proof. intro Ha. unfold lex_algorithms in Ha. cbn [In] in Ha. repeat (destruct Ha as [<-|Ha]; [reflexivity|]). destruct Ha. Qed.
Lemma stripped_cat a b : solid a = true -> b <> [] -> (forall c t, b = t ++ [c] -> is_space c = false) -> stripped (a ++ b).
Proof.
  intros Ha Hb Hl. split.
  - destruct a as [|x a]; [discriminate|]. cbn [solid] in Ha. apply negb_true_iff in Ha. intros c s' E. injection E as <- _. exact Ha.
  - intros c t E. destruct (exists_last Hb) as (b' & x & Eb). rewrite Eb, app_assoc in E. apply app_inj_tail in E as [_ <-].
    eapply Hl. exact Eb.
Qed.
Lemma checksum_stripped a h : In a lex_algorithms -> Hex h -> stripped (a ++ $": " ++ h).
Proof.
  intros Ha Hh. apply stripped_cat; [apply alg_solid; auto|discriminate|]. intros c t E. destruct Hh as [Hn Hx].
  destruct (exists_last Hn) as (h' & x & ->). rewrite app_assoc in E. apply app_inj_tail in E as [_ <-].
  eapply (hex_last_not_space (h' ++ [x])); [split; eauto|reflexivity].
Qed.
Lemma ValStep_checksum a h : In a lex_algorithms -> Hex h ->
  ValStep (a ++ $": " ++ h) {| tk_type := TT_CHECKSUM; tk_value := a ++ $": " ++ h |}.
Proof.
  intros Ha Hh. split.
  { rewrite !in_app_iff. intros [K|[K|K]].
    - revert K. apply has_char_false. unfold lex_algorithms in Ha. cbn [In] in Ha. repeat (destruct Ha as [<-|Ha]; [reflexivity|]). destruct Ha.
    - revert K. apply has_char_false. reflexivity.
    - destruct Hh as [_ Hx]. assert (X : forall c, In c h -> c <> LF) by (intros c Hc ->; first [rewrite forallb_forall in Hx; apply Hx in Hc|rewrite Forall_forall in Hx; apply Hx in Hc]; discriminate Hc). exact (X _ K eq_refl). }
  intros s C. pose proof (checksum_stripped a h Ha Hh) as Hs.
  cbn [lex_step]. unfold initial_rules. cbn [first_rule].
  rewrite text_none.
  2:{ rewrite lstrip_value; [|exact Hs|intro K; apply app_eq_nil in K as [_ K]; discriminate]. rewrite <- app_assoc.
      unfold lex_algorithms in Ha. cbn [In] in Ha. repeat (destruct Ha as [<-|Ha]; [reflexivity|]). destruct Ha. }
  rewrite checksum_matched by auto. unfold emit, value_of. unfold colon at 1 2. cbn [skipn]. rewrite stripped_space by exact Hs. reflexivity.
Qed.
Lemma ValTok_checksum a h : In a lex_algorithms -> Hex h ->
  ValTok (a ++ $": " ++ h) {| tk_type := TT_CHECKSUM; tk_value := a ++ $": " ++ h |}.
Proof. intros. apply step_val, ValStep_checksum; auto. Qed.

(** ** Timestamps *)
Lemma begins_plain shape : forall v, List.length v <= List.length shape -> begins_like shape v = true -> ~ In LF shape -> ~ In LF v.
Proof.
  induction shape as [|x shape IH]; intros [|c v] L H N; cbn [List.length] in L; try (intros []; fail); [lia|]. cbn [begins_like] in H.
  apply andb_true_iff in H as [H1 H2]. intros [K|K].
  - subst c. destruct (N.eqb x #"0"); [discriminate H1|]. apply N.eqb_eq in H1. apply N. left. auto.
  - revert K. apply IH; [lia|exact H2|]. intro K. apply N. right. exact K.
Qed.
Lemma ValStep_stamp v : List.length v = 20 -> begins_like stamp_shape v = true -> stripped v ->
  ValStep v {| tk_type := TT_ISO8601_DATE; tk_value := v |}.
Proof.
  intros Hl Hb Hs. split; [apply (begins_plain stamp_shape); [rewrite Hl; vm_compute; lia|exact Hb|apply has_char_false; reflexivity]|].
  intros s C. assert (Hn : v <> []) by (intros ->; discriminate).
  assert (Hd : exists c u, v = c :: u /\ is_digit c = true).
  { destruct v as [|c u]; [congruence|]. exists c, u. split; auto. unfold stamp_shape in Hb. cbn in Hb. apply andb_true_iff in Hb. apply Hb. }
  destruct Hd as (c & u & Ev & Hc).
  pose proof (lstrip_value v (LF :: s) Hs Hn) as L.
  assert (F : forall p x p', p = x :: p' -> is_digit x = false -> startswith p (v ++ LF :: s) = false).
  { intros p x p' -> Hx. rewrite Ev. cbn [app startswith]. destruct (N.eqb_spec x c); [congruence|reflexivity]. }
  cbn [lex_step]. unfold initial_rules. cbn [first_rule].
  rewrite text_none by (rewrite L; eapply F; [reflexivity|vm_compute; reflexivity]).
  rewrite checksum_none.
  2:{ intros a Ha. rewrite L. unfold lex_algorithms in Ha. cbn [In] in Ha.
      repeat (destruct Ha as [<-|Ha]; [eapply F; [reflexivity|vm_compute; reflexivity]|]). destruct Ha. }
  rewrite !actor_none by (first [reflexivity|rewrite L; eapply F; [reflexivity|vm_compute; reflexivity]]).
  assert (M : matched date_re (colon (#" " :: v ++ LF :: s)) = Some (colon (#" " :: v))).
  { apply matched_some with (b := LF :: s) (g := []); [|reflexivity]. rewrite date_re_eq, L.
    rewrite begins_like_stop by (try reflexivity; apply has_char_false; reflexivity). rewrite Hb. rewrite <- Hl, skipn_len_app. reflexivity. }
  rewrite M. unfold emit, value_of. unfold colon at 1 2. cbn [skipn]. rewrite stripped_space by exact Hs. reflexivity.
Qed.
Lemma two_digits_checked : forallb (fun z => match pad 2 z with [a; b] => is_digit09 a && is_digit09 b | _ => false end) (upto 100) = true.
Proof. vm_compute. reflexivity. Qed.
Lemma pad2_digits z : (0 <= z <= 99)%Z -> exists a b, pad 2 z = [a; b] /\ is_digit a = true /\ is_digit b = true.
Proof.
  intro H. pose proof (proj1 (forallb_forall _ (upto 100)) two_digits_checked z (upto_In 100 z ltac:(change (Z.of_nat 100) with 100%Z; lia))) as F.
  cbv beta in F. destruct (pad 2 z) as [|a [|b [|]]]; try discriminate. apply andb_true_iff in F as [Fa Fb].
  exists a, b. unfold is_digit. rewrite !digit_val_09; auto.
Qed.
Lemma stamp_value d : PlainDate d -> exists v, datetime_to_iso_string d = Ok v /\ List.length v = 20 /\ begins_like stamp_shape v = true
  /\ stripped v.
Proof.
  intros (V & U & F). pose proof (proj1 (ValidDatetime_iff d) V) as ((Hy & Hm & Hd) & Hy' & Hh & Hmi & Hs & _).
  pose proof (days_in_month_pos (dt_year d) (dt_month d) Hm) as Hdm.
  unfold datetime_to_iso_string. rewrite F. cbn [bind]. eexists. split; [reflexivity|]. unfold isoformat.
  destruct (pad4 (dt_year d)) as (a & b & c & e & -> & Ha & Hb & Hc & He & _); [lia|].
  destruct (pad2_digits (dt_month d)) as (a1 & b1 & -> & Ha1 & Hb1); [lia|].
  destruct (pad2_digits (dt_day d)) as (a2 & b2 & -> & Ha2 & Hb2); [lia|].
  destruct (pad2_digits (dt_hour d)) as (a3 & b3 & -> & Ha3 & Hb3); [lia|].
  destruct (pad2_digits (dt_min d)) as (a4 & b4 & -> & Ha4 & Hb4); [lia|].
  destruct (pad2_digits (dt_sec d)) as (a5 & b5 & -> & Ha5 & Hb5); [lia|].
  assert (D : forall x, is_digit09 x = true -> is_digit x = true) by (intros x Hx; unfold is_digit; rewrite digit_val_09; auto).
  split; [reflexivity|]. split.
  - unfold stamp_shape. cbn [lit map list_ascii_of_string begins_like app]. 
    repeat match goal with |- context [N.eqb ?x #"0"] => let v := eval vm_compute in (N.eqb x #"0") in change (N.eqb x #"0") with v end.
    cbv iota. rewrite (D a), (D b), (D c), (D e), Ha1, Hb1, Ha2, Hb2, Ha3, Hb3, Ha4, Hb4, Ha5, Hb5 by auto. reflexivity.
  - split.
    + intros x s' E. injection E as <- _. apply digit09_not_space. exact Ha.
    + intros x s' E. rewrite !app_assoc in E. change $"Z" with [#"Z"] in E. apply app_inj_tail in E as [_ <-]. reflexivity.
Qed.
Lemma ValStep_date d v : PlainDate d -> datetime_to_iso_string d = Ok v -> ValStep v {| tk_type := TT_ISO8601_DATE; tk_value := v |}.
Proof. intros H E. destruct (stamp_value d H) as (v' & E' & H1 & H2 & H3). rewrite E in E'. injection E' as <-. apply ValStep_stamp; auto. Qed.
Lemma ValTok_stamp v : List.length v = 20 -> begins_like stamp_shape v = true -> stripped v ->
  ValTok v {| tk_type := TT_ISO8601_DATE; tk_value := v |}.
Proof. intros. apply step_val, ValStep_stamp; auto. Qed.
Lemma ValTok_date d v : PlainDate d -> datetime_to_iso_string d = Ok v -> ValTok v {| tk_type := TT_ISO8601_DATE; tk_value := v |}.
Proof. intros H E. apply step_val. eapply ValStep_date; eauto. Qed.

(** ** Sequences of lines *)
(** the text s is read as the tokens l *)
Definition Reads (s : pystr) (l : list token) : Prop :=
  forall r, Calm r -> Calm (s ++ r) /\ toks LInitial (s ++ r) = l ++ toks LInitial r.
Lemma Reads_nil : Reads [] [].
Proof. intros r C. auto. Qed.
Lemma Reads_app s s' l l' : Reads s l -> Reads s' l' -> Reads (s ++ s') (l ++ l').
Proof.
  intros H H' r C. rewrite <- !app_assoc. destruct (H' r C) as [C' E']. destruct (H _ C') as [C2 E2]. rewrite E2, E'. auto.
Qed.
Lemma Reads_LF : Reads [LF] [].
Proof.
  intros r C. cbn [app]. split; [apply calm_LF; auto|]. rewrite (toks_calm (LF :: r)), (toks_calm r); auto. apply calm_LF; auto.
Qed.
Lemma Reads_comment u : ~ In LF u -> Reads (#"#" :: u ++ [LF]) [].
Proof.
  intros Hu r C. cbn [app]. rewrite <- app_assoc. split.
  - apply calm_head. right. left. eauto.
  - apply toks_comment; auto.
Qed.
Lemma Reads_field t v k : ValTok v k -> Reads (tag_name t ++ $": " ++ v ++ [LF]) [tag_tok t; k].
Proof.
  intros H r C. rewrite <- !app_assoc. cbn [app]. split.
  - apply calm_head. right. right. eauto.
  - rewrite toks_tag. unfold tag_tok. f_equal. apply H. exact C.
Qed.
