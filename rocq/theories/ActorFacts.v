(** Facts about actors: parsing their textual form. *)
From Verif Require Import Py PyFacts PyRe PyReFacts Data Basics ValidationSpec BasicsSpec BasicsFacts.

Lemma any_char_LF s : forallb any_char s = true <-> ~ In LF s.
Proof.
  rewrite forallb_forall. unfold any_char. split.
  - intros H HI. apply H in HI. rewrite N.eqb_refl in HI. discriminate.
  - intros H c Hc. apply negb_true_iff, N.eqb_neq. intros ->. contradiction.
Qed.
(** x(y) with y free of opening parentheses *)
Lemma paren_dec b :
  (exists x y, b = x ++ $"(" ++ y ++ $")" /\ ~ In #"(" y) \/ ~ (exists x y, b = x ++ $"(" ++ y ++ $")").
Proof.
  induction b as [|c b IH].
  - right. intros (x & y & H). destruct x; discriminate.
  - destruct IH as [(x & y & -> & Hy)|IH].
    + left. exists (c :: x), y. auto.
    + destruct (N.eq_dec c #"(") as [->|Hc].
      * destruct (endswith $")" b) eqn:E.
        -- apply endswith_spec in E as (y & ->). left. exists [], y. split; auto.
           intro HI. apply IH. apply in_split in HI as (u & v & ->). exists u, v. rewrite <- app_assoc. reflexivity.
        -- right. intros (x & y & H). destruct x as [|d x]; change (lit "(") with [#"("] in H; cbn [app] in H; [injection H as H2|injection H as H1 H2].
           ++ assert (K : endswith $")" b = true) by (apply endswith_spec; eauto). congruence.
           ++ apply IH. exists x, y. exact H2.
      * right. intros (x & y & H). destruct x as [|d x]; change (lit "(") with [#"("] in H; cbn [app] in H; injection H as H1 H2; [contradiction|].
        apply IH. exists x, y. exact H2.
Qed.

(** Splitting the same list further to the right *)
Lemma app_longer {A} (a : list A) x b a' b' : a ++ x :: b = a' ++ b' -> List.length a < List.length a' -> exists u, b = u ++ b'.
Proof.
  revert a'; induction a as [|y a IH]; intros [|z a'] H Hl; cbn [List.length] in Hl; try lia.
  - injection H as _ H. eauto.
  - injection H as _ H. eapply IH; eauto. lia.
Qed.
Definition kend (s : pystr) (g : groups) : mres := pm PEnd s g (fun s' g' => Some (s', g')).
Lemma kend_eq s g : kend s g = if at_end s then Some (s, g) else None.
Proof. unfold kend. cbn [pm]. destruct s as [|c [|d s]]; cbn [at_end]; auto. Qed.
Lemma at_end_cases s : at_end s = true <-> s = [] \/ s = [LF].
Proof.
  destruct s as [|c [|d s]]; cbn [at_end]; split; intro H; auto; try discriminate.
  - apply N.eqb_eq in H. subst. auto.
  - destruct H as [H|H]; [discriminate|]. injection H as ->. reflexivity.
  - destruct H; discriminate.
Qed.

Definition mailrest (g : groups) (s : pystr) : mres :=
  pm (pcats [PGroup 2 (PStar any_char); PSet (N.eqb #")")]) s g kend.
Lemma mailrest_some g e en : ~ In LF e -> at_end en = true ->
  mailrest g (e ++ #")" :: en) = Some (en, (2, e) :: g).
Proof.
  intros He Hen. unfold mailrest. cbn [pcats pm].
  apply star_bt_longest.
  - apply any_char_LF; auto.
  - change (N.eqb #")" #")") with true. cbv iota. rewrite kend_eq, Hen. rewrite firstn_len_app. reflexivity.
  - intros a' b' H Ha' Hl. destruct b' as [|d b']; auto. destruct (N.eqb #")" d) eqn:Ed; auto. apply N.eqb_eq in Ed. subst d.
    exfalso. pose proof (app_longer _ _ _ _ _ H Hl) as Hs.
    destruct Hs as (u & ->). apply at_end_cases in Hen as [Hen|Hen]; destruct u as [|? u]; try discriminate.
    injection Hen as _ Hen. destruct u; discriminate.
Qed.
Lemma mailrest_inv g s r : mailrest g s = Some r -> exists e en, s = e ++ #")" :: en /\ ~ In LF e /\ at_end en = true.
Proof.
  unfold mailrest. cbn [pcats pm]. intro H. apply star_bt_some in H as (a & b & -> & Ha & Hk).
  destruct b as [|c b]; [discriminate|]. destruct (N.eqb #")" c) eqn:E; [|discriminate]. apply N.eqb_eq in E. subst c.
  rewrite kend_eq in Hk. destruct (at_end b) eqn:Eb; [|discriminate]. exists a, b. rewrite any_char_LF in Ha. auto.
Qed.

Definition altA : prx := pcats [PGroup 1 (PStar any_char); PSet (N.eqb #"("); PGroup 2 (PStar any_char); PSet (N.eqb #")")].
Definition altB : prx := PGroup 3 (PStar any_char).
Lemma altA_some x y en : ~ In LF x -> ~ In LF y -> ~ In #"(" y -> at_end en = true ->
  pm altA (x ++ $"(" ++ y ++ $")" ++ en) [] kend = Some (en, [(2, y); (1, x)]).
Proof.
  intros Hx Hy Hp Hen. unfold altA. rewrite pcats_cons, pm_pcat. cbn [pm].
  change ($"(" ++ y ++ $")" ++ en) with (#"(" :: y ++ #")" :: en).
  apply star_bt_longest.
  - apply any_char_LF; auto.
  - rewrite pcats_cons, pm_pcat. cbn [pm]. change (N.eqb #"(" #"(") with true. cbv iota. rewrite firstn_len_app.
    exact (mailrest_some _ y en Hy Hen).
  - intros a' b' H Ha' Hl. destruct b' as [|d b']; auto. rewrite pcats_cons, pm_pcat. cbn [pm].
    destruct (N.eqb #"(" d) eqn:Ed; auto. apply N.eqb_eq in Ed. subst d.
    exfalso. pose proof (app_longer _ _ _ _ _ H Hl) as Hs.
    destruct Hs as (u & Hu). assert (HI : In #"(" (y ++ #")" :: en)) by (rewrite Hu; apply in_or_app; right; left; reflexivity).
    apply in_app_or in HI as [HI|[HI|HI]]; [contradiction|discriminate|].
    apply at_end_cases in Hen as [-> | ->]; [destruct HI|destruct HI as [HI|[]]; discriminate].
Qed.
Lemma altA_inv t r : pm altA t [] kend = Some r ->
  exists x y en, t = x ++ $"(" ++ y ++ $")" ++ en /\ ~ In LF x /\ ~ In LF y /\ at_end en = true.
Proof.
  unfold altA. rewrite pcats_cons, pm_pcat. cbn [pm]. intro H. apply star_bt_some in H as (a & b & -> & Ha & Hk).
  rewrite pcats_cons, pm_pcat in Hk. cbn [pm] in Hk.
  destruct b as [|c b]; [discriminate|]. destruct (N.eqb #"(" c) eqn:E; [|discriminate]. apply N.eqb_eq in E. subst c.
  apply mailrest_inv in Hk as (e & en & -> & He & Hen). exists a, e, en. rewrite any_char_LF in Ha. auto.
Qed.
Lemma altB_some b en : ~ In LF b -> at_end en = true -> pm altB (b ++ en) [] kend = Some (en, [(3, b)]).
Proof.
  intros Hb Hen. unfold altB. cbn [pm]. apply star_bt_longest.
  - apply any_char_LF; auto.
  - rewrite kend_eq, Hen, firstn_len_app. reflexivity.
  - intros a' b' H Ha' Hl. exfalso. apply any_char_LF in Ha'. apply at_end_cases in Hen as [-> | ->].
    + assert (Hlen := f_equal (@List.length _) H). rewrite !app_length in Hlen. cbn in Hlen. lia.
    + assert (Hlen := f_equal (@List.length _) H). rewrite !app_length in Hlen. cbn in Hlen.
      destruct b'; [|cbn in Hlen; lia]. rewrite app_nil_r in H. subst a'. apply Ha'. apply in_or_app. right. left. reflexivity.
Qed.
Lemma altB_inv t r : pm altB t [] kend = Some r -> exists b en, t = b ++ en /\ ~ In LF b /\ at_end en = true.
Proof.
  unfold altB. cbn [pm]. intro H. apply star_bt_some in H as (a & b & -> & Ha & Hk). rewrite kend_eq in Hk.
  destruct (at_end b) eqn:Eb; [|discriminate]. exists a, b. rewrite any_char_LF in Ha. auto.
Qed.

(** The alternatives together: [t] must be one line; x(y) at its end is split off. *)
Definition name_mail (t : pystr) : mres :=
  match pm altA t [] kend with Some r => Some r | None => pm altB t [] kend end.
Lemma name_mail_paren x y en : ~ In LF x -> ~ In LF y -> ~ In #"(" y -> at_end en = true ->
  name_mail (x ++ $"(" ++ y ++ $")" ++ en) = Some (en, [(2, y); (1, x)]).
Proof. intros. unfold name_mail. rewrite altA_some; auto. Qed.
Lemma at_end_app_inj b en b' en' : ~ In LF b -> ~ In LF b' -> at_end en = true -> at_end en' = true ->
  b ++ en = b' ++ en' -> b = b' /\ en = en'.
Proof.
  intros Hb Hb' He He' H. apply at_end_cases in He, He'.
  destruct He as [-> | ->], He' as [-> | ->]; rewrite ?app_nil_r in H.
  - auto.
  - exfalso. subst b. apply Hb. apply in_or_app. right. left. reflexivity.
  - exfalso. subst b'. apply Hb'. apply in_or_app. right. left. reflexivity.
  - apply app_inj_tail in H as [-> _]. auto.
Qed.
Lemma name_mail_plain b en : ~ In LF b -> ~ (exists x y, b = x ++ $"(" ++ y ++ $")") -> at_end en = true ->
  name_mail (b ++ en) = Some (en, [(3, b)]).
Proof.
  intros Hb Hp Hen. unfold name_mail. destruct (pm altA (b ++ en) [] kend) as [r|] eqn:E; [|apply altB_some; auto].
  exfalso. apply altA_inv in E as (x & y & en' & H & Hx & Hy & Hen').
  apply Hp. exists x, y. apply (at_end_app_inj b en (x ++ $"(" ++ y ++ $")") en'); auto.
  - rewrite !in_app_iff. intros [K|[K|[K|K]]]; try contradiction; cbn in K; intuition discriminate.
  - rewrite H, <- !app_assoc. reflexivity.
Qed.
Lemma name_mail_inv t r : name_mail t = Some r -> exists b en, t = b ++ en /\ ~ In LF b /\ at_end en = true.
Proof.
  unfold name_mail. destruct (pm altA t [] kend) as [r'|] eqn:E.
  - intros _. apply altA_inv in E as (x & y & en & -> & Hx & Hy & Hen). exists (x ++ $"(" ++ y ++ $")"), en.
    split; [rewrite <- !app_assoc; reflexivity|]. split; auto.
    rewrite !in_app_iff. intros [K|[K|[K|K]]]; try contradiction; cbn in K; intuition discriminate.
  - apply altB_inv.
Qed.
Lemma name_mail_some b en : ~ In LF b -> at_end en = true -> exists r, name_mail (b ++ en) = Some r.
Proof.
  intros Hb Hen. destruct (paren_dec b) as [(x & y & -> & Hy)|Hp].
  - eexists. rewrite <- !app_assoc. apply name_mail_paren; auto; intro K; apply Hb; rewrite !in_app_iff; auto.
  - eexists. apply name_mail_plain; auto.
Qed.

Lemma person_or_org_match p s :
  re_match (person_or_org_re p) s =
  if startswith p s then option_map snd (name_mail (lstrip (skipn (List.length p) s))) else None.
Proof.
  unfold re_match, person_or_org_re. rewrite pcats_cons, pm_pcat, pm_plit. destruct (startswith p s); auto.
  rewrite pcats_cons, pm_pcat. cbn [pm]. generalize (skipn (List.length p) s) as t. intro t.
  assert (E : star_bt is_space name_mail t = name_mail (lstrip t)).
  { destruct (name_mail (lstrip t)) as [r|] eqn:E.
    - apply star_bt_greedy. exact E.
    - apply star_bt_none. intros a b -> Ha. destruct (name_mail b) as [r|] eqn:Eb; auto. exfalso.
      unfold lstrip in E. rewrite dropwhile_app in E by auto.
      apply name_mail_inv in Eb as (x & en & -> & Hx & Hen).
      destruct (dropwhile_suffix is_space (x ++ en)) as (w & Hw & _).
      assert (K : exists x' en', dropwhile is_space (x ++ en) = x' ++ en' /\ ~ In LF x' /\ at_end en' = true).
      { apply at_end_cases in Hen as [-> | ->].
        - rewrite app_nil_r in *. exists (dropwhile is_space x), []. rewrite app_nil_r. repeat split; auto.
          intro K. apply dropwhile_In in K. contradiction.
        - destruct (dropwhile is_space x) as [|d x'] eqn:Ed.
          + exists [], []. repeat split; auto. rewrite dropwhile_app.
            * reflexivity.
            * destruct (dropwhile_suffix is_space x) as (u & Hu & Hu'). rewrite Ed, app_nil_r in Hu. subst. auto.
          + exists (d :: x'), [LF]. repeat split; auto.
            * rewrite dropwhile_app_ne; rewrite Ed; auto. discriminate.
            * rewrite <- Ed. intro K. apply dropwhile_In in K. contradiction. }
      destruct K as (x' & en' & K & Hx' & Hen'). rewrite K in E. destruct (name_mail_some x' en' Hx' Hen') as (r' & Hr). congruence. }
  change (match star_bt is_space name_mail t with Some (_, g) => Some g | None => None end
          = option_map snd (name_mail (lstrip t))).
  rewrite E. destruct (name_mail (lstrip t)) as [[? ?]|]; reflexivity.
Qed.

(** ** The parser as a scanner *)
Lemma tool_match_no s : startswith $"Tool:" s = false -> re_match tool_re s = None.
Proof. intro H. unfold re_match, tool_re. rewrite pcats_cons, pm_pcat, pm_plit, H. reflexivity. Qed.
Lemma tool_match s c u : startswith $"Tool:" s = true -> lstrip (skipn 5 s) = c :: u ->
  re_match tool_re s = Some [(1, takewhile any_char (c :: u))].
Proof.
  intros E Eu. unfold re_match, tool_re. rewrite pcats_cons, pm_pcat, pm_plit, E.
  change (List.length $"Tool:") with 5. rewrite pcats_cons, pm_pcat. cbn [pm pcats pplus].
  rewrite (star_bt_greedy _ _ _ (dropwhile any_char u, [(1, takewhile any_char (c :: u))])); auto.
  fold (lstrip (skipn 5 s)). rewrite Eu. assert (Hc : any_char c = true).
  { apply dropwhile_head in Eu. unfold any_char. destruct (N.eqb c LF) eqn:El; auto. apply N.eqb_eq in El. subst. discriminate. }
  fold any_char. change (negb (N.eqb c LF)) with (any_char c). rewrite Hc.
  apply star_bt_greedy. cbn [takewhile]. rewrite Hc.
  pose proof (firstn_len_app (c :: takewhile any_char u) (dropwhile any_char u)) as F.
  cbn [app] in F. rewrite <- takewhile_dropwhile in F.
  change (fun c : N => negb (c =? LF)%N) with any_char. rewrite F. reflexivity.
Qed.
Lemma tool_match_blank s g : startswith $"Tool:" s = true -> lstrip (skipn 5 s) = [] -> re_match tool_re s = Some g ->
  strip (match group 1 g with Some x => x | None => [] end) = [].
Proof.
  intros Hs Hb. unfold re_match, tool_re. rewrite pcats_cons, pm_pcat, pm_plit, Hs. change (List.length $"Tool:") with 5.
  rewrite pcats_cons, pm_pcat. cbn [pm pcats pplus].
  destruct (star_bt is_space _ (skipn 5 s)) as [[s' g']|] eqn:E; [|discriminate]. intros [= <-].
  apply star_bt_some in E as (a & b & Hab & Ha & Hk). destruct b as [|c b]; [discriminate|].
  destruct (negb (c =? LF)%N) eqn:Ec; [|discriminate]. apply star_bt_some in Hk as (a1 & b1 & -> & Ha1 & Hk).
  injection Hk as <- <-. cbn [group find fst Nat.eqb].
  match goal with |- strip ?x = [] => replace x with (c :: a1) by (symmetry; exact (firstn_len_app (c :: a1) b1)) end.
  assert (Hw : forallb is_space (c :: a1) = true).
  { unfold lstrip in Hb. destruct (dropwhile_suffix is_space (skipn 5 s)) as (w & Hw1 & Hw2). rewrite Hb, app_nil_r in Hw1.
    rewrite Hab in Hw1. rewrite <- Hw1 in Hw2. change (c :: a1 ++ b1) with ((c :: a1) ++ b1) in Hw2.
    rewrite !forallb_app in Hw2. apply andb_true_iff in Hw2 as [_ Hw2]. apply andb_true_iff in Hw2 as [Hw2 _]. exact Hw2. }
  unfold strip, lstrip. rewrite dropwhile_all; auto.
Qed.



Lemma parse_tool t :
  match lstrip t with
  | [] => exists e, parse_actor ($"Tool:" ++ t) = Raise e
  | u => parse_actor ($"Tool:" ++ t) = Ok {| ac_type := AT_TOOL; ac_name := strip (takewhile any_char u); ac_email := None |}
  end.
Proof.
  assert (Hs : startswith $"Tool:" ($"Tool:" ++ t) = true) by apply startswith_app.
  change t with (skipn 5 ($"Tool:" ++ t)) at 1.
  destruct (lstrip (skipn 5 ($"Tool:" ++ t))) as [|c u] eqn:E.
  - unfold parse_actor. destruct (re_match tool_re ($"Tool:" ++ t)) as [g|] eqn:Em.
    + rewrite (tool_match_blank _ _ Hs E Em). eauto.
    + unfold person_re, org_re. rewrite !person_or_org_match.
      change (startswith $"Person:" ($"Tool:" ++ t)) with false. change (startswith $"Organization:" ($"Tool:" ++ t)) with false. eauto.
  - unfold parse_actor. rewrite (tool_match _ c u); auto. cbn [group find fst Nat.eqb].
    pose proof (dropwhile_head _ _ _ _ E) as Hc.
    assert (Hn : strip (takewhile any_char (c :: u)) <> []).
    { cbn [takewhile]. unfold any_char at 1. destruct (N.eqb c LF) eqn:El; [apply N.eqb_eq in El; subst; discriminate|]. cbn [negb].
      unfold strip, lstrip. cbn [dropwhile]. rewrite Hc. unfold rstrip. intro K.
      apply (f_equal (@rev _)) in K. rewrite rev_involutive in K. cbn [rev] in K.
      assert (K' : In c (dropwhile is_space (rev (takewhile any_char u) ++ [c]))).
      { clear -Hc. induction (rev (takewhile any_char u)) as [|x l IH]; cbn [app dropwhile]; [rewrite Hc; left; auto|].
        destruct (is_space x); auto. right. apply in_or_app. right. left. auto. }
      rewrite K in K'. destruct K'. }
    destruct (strip (takewhile any_char (c :: u))) eqn:Es; [contradiction|reflexivity].
Qed.
Lemma parse_named t (ty : actor_type) (p : pystr) s :
  (ty = AT_PERSON /\ p = $"Person:") \/ (ty = AT_ORGANIZATION /\ p = $"Organization:") -> s = p ++ t ->
  parse_actor s = match name_mail (lstrip t) with
                  | Some (_, g) => actor_of_match s ty g
                  | None => Raise (EParsing [$"Actor " ++ s ++ $" doesn't match any of person, organization or tool."])
                  end.
Proof.
  intros H ->. unfold parse_actor.
  rewrite tool_match_no by (destruct H as [[_ ->]|[_ ->]]; reflexivity).
  unfold person_re, org_re. rewrite !person_or_org_match. destruct H as [[-> ->]|[-> ->]].
  - rewrite startswith_app. change (startswith $"Organization:" ($"Person:" ++ t)) with false.
    change (skipn (List.length $"Person:") ($"Person:" ++ t)) with t. destruct (name_mail (lstrip t)) as [[? ?]|]; reflexivity.
  - rewrite startswith_app. change (startswith $"Person:" ($"Organization:" ++ t)) with false.
    change (skipn (List.length $"Organization:") ($"Organization:" ++ t)) with t. destruct (name_mail (lstrip t)) as [[? ?]|]; reflexivity.
Qed.
Lemma parse_prefix s a : parse_actor s = Ok a ->
  exists t, s = match ac_type a with AT_TOOL => $"Tool:" | AT_PERSON => $"Person:" | AT_ORGANIZATION => $"Organization:" end ++ t.
Proof.
  unfold parse_actor. destruct (re_match tool_re s) as [g|] eqn:Et.
  { destruct (startswith $"Tool:" s) eqn:E; [|rewrite tool_match_no in Et by auto; discriminate].
    apply startswith_spec in E as (t & ->). destruct (strip _); [discriminate|]. intros [= <-]. exists t. reflexivity. }
  assert (Hact : forall ty g, actor_of_match s ty g = Ok a -> ac_type a = ty).
  { intros ty g. unfold actor_of_match. destruct (truthy_opt (group 3 g)); [intros [= <-]; auto|].
    destruct (group 1 g) as [[|? ?]|]; try discriminate. destruct (group 2 g); try discriminate. intros [= <-]; auto. }
  unfold person_re, org_re. rewrite !person_or_org_match.
  destruct (startswith $"Person:" s) eqn:Ep.
  { apply startswith_spec in Ep as (t & ->). change (startswith $"Organization:" ($"Person:" ++ t)) with false.
    destruct (option_map snd _) as [g|]; [|discriminate]. intro H. rewrite (Hact _ _ H). eauto. }
  destruct (startswith $"Organization:" s) eqn:Eo; [|discriminate].
  apply startswith_spec in Eo as (t & ->). destruct (option_map snd _) as [g|]; [|discriminate]. intro H. rewrite (Hact _ _ H). eauto.
Qed.

(** ** What parsing yields *)
Lemma takewhile_forallb p s : forallb p (takewhile p s) = true.
Proof. induction s as [|c s IH]; cbn; auto. destruct (p c) eqn:E; cbn; rewrite ?E; auto. Qed.
Lemma strip_In s c : In c (strip s) -> In c s.
Proof.
  unfold strip, rstrip, lstrip. intro H. apply in_rev in H. apply dropwhile_In in H. apply in_rev in H. apply dropwhile_In in H. exact H.
Qed.
Lemma strip_nonempty c u : is_space c = false -> strip (c :: u) <> [].
Proof.
  intros Hc K. unfold strip, lstrip in K. cbn [dropwhile] in K. rewrite Hc in K. unfold rstrip in K.
  apply (f_equal (@rev _)) in K. rewrite rev_involutive in K. cbn [rev] in K.
  assert (K' : In c (dropwhile is_space (rev u ++ [c]))).
  { clear -Hc. induction (rev u) as [|x l IH]; cbn [app dropwhile]; [rewrite Hc; left; auto|].
    destruct (is_space x); auto. right. apply in_or_app. right. left. auto. }
  rewrite K in K'. destruct K'.
Qed.
Definition mail_of (y : pystr) : option pystr := match strip y with [] => None | e => Some e end.
Inductive NameMail (body : pystr) : option (pystr * option pystr) -> Prop :=
| NM_paren x y en : body = x ++ $"(" ++ y ++ $")" ++ en -> ~ In LF x -> ~ In LF y -> ~ In #"(" y -> at_end en = true ->
    NameMail body (match x with [] => None | _ => Some (strip x, mail_of y) end)
| NM_plain b en : body = b ++ en -> ~ In LF b -> ~ (exists x y, b = x ++ $"(" ++ y ++ $")") -> at_end en = true ->
    NameMail body (match b with [] => None | _ => Some (strip b, None) end)
| NM_none : (forall b en, body = b ++ en -> ~ In LF b -> at_end en = true -> False) -> NameMail body None.

Lemma parse_named_spec t ty p : (ty = AT_PERSON /\ p = $"Person:") \/ (ty = AT_ORGANIZATION /\ p = $"Organization:") ->
  exists r, NameMail (lstrip t) r /\
    match r with
    | Some (n, m) => parse_actor (p ++ t) = Ok {| ac_type := ty; ac_name := n; ac_email := m |}
    | None => exists e, parse_actor (p ++ t) = Raise e
    end.
Proof.
  intro H. rewrite (parse_named t ty p (p ++ t) H eq_refl).
  destruct (name_mail (lstrip t)) as [r|] eqn:E.
  - destruct (name_mail_inv _ _ E) as (b & en & Hb & HLF & Hen).
    destruct (paren_dec b) as [(x & y & -> & Hy)|Hp].
    + assert (Hx : ~ In LF x /\ ~ In LF y) by (rewrite !in_app_iff in HLF; tauto). destruct Hx as [Hx Hy'].
      rewrite Hb, <- !app_assoc in E. rewrite name_mail_paren in E by auto. injection E as <-.
      eexists. split; [apply (NM_paren _ x y en); auto; rewrite Hb, <- !app_assoc; reflexivity|].
      unfold actor_of_match. cbn [group find fst snd Nat.eqb truthy_opt].
      destruct x as [|c x]; [eauto|]. reflexivity.
    + rewrite Hb in E. rewrite name_mail_plain in E by auto. injection E as <-.
      eexists. split; [apply (NM_plain _ b en); auto|].
      unfold actor_of_match. cbn [group find fst snd Nat.eqb truthy_opt].
      destruct b as [|c b]; cbn [truthy_opt]; [eauto|reflexivity].
  - exists None. split; [|eauto]. apply NM_none. intros b en Hb HLF Hen. rewrite Hb in E.
    destruct (name_mail_some b en HLF Hen) as (r & Hr). congruence.
Qed.

(** Every actor that parsing yields is readable, except that a name of the form x(y) without e-mail can arise. *)
Theorem parse_actor_result s a : parse_actor s = Ok a ->
  ac_name a <> [] /\ Trimmed (ac_name a) /\ ~ In LF (ac_name a)
  /\ match ac_type a, ac_email a with
     | AT_TOOL, e => e = None
     | _, None => True
     | _, Some e => e <> [] /\ Trimmed e /\ ~ In LF e /\ ~ In #"(" e
     end.
Proof.
  intro H. pose proof (parse_prefix _ _ H) as (t & ->).
  assert (N : forall ty p, (ty = AT_PERSON /\ p = $"Person:") \/ (ty = AT_ORGANIZATION /\ p = $"Organization:") ->
    parse_actor (p ++ t) = Ok a ->
    ac_name a <> [] /\ Trimmed (ac_name a) /\ ~ In LF (ac_name a)
    /\ match ac_email a with None => True | Some e => e <> [] /\ Trimmed e /\ ~ In LF e /\ ~ In #"(" e end).
  { clear H. intros ty p Hp Ha. destruct (parse_named_spec t ty p Hp) as (r & Hr & Hres). rewrite Ha in Hres.
    destruct r as [[n m]|]; [|destruct Hres; discriminate]. injection Hres as ->. cbn [ac_name ac_email].
    inversion Hr as [x y en Hbody Hx Hy Hpar Hen Hopt|b en Hbody Hb Hnp Hen Hopt|]; subst.
    - destruct x as [|c x]; [discriminate|]. injection Hopt as <- <-.
      assert (Hc : is_space c = false) by (eapply dropwhile_head; exact Hbody).
      split; [apply strip_nonempty; auto|]. split; [apply strip_stripped|]. split; [intro K; apply strip_In in K; contradiction|].
      unfold mail_of. destruct (strip y) as [|d e] eqn:Ey; auto. rewrite <- Ey.
      split; [congruence|]. split; [apply strip_stripped|]. split; intro K; apply strip_In in K; contradiction.
    - destruct b as [|c b]; [discriminate|]. injection Hopt as <- <-.
      assert (Hc : is_space c = false) by (eapply dropwhile_head; exact Hbody).
      split; [apply strip_nonempty; auto|]. split; [apply strip_stripped|]. split; auto. intro K; apply strip_In in K; contradiction. }
  destruct (ac_type a) eqn:Et.
  - destruct (N AT_PERSON $"Person:") as (N1 & N2 & N3 & N4); auto. 
  - destruct (N AT_ORGANIZATION $"Organization:") as (N1 & N2 & N3 & N4); auto.
  - pose proof (parse_tool t) as P. destruct (lstrip t) as [|c u] eqn:El; [destruct P as (e & P); congruence|].
    rewrite P in H. injection H as <-. cbn [ac_name ac_email].
    assert (Hc : is_space c = false) by (eapply dropwhile_head; exact El).
    assert (Hc' : any_char c = true) by (unfold any_char; destruct (N.eqb c LF) eqn:E; auto; apply N.eqb_eq in E; subst; discriminate).
    split; [cbn [takewhile]; rewrite Hc'; apply strip_nonempty; auto|]. split; [apply strip_stripped|]. split; auto.
    intro K. apply strip_In in K. revert K. apply any_char_LF.
    exact (takewhile_forallb any_char (c :: u)).
Qed.

Lemma actor_str_prefix a : actor_str a =
  match ac_type a with AT_TOOL => $"Tool:" | AT_PERSON => $"Person:" | AT_ORGANIZATION => $"Organization:" end
  ++ #" " :: ac_name a ++ match ac_email a with Some ((_ :: _) as e) => $" (" ++ e ++ $")" | _ => [] end.
Proof.
  unfold actor_str. destruct a as [t n m]; cbn [ac_type ac_name ac_email].
  change ($":" ++ $" " ++ n ++ ?x) with (#":" :: #" " :: n ++ x).
  destruct t; destruct m as [[|? ?]|]; reflexivity.
Qed.
Lemma lstrip_blank s : lstrip (#" " :: s) = lstrip s.
Proof. reflexivity. Qed.
Lemma takewhile_id p s : forallb p s = true -> takewhile p s = s.
Proof. induction s as [|c s IH]; cbn; auto. destruct (p c); cbn; [intro H; rewrite IH; auto|discriminate]. Qed.

Theorem actor_readable_if a : ReadableActor a -> parse_actor (actor_str a) = Ok a.
Proof.
  destruct a as [ty n m]. unfold ReadableActor. cbn [ac_type ac_name ac_email]. intros (Hn & Ht & HLF & Hm).
  rewrite actor_str_prefix. cbn [ac_type ac_name ac_email].
  assert (Hl : forall w, lstrip (n ++ w) = n ++ w).
  { intro w. apply lstrip_id. intros c s' E. destruct n as [|d n]; [contradiction|]. injection E as -> _. apply (proj1 Ht _ _ eq_refl). }
  assert (N : forall ty' p, (ty' = AT_PERSON /\ p = $"Person:") \/ (ty' = AT_ORGANIZATION /\ p = $"Organization:") ->
    match m with None => ~ exists x y, n = x ++ $"(" ++ y ++ $")" | Some e => e <> [] /\ Trimmed e /\ ~ In LF e /\ ~ In #"(" e end ->
    parse_actor (p ++ #" " :: n ++ match m with Some ((_ :: _) as e) => $" (" ++ e ++ $")" | _ => [] end)
    = Ok {| ac_type := ty'; ac_name := n; ac_email := m |}).
  { clear Hm. intros ty' p Hp Hm. erewrite parse_named; [|exact Hp|reflexivity]. rewrite lstrip_blank, Hl.
    destruct m as [e|].
    - destruct Hm as (He & Het & HeLF & Hep). destruct e as [|c e]; [contradiction|].
      replace (n ++ $" (" ++ (c :: e) ++ $")") with ((n ++ $" ") ++ $"(" ++ (c :: e) ++ $")" ++ []) by (rewrite <- app_assoc; reflexivity).
      rewrite name_mail_paren; auto; [|rewrite in_app_iff; cbn; intuition discriminate].
      unfold actor_of_match. cbn [group find fst snd Nat.eqb truthy_opt].
      destruct (n ++ $" ") as [|d n'] eqn:En; [destruct n; discriminate|]. rewrite <- En.
      rewrite (strip_id (c :: e)) by exact Het.
      replace (strip (n ++ $" ")) with n; [reflexivity|]. symmetry. unfold strip. rewrite Hl. unfold rstrip. rewrite rev_app_distr.
      change (rev $" ") with [#" "]. cbn [app dropwhile]. change (is_space #" ") with true. cbv iota. fold (rstrip n).
      apply rstrip_id. exact (proj2 Ht).
    - rewrite name_mail_plain; auto. unfold actor_of_match. cbn [group find fst snd Nat.eqb].
      destruct n as [|c n]; [contradiction|]. cbn [truthy_opt]. rewrite strip_id by exact Ht. reflexivity. }
  destruct ty; [apply N; auto|apply N; auto|].
  subst m. rewrite app_nil_r. pose proof (parse_tool (#" " :: n)) as P. rewrite lstrip_blank, lstrip_id in P by exact (proj1 Ht).
  destruct n as [|c n]; [contradiction|]. rewrite P, takewhile_id, strip_id; auto. apply any_char_LF. auto.
Qed.
Lemma Trimmed_no_LF_end b en : at_end en = true -> Trimmed (b ++ en) -> b ++ en <> [] -> en = [].
Proof.
  intros H [_ Ht] _. apply at_end_cases in H as [-> | ->]; auto. specialize (Ht _ _ eq_refl). discriminate.
Qed.
Lemma strip_length s : List.length (strip s) <= List.length s.
Proof.
  assert (D : forall u, List.length (dropwhile is_space u) <= List.length u).
  { induction u as [|c u IH]; cbn; auto. destruct (is_space c); cbn; lia. }
  unfold strip, rstrip, lstrip. rewrite rev_length. etransitivity; [apply D|]. rewrite rev_length. apply D.
Qed.
Theorem actor_readable_only a : parse_actor (actor_str a) = Ok a -> ReadableActor a.
Proof.
  intro H. destruct (parse_actor_result _ _ H) as (H1 & H2 & H3 & H4). unfold ReadableActor. repeat split; auto; try apply H2.
  destruct a as [ty n m]. cbn [ac_type ac_name ac_email] in *.
  destruct m as [e|]; [destruct ty; auto|].
  assert (N : forall ty' p, (ty' = AT_PERSON /\ p = $"Person:") \/ (ty' = AT_ORGANIZATION /\ p = $"Organization:") ->
    parse_actor (p ++ #" " :: n) = Ok {| ac_type := ty'; ac_name := n; ac_email := None |} ->
    ~ exists x y, n = x ++ $"(" ++ y ++ $")").
  { clear H. intros ty' p Hp H. destruct (paren_dec n) as [(x & y & Hn & Hy)|]; auto. exfalso.
    assert (Hx : ~ In LF x /\ ~ In LF y) by (rewrite Hn, !in_app_iff in H3; tauto). destruct Hx as [Hx Hy'].
    erewrite parse_named in H; [|exact Hp|reflexivity]. rewrite lstrip_blank, lstrip_id in H by exact (proj1 H2).
    rewrite Hn in H. change (x ++ $"(" ++ y ++ $")") with (x ++ $"(" ++ y ++ $")" ++ []) in H at 1.
    rewrite name_mail_paren in H by auto. unfold actor_of_match in H. cbn [group find fst snd Nat.eqb truthy_opt] in H.
    destruct x as [|c x]; [discriminate|]. injection H as H _. apply (f_equal (@List.length _)) in H.
    pose proof (strip_length (c :: x)). rewrite H in H0. clear H. cbn in H0. rewrite !app_length in H0. cbn in H0. lia. }
  rewrite actor_str_prefix in H. cbn [ac_type ac_name ac_email] in H. rewrite app_nil_r in H.
  destruct ty; [eapply N; [|exact H]; auto|eapply N; [|exact H]; auto|reflexivity].
Qed.
Theorem actor_round_trip a : parse_actor (actor_str a) = Ok a <-> ReadableActor a.
Proof. split; [apply actor_readable_only|apply actor_readable_if]. Qed.
