(** Facts about casing conversions and file formats. *)
From Verif Require Import Py PyFacts Data Basics ValidationSpec BasicsSpec BasicsFacts.

Lemma is_upper_spec c : is_upper c = true <-> (65 <= c <= 90)%N.
Proof. unfold is_upper. rewrite andb_true_iff, !N.leb_le. tauto. Qed.
Lemma is_lower_spec c : is_lower c = true <-> (97 <= c <= 122)%N.
Proof. unfold is_lower. rewrite andb_true_iff, !N.leb_le. tauto. Qed.
Lemma is_upper_false c : is_upper c = false <-> ~ (65 <= c <= 90)%N.
Proof. rewrite <- is_upper_spec. destruct (is_upper c); intuition discriminate. Qed.
Lemma is_lower_false c : is_lower c = false <-> ~ (97 <= c <= 122)%N.
Proof. rewrite <- is_lower_spec. destruct (is_lower c); intuition discriminate. Qed.
Lemma lower_spec s t : LowerCased s t <-> t = lower s.
Proof.
  unfold LowerCased, lower. split.
  - induction 1 as [|c d s t H _ IH]; cbn; auto. subst t. f_equal. unfold loc.
    destruct (is_upper c) eqn:E; [apply is_upper_spec in E|apply is_upper_false in E]; tauto.
  - intros ->. induction s as [|c s IH]; cbn; constructor; auto. unfold loc.
    destruct (is_upper c) eqn:E; [apply is_upper_spec in E|apply is_upper_false in E]; auto.
Qed.
Lemma loc_not_upper c : is_upper (loc c) = false.
Proof.
  unfold loc. destruct (is_upper c) eqn:E; auto. apply is_upper_spec in E. apply is_upper_false. lia.
Qed.
Lemma loc_upc c : loc (upc c) = loc c.
Proof.
  unfold upc. destruct (is_lower c) eqn:E; auto. apply is_lower_spec in E. unfold loc.
  replace (is_upper (c - 32)%N) with true by (symmetry; apply is_upper_spec; lia).
  replace (is_upper c) with false by (symmetry; apply is_upper_false; lia). lia.
Qed.
Lemma loc_loc c : loc (loc c) = loc c.
Proof. unfold loc at 1. rewrite loc_not_upper. reflexivity. Qed.

Lemma Letter_alpha c : Letter c <-> is_alpha c = true.
Proof.
  unfold Letter, is_alpha. rewrite orb_true_iff, is_upper_spec, is_lower_spec. tauto.
Qed.
Lemma upc_upper c : is_alpha c = true -> is_upper (upc c) = true.
Proof.
  unfold is_alpha, upc. intro H. destruct (is_lower c) eqn:E.
  - apply is_lower_spec in E. apply is_upper_spec. lia.
  - rewrite orb_false_r in H. exact H.
Qed.

(** a word with a capital at the start *)
Definition cap (w : pystr) : pystr := match w with [] => [] | c :: r => upc c :: map loc r end.

Lemma title_letters a t : forallb is_alpha a = true -> title_from true (a ++ t) = map loc a ++ title_from true t.
Proof.
  induction a as [|c a IH]; cbn; auto. intro H. apply andb_true_iff in H as [H1 H2]. rewrite H1, IH; auto.
Qed.
Lemma digit_facts c : Digit c -> is_alpha c = false /\ upc c = c /\ loc c = c /\ is_sep c = false /\ is_upper c = false /\ N.eqb c #" " = false.
Proof.
  unfold Digit. intro H. assert (U : is_upper c = false) by (apply is_upper_false; lia). assert (L : is_lower c = false) by (apply is_lower_false; lia).
  unfold is_alpha, upc, loc. rewrite U, L. repeat split; auto.
  - unfold is_sep. rewrite orb_false_iff, !N.eqb_neq. change #"_" with 95%N; change #"-" with 45%N; lia.
  - apply N.eqb_neq. change #" " with 32%N. lia.
Qed.
Lemma letter_facts c : is_alpha c = true -> is_sep c = false /\ N.eqb c #" " = false.
Proof.
  unfold is_alpha. rewrite orb_true_iff, is_upper_spec, is_lower_spec. intro H. split.
  - unfold is_sep. rewrite orb_false_iff, !N.eqb_neq. change #"_" with 95%N; change #"-" with 45%N; lia.
  - apply N.eqb_neq. change #" " with 32%N. lia.
Qed.
Lemma title_digits b x t : Forall Digit b -> title_from x (b ++ t) = map loc b ++ title_from (match b with [] => x | _ => false end) t.
Proof.
  intro H. revert x. induction H as [|c b Hc Hb IH]; intro x; auto. destruct (digit_facts c Hc) as (H1 & H2 & H3 & _).
  cbn [app title_from map]. rewrite H1, H2, H3. rewrite IH. destruct x, b; reflexivity.
Qed.
Lemma title_word w t : Word w -> exists x, title_from false (w ++ t) = cap w ++ title_from x t.
Proof.
  intros (a & b & -> & Ha & La & Db). destruct a as [|c a]; [contradiction|].
  assert (L : forallb is_alpha (c :: a) = true) by (apply forallb_forall; intros y Hy; apply Letter_alpha; rewrite Forall_forall in La; auto).
  cbn [forallb] in L. apply andb_true_iff in L as [L1 L2].
  exists (match b with [] => true | _ => false end). cbn [app title_from cap]. rewrite L1, <- app_assoc, title_letters, title_digits by auto.
  rewrite map_app, <- app_assoc. reflexivity.
Qed.
Lemma title_space x t : title_from x (#" " :: t) = #" " :: title_from false t.
Proof. destruct x; reflexivity. Qed.
Lemma join_cons sep x y l : join sep (x :: y :: l) = x ++ sep ++ join sep (y :: l).
Proof. reflexivity. Qed.
Lemma title_words ws : Forall Word ws -> title (join $" " ws) = join $" " (map cap ws).
Proof.
  unfold title. intro H. induction H as [|w ws Hw Hws IH]; auto. destruct ws as [|w' ws].
  - cbn [join map]. destruct (title_word w [] Hw) as (x & E). rewrite app_nil_r in E. rewrite E. cbn [title_from]. apply app_nil_r.
  - cbn [map]. rewrite !join_cons. destruct (title_word w ($" " ++ join $" " (w' :: ws)) Hw) as (x & E). rewrite E.
    change ($" " ++ join $" " (w' :: ws)) with (#" " :: join $" " (w' :: ws)). rewrite title_space, IH. reflexivity.
Qed.
Lemma word_chars w c : Word w -> In c w -> is_sep c = false /\ N.eqb c #" " = false.
Proof.
  intros (a & b & -> & _ & La & Db) H. rewrite Forall_forall in La, Db. apply in_app_or in H as [H|H].
  - apply letter_facts, Letter_alpha. auto.
  - destruct (digit_facts c) as (_ & _ & _ & H1 & _ & H2); auto.
Qed.
Lemma sub_seps_word w t x : (forall c, In c w -> is_sep c = false) -> w <> [] -> sub_seps x (w ++ t) = w ++ sub_seps false t.
Proof.
  intros H Hn. revert x. induction w as [|c w IH]; intro x; [contradiction|]. cbn [app sub_seps].
  rewrite (H c) by (left; auto). f_equal. destruct w as [|d w]; [reflexivity|]. apply IH; [intros y Hy; apply H; right; auto|discriminate].
Qed.
Lemma word_nonempty w : Word w -> w <> [].
Proof. intros (a & b & -> & Ha & _) E. apply app_eq_nil in E as [E _]. contradiction. Qed.
Lemma sub_seps_words ws x : Forall Word ws -> sub_seps x (join $"_" ws) = join $" " ws.
Proof.
  intro H. revert x. induction H as [|w ws Hw Hws IH]; intro x; auto. 
  assert (Hc : forall c, In c w -> is_sep c = false) by (intros c Hc; apply (word_chars w); auto).
  destruct ws as [|w' ws].
  - cbn [join]. rewrite <- (app_nil_r w) at 1. rewrite sub_seps_word; auto; [|apply word_nonempty; auto]. apply app_nil_r.
  - rewrite !join_cons, sub_seps_word; auto; [|apply word_nonempty; auto]. f_equal.
    change ($"_" ++ join $"_" (w' :: ws)) with (#"_" :: join $"_" (w' :: ws)).
    cbn [sub_seps]. change (is_sep #"_") with true. cbv iota. rewrite IH. reflexivity.
Qed.
Lemma filter_app {A} (f : A -> bool) a b : filter f (a ++ b) = filter f a ++ filter f b.
Proof. induction a as [|x a IH]; cbn; auto. destruct (f x); cbn; rewrite IH; auto. Qed.
Lemma cap_blank w : Word w -> filter (fun c => negb (N.eqb c #" ")) (cap w) = cap w.
Proof.
  intro H. assert (B : forall c, In c w -> N.eqb (upc c) #" " = false /\ N.eqb (loc c) #" " = false).
  { intros c Hc. destruct H as (a & b & -> & _ & La & Db). rewrite Forall_forall in La, Db. apply in_app_or in Hc as [Hc|Hc].
    - assert (L : is_alpha c = true) by (apply Letter_alpha; auto). unfold is_alpha in L. rewrite orb_true_iff, is_upper_spec, is_lower_spec in L.
      unfold upc, loc. rewrite !N.eqb_neq. change #" " with 32%N.
      destruct (is_lower c) eqn:El; [apply is_lower_spec in El|apply is_lower_false in El];
      destruct (is_upper c) eqn:Eu; [apply is_upper_spec in Eu|apply is_upper_false in Eu|apply is_upper_spec in Eu|apply is_upper_false in Eu]; lia.
    - destruct (digit_facts c) as (_ & H2 & H3 & _ & _ & H4); auto. rewrite H2, H3. auto. }
  destruct w as [|c w]; auto. cbn [cap]. cbn [filter]. rewrite (proj1 (B c ltac:(left; auto))). cbn [negb]. f_equal.
  clear H. induction w as [|d w IH]; auto. cbn [map filter]. rewrite (proj2 (B d ltac:(right; left; auto))). cbn [negb]. f_equal.
  apply IH. intros y [Hy|Hy]; apply B; [left|right; right]; auto.
Qed.
Lemma filter_words ws : Forall Word ws ->
  filter (fun c => negb (N.eqb c #" ")) (join $" " (map cap ws)) = List.concat (map cap ws).
Proof.
  induction 1 as [|w ws Hw Hws IH]; auto. destruct ws as [|w' ws].
  - cbn [map join List.concat]. rewrite app_nil_r. apply cap_blank. auto.
  - cbn [map]. rewrite join_cons, !filter_app, cap_blank by auto. cbn [map] in IH. rewrite IH. reflexivity.
Qed.
Lemma cap_word w : Word w -> exists c r, w = c :: r /\ cap w = upc c :: map loc r /\ is_alpha c = true.
Proof.
  intros (a & b & -> & Ha & La & _). destruct a as [|c a]; [contradiction|]. exists c, (a ++ b). cbn. repeat split; auto.
  apply Letter_alpha. inversion La; auto.
Qed.
Lemma snake_to_camel_words w ws : Word w -> Forall Word ws ->
  snake_to_camel (join $"_" (w :: ws)) = map loc w ++ List.concat (map cap ws).
Proof.
  intros Hw Hws. unfold snake_to_camel. rewrite sub_seps_words, title_words, filter_words by auto.
  destruct (cap_word w Hw) as (c & r & -> & E & _). cbn [map List.concat]. rewrite E. cbn [app map]. rewrite loc_upc. reflexivity.
Qed.
Lemma sub_caps_lower x u t : sub_caps x (map loc u ++ t) = map loc u ++ sub_caps (match u with [] => x | _ => false end) t.
Proof.
  revert x; induction u as [|c u IH]; intro x; auto. cbn [map app sub_caps]. rewrite loc_not_upper, IH. destruct u; reflexivity.
Qed.
Lemma sub_caps_words ws : Forall Word ws -> (forall x v w y, ws = x ++ v :: w :: y -> 2 <= List.length v) ->
  sub_caps false (List.concat (map cap ws)) = List.concat (map (fun w => #"_" :: cap w) ws).
Proof.
  induction 1 as [|w ws Hw Hws IH]; auto. intro HL. cbn [map List.concat]. destruct (cap_word w Hw) as (c & r & -> & E & Ha). rewrite E.
  cbn [app sub_caps]. rewrite upc_upper by auto. rewrite sub_caps_lower. do 2 f_equal.
  assert (IH' : sub_caps false (List.concat (map cap ws)) = List.concat (map (fun w => #"_" :: cap w) ws)).
  { apply IH. intros x v w y E'. apply (HL ((c :: r) :: x) v w y). cbn. rewrite E'. reflexivity. }
  destruct ws as [|w' ws].
  - reflexivity.
  - pose proof (HL [] (c :: r) w' ws eq_refl) as L2. destruct r as [|d r]; [cbn in L2; lia|]. f_equal. exact IH'.
Qed.
Lemma lower_app a b : lower (a ++ b) = lower a ++ lower b.
Proof. apply map_app. Qed.
Lemma lower_cap w : lower (cap w) = lower w.
Proof.
  destruct w as [|c w]; auto. cbn. unfold lower. cbn. rewrite loc_upc. f_equal. rewrite map_map. apply map_ext. apply loc_loc.
Qed.
Lemma lower_map_loc w : lower (map loc w) = lower w.
Proof. unfold lower. rewrite map_map. apply map_ext. apply loc_loc. Qed.
Theorem camel_snake s : SnakeName s -> camel_to_snake (snake_to_camel s) = lower s.
Proof.
  intros (ws & -> & Hn & Hw & HL). destruct ws as [|w ws]; [contradiction|]. inversion Hw as [|? ? Hw1 Hws]; subst.
  rewrite snake_to_camel_words by auto. destruct (cap_word w Hw1) as (c & r & -> & _ & Ha). cbn [map app camel_to_snake].
  rewrite sub_caps_lower. replace (match r with [] => false | _ :: _ => false end) with false by (destruct r; auto).
  rewrite sub_caps_words; auto; [|intros x v w y E; apply (HL (c :: r) v w x y); rewrite E; reflexivity].
  assert (E : forall u, lower (u ++ List.concat (map (fun w => #"_" :: cap w) ws)) = lower (join $"_" (u :: ws))).
  { clear. induction ws as [|v ws IH]; intro u.
    - cbn. rewrite app_nil_r. reflexivity.
    - rewrite join_cons. cbn [map List.concat]. rewrite !lower_app. f_equal. change (#"_" :: cap v) with ($"_" ++ cap v).
      rewrite lower_app, <- app_assoc. f_equal. rewrite lower_cap, <- lower_app. apply IH. }
  transitivity (lower ((map loc (c :: r)) ++ List.concat (map (fun w => #"_" :: cap w) ws))); [reflexivity|].
  rewrite lower_app, lower_map_loc, <- lower_app. apply E.
Qed.

(** ** File formats *)
(** two suffixes of one string: the shorter is a suffix of the longer *)
Lemma suffix_endswith {A} (p p' : list A) a b : p ++ a = p' ++ b -> List.length b <= List.length a -> exists q, a = q ++ b.
Proof.
  revert p'. induction p as [|x p IH]; intros p' E H; cbn [app] in E.
  - eauto.
  - destruct p' as [|y p'].
    + cbn in E. subst b. cbn in H. rewrite app_length in H. lia.
    + injection E as _ E. eapply IH; eauto.
Qed.
Lemma both_suffixes f a b : endswith a f = true -> endswith b f = true -> endswith b a = true \/ endswith a b = true.
Proof.
  rewrite !endswith_spec. intros (p & E) (p' & E'). rewrite E in E'.
  destruct (Nat.le_ge_cases (List.length b) (List.length a)) as [H|H].
  - left. eapply suffix_endswith; eauto.
  - right. eapply suffix_endswith; [symmetry|]; eauto.
Qed.
Theorem format_spec f x : file_name_to_format f = Ok x <-> HasFormat f x.
Proof.
  unfold HasFormat. split.
  - unfold file_name_to_format. intro H.
    repeat match type of H with
    | (if ?c then _ else _) = _ => let E := fresh "E" in destruct c eqn:E
    end; try discriminate; injection H as <-; rewrite ?orb_true_iff, ?endswith_spec in *.
    + split; [|intros [K _]; discriminate]. destruct E as [(p & E)|(p & E)]; exists p; eexists; split; try exact E; cbn; auto.
    + split; [|intros [K _]; discriminate]. destruct E0 as [(p & E0)|(p & E0)]; exists p; eexists; split; try exact E0; cbn; auto.
    + split; [|intros [K _]; discriminate]. destruct E1 as (p & E1); exists p; eexists; split; try exact E1; cbn; auto 10.
    + split.
      * destruct E2 as (p & E2); exists p; eexists; split; try exact E2; cbn; auto 10.
      * intros [_ K]. apply endswith_spec in K. apply orb_false_iff in E as [_ E]. congruence.
    + split; [|intros [K _]; discriminate]. destruct E3 as [(p & E3)|(p & E3)]; exists p; eexists; split; try exact E3; cbn; auto 10.
  - intros ((p & suf & E & Hin) & Hx). assert (S : endswith suf f = true) by (apply endswith_spec; eauto). clear E p.
    assert (X : forall b, endswith b f = true -> endswith b suf = true \/ endswith suf b = true) by (intros b Hb; apply (both_suffixes f); auto).
    assert (F : forall b, endswith b suf = false -> endswith suf b = false -> endswith b f = false).
    { intros b H1 H2. destruct (endswith b f) eqn:E; auto. destruct (X b E); congruence. }
    unfold file_name_to_format. unfold suffixes in Hin. cbn [In] in Hin.
    repeat (destruct Hin as [Hin|Hin]; [injection Hin as <- <-|]); [..|contradiction].
    all: repeat match goal with
      | S : endswith ?s ?g = true |- context [endswith ?s ?g] => rewrite S; cbn [orb]
      | F : _ |- context [endswith ?b ?g] => rewrite (F b) by reflexivity; cbn [orb]
      end; rewrite ?orb_true_r; auto.
    destruct (endswith $".rdf.xml" f) eqn:E; [exfalso; apply Hx; split; auto; apply endswith_spec; auto|]. cbn [orb].
    repeat (rewrite F by reflexivity; cbn [orb]). reflexivity.
Qed.
Theorem format_rejects f : (forall x, ~ HasFormat f x) <-> exists m, file_name_to_format f = Raise (EParsing m).
Proof.
  split.
  - intro H. unfold file_name_to_format. pose proof (fun x => proj1 (format_spec f x)) as S. unfold file_name_to_format in S.
    repeat match goal with |- context [if ?c then _ else _] => destruct c end; eauto; exfalso; eapply H; apply S; reflexivity.
  - intros (m & E) x Hx. apply format_spec in Hx. congruence.
Qed.

(** ** Names in use *)
Lemma camel_injective s t u : SnakeName s -> SnakeName t -> snake_to_camel s = snake_to_camel t -> LowerCased s u -> LowerCased t u.
Proof.
  intros Hs Ht E H. apply lower_spec in H. apply lower_spec. rewrite H. rewrite <- (camel_snake s), <- (camel_snake t), E; auto.
Qed.
Definition word_b (w : pystr) : bool :=
  match w with
  | c :: r => is_alpha c && forallb is_digit09 (dropwhile is_alpha r)
  | [] => false
  end.
Lemma word_b_spec w : word_b w = true -> Word w.
Proof.
  destruct w as [|c r]; [discriminate|]. cbn [word_b]. intro H. apply andb_true_iff in H as [H1 H2].
  destruct (dropwhile_suffix is_alpha r) as (a & E & Ha). exists (c :: a), (dropwhile is_alpha r).
  split; [cbn; rewrite <- E; reflexivity|]. split; [discriminate|]. split.
  - constructor; [apply Letter_alpha; auto|]. apply Forall_forall. intros x Hx. apply Letter_alpha. rewrite forallb_forall in Ha. auto.
  - apply Forall_forall. intros x Hx. apply is_digit09_spec. rewrite forallb_forall in H2. auto.
Qed.
Fixpoint mid_ok (ws : list pystr) : bool :=
  match ws with
  | w :: ((_ :: _) as ws') => Nat.leb 2 (List.length w) && mid_ok ws'
  | _ => true
  end.
Lemma mid_ok_spec ws : mid_ok ws = true -> forall x v w y, ws = x ++ v :: w :: y -> 2 <= List.length v.
Proof.
  induction ws as [|u ws IH]; intros H x v w y E; [destruct x; discriminate|].
  destruct ws as [|u' ws]; [destruct x as [|? x]; [discriminate|]; injection E as _ E; destruct x; discriminate|].
  cbn [mid_ok] in H. apply andb_true_iff in H as [H1 H2]. destruct x as [|z x].
  - injection E as -> _. apply Nat.leb_le. exact H1.
  - injection E as _ E. eapply IH; eauto.
Qed.
Definition snake_b (s : pystr) : bool := let ws := split_on #"_" s in forallb word_b ws && mid_ok (tl ws).
Lemma snake_b_spec s : snake_b s = true -> SnakeName s.
Proof.
  unfold snake_b. intro H. apply andb_true_iff in H as [H1 H2]. exists (split_on #"_" s).
  split; [symmetry; apply (join_split #"_")|]. split; [apply split_on_nonempty|].
  split; [apply Forall_forall; intros w Hw; apply word_b_spec; rewrite forallb_forall in H1; auto|].
  intros u v w x y E. rewrite E in H2. cbn [tl] in H2. eapply (mid_ok_spec (x ++ v :: w :: y)); eauto.
Qed.
Lemma enum_names_snake :
  (forall x, SnakeName (rel_type_name x)) /\ (forall x, SnakeName (file_type_name x)) /\ (forall x, SnakeName (purpose_name x))
  /\ (forall x, SnakeName (ref_category_name x)) /\ (forall x, SnakeName (annotation_type_name x)).
Proof. repeat split; intro x; apply snake_b_spec; destruct x; vm_compute; reflexivity. Qed.
