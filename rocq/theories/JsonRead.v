(** Entries of the JSON form are read as what they say. *)
From Verif Require Import Py PyRe PyFacts Data Oracles Basics BasicsFacts ActorFacts Json Construct JsonConv JsonParse JsonSpec JsonReadSpec JsonFacts JsonErrors JsonMore StampMore.

Lemma jget_at k kvs : jget k (JObj kvs) = Ok (value_at k kvs).
Proof. reflexivity. Qed.
(** ** Fields *)
Lemma field_iff {A} (f : json -> result A) (P : json -> A -> Prop) j o : (forall x a, f x = Ok a <-> P x a) -> (forall x, Noisy (f x)) ->
  parse_field j f = Ok ([], o) <-> Maybe P j o.
Proof.
  intros H N. unfold parse_field, Maybe. destruct (jtruthy j) eqn:T; cbn [negb].
  - destruct (f j) as [a|e] eqn:E.
    + split.
      * intro K. injection K as <-. split; auto. apply H. exact E.
      * destruct o as [b|]; [|discriminate]. intros [_ K]. apply H in K. rewrite K in E. injection E as ->. reflexivity.
    + destruct (caught e) as [ms|] eqn:C.
      * split.
        { intro K. injection K as -> <-. destruct (N j e E C). }
        destruct o as [b|]; [|discriminate]. intros [_ K]. apply H in K. congruence.
      * split; [discriminate|]. destruct o as [b|]; [|discriminate]. intros [_ K]. apply H in K. congruence.
  - split.
    + intro K. injection K as <-. reflexivity.
    + destruct o as [b|]; [|reflexivity]. intros [K _]. discriminate.
Qed.
Lemma jiter_iff j l : jiter j = Ok l <-> Items j l.
Proof. destruct j; cbn; split; intro H; try discriminate; try contradiction; try (injection H as <-; reflexivity); subst; reflexivity. Qed.
Lemma elements_iff {A} (f : json -> result A) (P : json -> A -> Prop) l r : (forall x a, f x = Ok a <-> P x a) -> (forall x, Noisy (f x)) ->
  parse_elements (quiet f) l = Ok ([], r) <-> Forall2 P l r.
Proof.
  intros H N. revert r. induction l as [|x l IH]; intro r; cbn [parse_elements quiet].
  - split; intro K; [injection K as <-; constructor|inversion K; reflexivity].
  - destruct (f x) as [a|e] eqn:E.
    + destruct (parse_elements (quiet f) l) as [[ms rs]|e] eqn:F; cbn [bind app].
      * split.
        { intro K. injection K as -> <-. constructor; [apply H; exact E|]. apply IH. reflexivity. }
        intro K. inversion K as [|? b ? m K1 K2]; subst. apply IH in K2. injection K2 as -> ->. apply H in K1. rewrite K1 in E. injection E as ->. reflexivity.
      * split; [discriminate|]. intro K. inversion K as [|? b ? m K1 K2]; subst. apply IH in K2. discriminate.
    + split.
      * destruct (caught e) as [m|] eqn:C; [|discriminate]. destruct (parse_elements (quiet f) l) as [[ms rs]|e']; [|discriminate]. cbn [bind app]. intro K.
        injection K as K <-. apply app_eq_nil in K as [-> _]. destruct (N x e E C).
      * intro K. inversion K as [|? b ? m K1 K2]; subst. apply H in K1. congruence.
Qed.
Lemma noisy_elements_list {A} (f : json -> result A) j : Noisy (parse_list_of_elements f j).
Proof.
  unfold parse_list_of_elements, parse_list_of_elements_log. apply noisy_bind; [apply noisy_jiter|]. intro l.
  apply noisy_bind; [apply noisy_elements|]. intros [log r]. apply noisy_bind; [apply noisy_raise_if|]. intro. apply noisy_ok.
Qed.
Lemma list_iff {A} (f : json -> result A) (P : json -> A -> Prop) j r : (forall x a, f x = Ok a <-> P x a) -> (forall x, Noisy (f x)) ->
  parse_list_of_elements f j = Ok r <-> ListOf P j r.
Proof.
  intros H N. unfold parse_list_of_elements, parse_list_of_elements_log, ListOf. split.
  - destruct (jiter j) as [l|e] eqn:E; [|discriminate]. cbn [bind]. destruct (parse_elements (quiet f) l) as [[log rs]|e] eqn:F; [|discriminate]. cbn [bind].
    destruct log; [|discriminate]. cbn [raise_if bind]. intro K. injection K as <-. exists l. split; [apply jiter_iff; exact E|]. apply (elements_iff f P l rs H N). exact F.
  - intros (l & I & K). apply jiter_iff in I. rewrite I. cbn [bind]. apply (elements_iff f P l r H N) in K. rewrite K. reflexivity.
Qed.
Lemma field_list_iff {A} (f : json -> result A) (P : json -> A -> Prop) j o : (forall x a, f x = Ok a <-> P x a) -> (forall x, Noisy (f x)) ->
  parse_field_list j f = Ok ([], o) <-> Maybe (ListOf P) j o.
Proof. intros H N. apply field_iff; [intros x a; apply list_iff; auto|]. intro. apply noisy_elements_list. Qed.
(** ** Constructors *)
Lemma ap_ok {A B} (f : chk (A -> B)) x b : (f <*> x) = COk b <-> exists g a, f = COk g /\ x = COk a /\ b = g a.
Proof.
  split.
  - destruct f as [g|m], x as [a|m']; cbn; try discriminate. intro H. injection H as <-. eauto.
  - intros (g & a & -> & -> & ->). reflexivity.
Qed.
Lemma construct_ok {A} cls (c : chk A) a : construct cls c = Ok a <-> c = COk a.
Proof. destruct c; cbn; split; intro H; try discriminate; congruence. Qed.
Lemma c_str_iff c k j s : c_str c k j = COk s <-> SaysText j s.
Proof. unfold SaysText. destruct j; cbn; split; intro H; try discriminate; congruence. Qed.
Lemma c_opt_str_iff c k j s : c_opt_str c k j = COk s <-> SaysOptText j s.
Proof. unfold SaysOptText. destruct j, s; cbn; split; intro H; try discriminate; congruence. Qed.
Lemma json_eq_null j : j = JNull \/ j <> JNull.
Proof. destruct j; auto; right; discriminate. Qed.
Lemma jis_iff j s : jis j s = true <-> j = JStr s.
Proof. destruct j; cbn; split; intro H; try discriminate. - apply str_eqb_eq in H. congruence. - injection H as ->. apply str_eqb_refl. Qed.
Lemma jis_no j s : jis j s = false -> j <> JStr s.
Proof. intros H K. apply jis_iff in K. congruence. Qed.
Lemma words_differ : $"NOASSERTION" <> $"NONE".
Proof. vm_compute. discriminate. Qed.
Lemma jstr_inj a b : JStr a = JStr b -> a = b.
Proof. congruence. Qed.
Lemma c_nn_iff c k j s : c_nn c k (field_or_nn j) = COk s <-> SaysWord j s.
Proof.
  pose proof words_differ as W. unfold field_or_nn, SaysWord. generalize dependent $"NOASSERTION". intros A W. generalize dependent $"NONE". intros B W.
  destruct (jis j A) eqn:E; [apply jis_iff in E; subst j|apply jis_no in E; destruct (jis j B) eqn:F; [apply jis_iff in F; subst j|apply jis_no in F]]; cbn [c_nn].
  - split; [intro H; injection H as <-; reflexivity|]. destruct s as [s| |]; [intros (H & N & _)|reflexivity|intro H]; apply jstr_inj in H; congruence.
  - split; [intro H; injection H as <-; reflexivity|]. destruct s as [s| |]; [intros (H & _ & N)|intro H|reflexivity]; apply jstr_inj in H; congruence.
  - split.
    + destruct j; try discriminate. intro H. injection H as <-. repeat split; congruence.
    + destruct s as [s| |]; [intros (-> & _ & _); reflexivity|congruence|congruence].
Qed.
Lemma c_opt_nn_iff c k j s : c_opt_nn c k (field_or_nn j) = COk s <-> SaysOptWord j s.
Proof.
  unfold SaysOptWord. destruct (json_eq_null j) as [-> |N].
  - cbn. split; [intro H; injection H as <-; reflexivity|]. destruct s as [s|]; [|reflexivity]. intro H. destruct s; cbn in H; try discriminate H. destruct H as [H _]; discriminate H.
  - assert (K : c_opt_nn c k (field_or_nn j) = match c_nn c k (field_or_nn j) with COk v => COk (Some v) | CErr m => CErr m end).
    { unfold field_or_nn. destruct (jis j _); [reflexivity|]. destruct (jis j _); [reflexivity|]. destruct j; try reflexivity. congruence. }
    rewrite K. destruct s as [s|].
    + rewrite <- (c_nn_iff c k). destruct (c_nn c k (field_or_nn j)); split; intro H; congruence.
    + split; [|congruence]. destruct (c_nn c k _); discriminate.
Qed.
Lemma c_opt_na_iff c k j s : c_opt_na c k (field_or_na j) = COk s <-> SaysOptName j s.
Proof.
  unfold field_or_na, SaysOptName. destruct (jis j $"NOASSERTION") eqn:E; [apply jis_iff in E; subst j|apply jis_no in E]; cbn [c_opt_na].
  - split; [intro H; injection H as <-; reflexivity|]. destruct s as [[s|]|]; [intros (H & N); apply jstr_inj in H; congruence|reflexivity|discriminate].
  - split.
    + destruct j; try discriminate; intro H; injection H as <-; [reflexivity|]. split; congruence.
    + destruct s as [[s|]|]; [intros (-> & _); reflexivity|congruence|intros ->; reflexivity].
Qed.
Lemma all_some_iff {A} (l : list (option A)) r : all_some l = Some r <-> l = map Some r.
Proof.
  revert r. induction l as [|[a|] l IH]; intro r; cbn.
  - split; [intro H; injection H as <-; reflexivity|]. destruct r; [reflexivity|discriminate].
  - split.
    + destruct (all_some l) as [m|] eqn:E; [|discriminate]. intro H. injection H as <-. cbn. f_equal. apply IH. reflexivity.
    + destruct r as [|b r]; [discriminate|]. cbn. intro H. injection H as -> H. apply IH in H. rewrite H. reflexivity.
  - split; [discriminate|]. destruct r; discriminate.
Qed.
Lemma c_items_iff {A} c k (l : list (option A)) r : c_items c k l = COk r <-> l = map Some r.
Proof. rewrite <- all_some_iff. unfold c_items. destruct (all_some l); split; intro H; try discriminate; congruence. Qed.
Lemma c_strs_iff c k j l : c_strs c k j = COk l <-> SaysTexts j l.
Proof.
  unfold SaysTexts. destruct j; cbn [c_strs]; try (split; [discriminate|intros [H|[H _]]; discriminate H]).
  - split; [intro H; injection H as <-; auto|]. intros [H|[_ ->]]; [discriminate|reflexivity].
  - assert (K : all_some (map j_str l0) = Some l <-> JArr l0 = JArr (map JStr l)).
    { rewrite all_some_iff. split.
      - intro H. f_equal. revert l H. induction l0 as [|x l0 IH]; intros [|y l] H; cbn in *; try discriminate; auto. injection H as H1 H2. rewrite (IH _ H2).
        destruct x; try discriminate. injection H1 as ->. reflexivity.
      - intro H. injection H as ->. rewrite map_map. reflexivity. }
    destruct (all_some (map j_str l0)) as [r|].
    + split; [intro H; injection H as <-; left; apply K; reflexivity|]. intros [H|[H _]]; [|discriminate]. apply K in H. congruence.
    + split; [discriminate|]. intros [H|[H _]]; [|discriminate]. apply K in H. discriminate.
Qed.
Lemma c_req_iff {A} c k (o : option A) a : c_req c k o = COk a <-> o = Some a.
Proof. destruct o; cbn; split; intro H; try discriminate; congruence. Qed.
Lemma c_bool_iff c k j b : c_bool c k (files_analyzed_value j) = COk b <-> SaysAnalyzed j b.
Proof.
  unfold files_analyzed_value, SaysAnalyzed. destruct j; cbn [c_bool]; try (split; [discriminate|contradiction]); try (split; intro H; congruence).
  destruct (str_eqb (lower s) $"true") eqn:E; [apply str_eqb_eq in E; rewrite E|].
  - split; [intro H; injection H as <-; reflexivity|]. destruct b; [reflexivity|]. vm_compute. discriminate.
  - destruct (str_eqb (lower s) $"false") eqn:F; [apply str_eqb_eq in F; rewrite F|].
    + split; [intro H; injection H as <-; reflexivity|]. destruct b; [|reflexivity]. vm_compute. discriminate.
    + split; [discriminate|]. destruct b; intro H; rewrite H, str_eqb_refl in *; discriminate.
Qed.
(** ** Leaf values *)
Lemma on_str_iff {A} (f : pystr -> result A) j a : on_str f j = Ok a <-> exists s, j = JStr s /\ f s = Ok a.
Proof.
  destruct j as [| | | |s| |]; cbn; split; intro H; try discriminate H; try (destruct H as (s0 & H & _); discriminate H).
  - eauto.
  - destruct H as (s0 & H & K). apply jstr_inj in H. subst. exact K.
Qed.
Lemma noisy_on_str {A} (f : pystr -> result A) j : (forall s, Noisy (f s)) -> Noisy (on_str f j).
Proof. intro H. destruct j; try apply H; intros e K; cbn in K; injection K as <-; discriminate. Qed.
Lemma noisy_date j : Noisy (j_date j).
Proof.
  apply noisy_on_str. intros s e. unfold datetime_from_str, strptime. destruct (re_match_rest _ _) as [[[|c r] g]|]; [|intro K; injection K as <-; discriminate..].
  repeat match goal with |- context [group_int ?n g] => destruct (group_int n g) end; try (intro K; injection K as <-; discriminate).
  destruct (_ && _)%bool; intro K; [discriminate|]. injection K as <-. discriminate.
Qed.
Lemma noisy_actor j : Noisy (j_actor j).
Proof.
  apply noisy_on_str. intros s e. unfold parse_actor, actor_of_match.
  repeat match goal with |- context [match ?x with _ => _ end] => destruct x end; intro K; try discriminate K; injection K as <-; discriminate.
Qed.
Lemma date_iff j d : j_date j = Ok d <-> SaysDate j d.
Proof. apply on_str_iff. Qed.
Lemma actor_iff j d : j_actor j = Ok d <-> SaysActor j d.
Proof. apply on_str_iff. Qed.
Lemma version_noisy_aux s : Noisy (version_from_string s).
Proof.
  intros e. unfold version_from_string. repeat match goal with |- context [match ?x with _ => _ end] => destruct x end; intro K; try discriminate K; injection K as <-; discriminate.
Qed.
Lemma version_iff j v : parse_version j = Ok v <-> SaysVersion j v.
Proof. unfold SaysVersion. rewrite <- on_str_iff. unfold parse_version. destruct (on_str _ j) as [x|[]]; split; intro H; try discriminate; congruence. Qed.
Lemma noisy_version j : Noisy (parse_version j).
Proof.
  intros e. unfold parse_version. pose proof (noisy_on_str _ j version_noisy_aux) as N. destruct (on_str version_from_string j) as [x|x] eqn:E; [discriminate|].
  destruct x; intro K; injection K as <-; try discriminate; exact (N _ eq_refl).
Qed.
Lemma opt_actor_iff j a : actor_or_no_assertion j = Ok a <-> SaysOptActor j a.
Proof.
  unfold actor_or_no_assertion, SaysOptActor. destruct (jis j $"NOASSERTION") eqn:E; [apply jis_iff in E; subst j|apply jis_no in E].
  - split; [intro H; injection H as <-; reflexivity|]. destruct a; [|reflexivity]. intros [H _]. congruence.
  - destruct a as [a|].
    + rewrite <- actor_iff. destruct (j_actor j); cbn [bind]; split; intro H; try discriminate; try (destruct H; discriminate).
      * split; congruence.
      * destruct H; congruence.
    + split; [|congruence]. destruct (j_actor j); discriminate.
Qed.
Lemma noisy_opt_actor j : Noisy (actor_or_no_assertion j).
Proof. unfold actor_or_no_assertion. destruct (jis _ _); [apply noisy_ok|]. apply noisy_bind; [apply noisy_actor|]. intro. apply noisy_ok. Qed.
(** ** Licenses *)
Lemma space_upper x c : is_space x = true -> is_upper c = true -> upc x = c -> False.
Proof.
  intros H U E. assert (D : is_lower x = false).
  { unfold is_space in H. rewrite !orb_true_iff, !andb_true_iff, !N.leb_le, !N.eqb_eq in H. unfold is_lower. apply not_true_iff_false. rewrite andb_true_iff, !N.leb_le. change #"a" with 97%N. change #"z" with 122%N. lia. }
  unfold upc in E. rewrite D in E. subst c.
  unfold is_space in H. rewrite !orb_true_iff, !andb_true_iff, !N.leb_le, !N.eqb_eq in H. unfold is_upper in U. rewrite andb_true_iff, !N.leb_le in U. change #"A" with 65%N in U. change #"Z" with 90%N in U. lia.
Qed.
Section Licenses.
Variable O : oracles.
Hypothesis L : forall s e, o_lic_parse O s = Raise e -> exists m, e = EExpr m.
Lemma noisy_license j : Noisy (parse_license_expression O j).
Proof.
  intros e. unfold parse_license_expression. destruct (match j with JStr _ => _ | _ => _ end); [discriminate|].
  destruct (licensing_parse O j) as [[x|]|x] eqn:E; try discriminate. assert (K : exists m, x = EExpr m).
  { destruct j; cbn in E; try discriminate; try (injection E as <-; eauto; fail). destruct (strip s); [discriminate|]. destruct (o_lic_parse O s) eqn:F; [discriminate|].
    cbn in E. injection E as <-. eapply L; eauto. }
  destruct K as (m & ->). intro K. injection K as <-. discriminate.
Qed.
Lemma license_some j l : parse_license_expression O j = Ok (Some l) <-> SaysLicense O j l.
Proof.
  pose proof words_differ as W. unfold parse_license_expression, SaysLicense. generalize dependent $"NOASSERTION". intros A W. generalize dependent $"NONE". intros B W.
  destruct j as [| | | |s| |]; cbn [licensing_parse].
  1-4,6-7: split; [discriminate|intros (s0 & H & _); discriminate H].
  destruct (str_eqb (upper s) A) eqn:E; [apply str_eqb_eq in E|].
  { split.
    - intro H. injection H as <-. eauto.
    - intros (s0 & H & K). apply jstr_inj in H. subst s0. destruct l; [destruct K; congruence|reflexivity|congruence]. }
  destruct (str_eqb (upper s) B) eqn:F; [apply str_eqb_eq in F|].
  { split.
    - intro H. injection H as <-. eauto.
    - intros (s0 & H & K). apply jstr_inj in H. subst s0. destruct l; [destruct K as (_ & K & _); congruence|congruence|reflexivity]. }
  apply str_eqb_neq in E. apply str_eqb_neq in F. destruct (strip s) as [|c t] eqn:S.
  { split; [discriminate|]. intros (s0 & H & K). apply jstr_inj in H. subst s0. exfalso. destruct l; [destruct K as (_ & _ & K & _); exact (K S)|exact (E K)|exact (F K)]. }
  destruct (o_lic_parse O s) as [x|x] eqn:P; cbn [bind].
  - split.
    + intro H. injection H as <-. exists s. repeat split; auto. rewrite S. discriminate.
    + intros (s0 & H & K). apply jstr_inj in H. subst s0. destruct l; [|destruct (E K)|destruct (F K)]. destruct K as (_ & _ & _ & K). rewrite P in K. injection K as ->. reflexivity.
  - destruct (L _ _ P) as (m & ->). split; [discriminate|]. intros (s0 & H & K). apply jstr_inj in H. subst s0. exfalso. destruct l; [|exact (E K)|exact (F K)]. destruct K as (_ & _ & _ & K). rewrite P in K. discriminate.
Qed.
Lemma license_none j : jtruthy j = true -> parse_license_expression O j = Ok None <-> exists s, j = JStr s /\ strip s = [].
Proof.
  intro T. split.
  - unfold parse_license_expression. destruct j as [| | | |s| |]; cbn [licensing_parse]; try discriminate. destruct (str_eqb (upper s) _); [discriminate|].
    destruct (str_eqb (upper s) _); [discriminate|]. destruct (strip s) eqn:S; [eauto|]. destruct (o_lic_parse O s) as [x|x]; cbn [bind]; [discriminate|]. destruct x; discriminate.
  - intros (s & -> & S). unfold parse_license_expression. cbn [licensing_parse]. rewrite S.
    assert (K : forall c w, is_upper c = true -> str_eqb (upper s) (c :: w) = false).
    { intros c w N. apply not_true_iff_false. intro H. apply str_eqb_eq in H. destruct s as [|x s]; [discriminate|]. cbn [upper map] in H. injection H as H _.
      assert (X : is_space x = true).
      { destruct (is_space x) eqn:X; auto. exfalso. exact (strip_nonempty x s X S). }
      apply (space_upper x c X N H). }
    change $"NOASSERTION" with (#"N" :: $"OASSERTION"). change $"NONE" with (#"N" :: $"ONE"). rewrite !K by reflexivity. reflexivity.
Qed.
Lemma opt_license_iff j x : (exists o, parse_field j (parse_license_expression O) = Ok ([], o) /\ flat_opt o = x) <-> SaysOptLicense O j x.
Proof.
  unfold SaysOptLicense. split.
  - intros (o & H & <-). apply (field_iff _ (fun j a => parse_license_expression O j = Ok a) j o) in H; [|tauto|apply noisy_license].
    destruct o as [[l|]|]; cbn [flat_opt Maybe] in *.
    + destruct H as [T H]. apply license_some in H. auto.
    + destruct H as [T H]. apply license_none in H; auto.
    + auto.
  - intro H. destruct (jtruthy j) eqn:T.
    + exists (Some x). split; [|reflexivity]. apply (field_iff _ (fun j a => parse_license_expression O j = Ok a) j (Some x)); [tauto|apply noisy_license|]. cbn. split; auto.
      destruct x as [l|]; [destruct H as [_ H]; apply license_some; exact H|]. destruct H as [H|H]; [discriminate|]. apply license_none; auto.
    + exists None. destruct x as [l|]; [destruct H; discriminate|]. split; [|reflexivity]. apply (field_iff _ (fun j a => parse_license_expression O j = Ok a) j None); [tauto|apply noisy_license|]. exact T.
Qed.
Lemma licenses_iff c k j r : (exists o, parse_field_list j (parse_license_expression O) = Ok ([], o) /\ c_items c k (opt_list o) = COk r)
  <-> MaybeList (SaysLicense O) j r.
Proof.
  assert (K : forall o, parse_field_list j (parse_license_expression O) = Ok ([], o) <-> Maybe (ListOf (fun j a => parse_license_expression O j = Ok a)) j o).
  { intro o. apply field_list_iff; [tauto|apply noisy_license]. }
  assert (F : forall l r, Forall2 (fun j a => parse_license_expression O j = Ok a) l (map Some r) <-> Forall2 (SaysLicense O) l r).
  { clear -L. induction l as [|x l IH]; intros [|y r]; cbn [map]; split; intro H; inversion H; subst; constructor; try (apply license_some; assumption); apply IH; assumption. }
  unfold MaybeList. split.
  - intros (o & H & I). apply K in H. apply c_items_iff in I. destruct o as [l|]; cbn [opt_list Maybe] in *.
    + right. subst l. destruct H as [T (m & I & H)]. split; auto. exists m. split; auto. apply F. exact H.
    + left. split; auto. destruct r; [reflexivity|discriminate].
  - intros [[T ->]|[T (m & I & H)]].
    + exists None. split; [apply K; exact T|reflexivity].
    + exists (Some (map Some r)). split; [apply K; split; auto; exists m; split; auto; apply F; exact H|]. apply c_items_iff. reflexivity.
Qed.
End Licenses.
(** ** Enumerations *)
Lemma enum_name_iff j n : json_str_to_enum_name j = Ok n <-> SaysMember j n.
Proof.
  unfold SaysMember. destruct j as [| | | |s| |]; cbn; split; intro H; try discriminate H; try (destruct H as (s0 & H & _); discriminate H).
  - injection H as <-. eauto.
  - destruct H as (s0 & H & <-). apply jstr_inj in H. subst. reflexivity.
Qed.
Lemma lookup_iff {A} (all : list A) (name : A -> pystr) s a : (forall x, enum_lookup all name (name x) = Some x) -> enum_lookup all name s = Some a <-> s = name a.
Proof.
  intros K. split; [|intros ->; apply K]. intro H. unfold enum_lookup in H. apply find_some in H as [_ H]. apply str_eqb_eq in H. auto.
Qed.
Lemma alg_lookup s a : enum_lookup checksum_alg_all checksum_alg_name s = Some a <-> s = checksum_alg_name a.
Proof. apply lookup_iff. intro x; destruct x; reflexivity. Qed.
Lemma cat_lookup s a : enum_lookup ref_category_all ref_category_name s = Some a <-> s = ref_category_name a.
Proof. apply lookup_iff. intro x; destruct x; reflexivity. Qed.
Lemma purpose_lookup s a : enum_lookup purpose_all purpose_name s = Some a <-> s = purpose_name a.
Proof. apply lookup_iff. intro x; destruct x; reflexivity. Qed.
Lemma ftype_lookup s a : enum_lookup file_type_all file_type_name s = Some a <-> s = file_type_name a.
Proof. apply lookup_iff. intro x; destruct x; reflexivity. Qed.
Lemma atype_lookup s a : enum_lookup annotation_type_all annotation_type_name s = Some a <-> s = annotation_type_name a.
Proof. apply lookup_iff. intro x; destruct x; reflexivity. Qed.
Lemma rtype_lookup s a : enum_lookup rel_type_all rel_type_name s = Some a <-> s = rel_type_name a.
Proof. apply lookup_iff. intro x; destruct x; reflexivity. Qed.
Lemma noisy_enum_name j : Noisy (json_str_to_enum_name j).
Proof. destruct j; intros e H; cbn in H; try discriminate; injection H as <-; discriminate. Qed.
(** the parsers of category, purpose and relationship type have the same form *)
Lemma member_iff {A} (all : list A) (name : A -> pystr) (m : pystr -> pystr) j a : (forall s x, enum_lookup all name s = Some x <-> s = name x) ->
  (do n <- json_str_to_enum_name j; match enum_lookup all name n with Some t => Ok t | None => Raise (EParsing [m n]) end) = Ok a <-> SaysMember j (name a).
Proof.
  intro K. rewrite <- enum_name_iff. destruct (json_str_to_enum_name j) as [n|e]; cbn [bind]; [|split; discriminate].
  specialize (K n a). destruct (enum_lookup all name n) as [t|]; split; intro H; try discriminate.
  - injection H as ->. f_equal. apply K. reflexivity.
  - injection H as H. apply K in H. congruence.
  - injection H as H. apply K in H. discriminate.
Qed.
Lemma noisy_member {A} (all : list A) (name : A -> pystr) (m : pystr -> pystr) j :
  Noisy (do n <- json_str_to_enum_name j; match enum_lookup all name n with Some t => Ok t | None => Raise (EParsing [m n]) end).
Proof. apply noisy_bind; [apply noisy_enum_name|]. intro n. destruct (enum_lookup all name n); [apply noisy_ok|]. intros e H. injection H as <-. discriminate. Qed.
Lemma category_iff j a : parse_external_ref_category j = Ok a <-> SaysMember j (ref_category_name a).
Proof. apply (member_iff _ _ (fun n => $"Invalid ExternalPackageRefCategory: " ++ n)). apply cat_lookup. Qed.
Lemma noisy_category j : Noisy (parse_external_ref_category j).
Proof. apply (noisy_member _ _ (fun n => $"Invalid ExternalPackageRefCategory: " ++ n)). Qed.
Lemma purpose_iff j a : parse_primary_package_purpose j = Ok a <-> SaysMember j (purpose_name a).
Proof. apply (member_iff _ _ (fun n => $"Invalid PrimaryPackagePurpose: " ++ n)). apply purpose_lookup. Qed.
Lemma noisy_purpose j : Noisy (parse_primary_package_purpose j).
Proof. apply (noisy_member _ _ (fun n => $"Invalid PrimaryPackagePurpose: " ++ n)). Qed.
Lemma rel_type_iff j a : parse_relationship_type j = Ok a <-> SaysMember j (rel_type_name a).
Proof. apply (member_iff _ _ (fun n => $"Invalid RelationshipType: " ++ n)). apply rtype_lookup. Qed.
Lemma noisy_rel_type j : Noisy (parse_relationship_type j).
Proof. apply (noisy_member _ _ (fun n => $"Invalid RelationshipType: " ++ n)). Qed.
(** an enumeration member is never missing *)
Lemma member_truthy j n : n <> [] -> SaysMember j n -> jtruthy j = true.
Proof. intros N (s & -> & H). destruct s; [|reflexivity]. cbn in H. congruence. Qed.
Lemma maybe_req {A} (P : json -> A -> Prop) j a : (P j a -> jtruthy j = true) -> Maybe P j (Some a) <-> P j a.
Proof. intro H. cbn. tauto. Qed.
(** ** Entries *)
Lemma bind_ok {A B} (r : result A) (f : A -> result B) b : bind r f = Ok b <-> exists a, r = Ok a /\ f a = Ok b.
Proof. destruct r as [a|e]; cbn; split; intro H; try discriminate; eauto; destruct H as (x & K & H); congruence. Qed.
Lemma named_ok {A} log n (k : unit -> result A) a : bind (raise_if_named log n) k = Ok a <-> log = [] /\ k tt = Ok a.
Proof. destruct log; cbn; split; intro H; try discriminate; auto; destruct H; auto; discriminate. Qed.
Lemma jget_inv k j v : jget k j = Ok v -> exists kvs, j = JObj kvs /\ v = value_at k kvs.
Proof. destruct j; cbn; intro H; try discriminate. injection H as <-. eauto. Qed.
Definition value_or (d : json) (k : pystr) (kvs : list (pystr * json)) : json := match assoc k kvs with Some v => v | None => d end.
Lemma jget_or k d kvs : jget_default k d (JObj kvs) = Ok (value_or d k kvs).
Proof. reflexivity. Qed.
Lemma jget_or_inv k d j v : jget_default k d j = Ok v -> exists kvs, j = JObj kvs /\ v = value_or d k kvs.
Proof. destruct j; cbn; intro H; try discriminate. injection H as <-. eauto. Qed.
Lemma strs_default c f k kvs : c_strs c f (value_or (JArr []) k kvs) = c_strs c f (value_at k kvs).
Proof. unfold value_or, value_at. destruct (assoc k kvs); reflexivity. Qed.
Ltac ap_inv H := repeat (apply ap_ok in H as (?g & ?a & H & ?E & ->)); injection H as <-.
Ltac ap_go := repeat (apply ap_ok; eexists; eexists; split; [|split; [|reflexivity]]); [reflexivity|..].

Lemma alg_default kvs n : n <> [] -> json_str_to_enum_name (value_or (JStr []) $"algorithm" kvs) = Ok n <-> SaysMember (value_at $"algorithm" kvs) n.
Proof.
  intro N. rewrite <- enum_name_iff. unfold value_or, value_at. destruct (assoc $"algorithm" kvs); [tauto|]. cbn. split; [|discriminate]. intro H. injection H as <-. congruence.
Qed.
Lemma checksum_iff j c : parse_checksum j = Ok c <-> SaysChecksum j c.
Proof.
  split.
  - unfold parse_checksum. intro H. apply bind_ok in H as (a & Ha & H). apply jget_or_inv in Ha as (kvs & -> & ->).
    apply bind_ok in H as (n & Hn & H). cbv zeta in H. rewrite jget_at in H. cbn [bind] in H. apply named_ok in H as [Hl H].
    destruct (enum_lookup checksum_alg_all checksum_alg_name n) as [x|] eqn:X; [|discriminate]. apply construct_ok in H. ap_inv H.
    apply c_req_iff in E0. injection E0 as <-. apply c_str_iff in E. apply alg_lookup in X. subst n. exists kvs. cbn [ck_alg ck_value]. repeat split; auto.
    apply alg_default; [destruct x; discriminate|exact Hn].
  - intros (kvs & -> & M & V). unfold parse_checksum. destruct c as [x v]. cbn [ck_alg ck_value] in *. rewrite jget_or, jget_at. cbn [bind].
    apply alg_default in M; [|destruct x; discriminate]. rewrite M. cbn [bind]. cbv zeta. rewrite (proj2 (alg_lookup _ x) eq_refl). cbn [raise_if_named bind].
    apply construct_ok. ap_go; [reflexivity|]. apply c_str_iff. exact V.
Qed.
Lemma noisy_checksum j : Noisy (parse_checksum j).
Proof.
  unfold parse_checksum. apply noisy_bind; [apply noisy_jget_default|]. intro a. apply noisy_bind; [apply noisy_enum_name|]. intro n. cbv zeta.
  apply noisy_bind; [apply noisy_jget|]. intro v. apply noisy_bind; [apply noisy_named|]. intro. apply noisy_construct.
Qed.
Lemma ref_iff j c : parse_external_ref j = Ok c <-> SaysRef j c.
Proof.
  split.
  - unfold parse_external_ref. intro H. apply bind_ok in H as (a & Ha & H). apply jget_inv in Ha as (kvs & -> & ->). rewrite !jget_at in H. cbn [bind] in H.
    apply bind_ok in H as ([l o] & F & H). cbn iota in H. apply named_ok in H as [-> H]. cbv zeta in H.
    apply construct_ok in H. ap_inv H. apply c_req_iff in E2. subst o. apply (field_iff _ _ _ _ category_iff noisy_category) in F. destruct F as [_ F].
    apply c_str_iff in E1. apply c_str_iff in E0. apply c_opt_str_iff in E. exists kvs. cbn. auto.
  - intros (kvs & -> & M & T & Lo & Co). unfold parse_external_ref. rewrite !jget_at. cbn [bind].
    rewrite (proj2 (field_iff _ _ _ (Some (er_category c)) category_iff noisy_category)).
    + cbn [bind]. apply named_ok. split; [reflexivity|]. cbv zeta. apply construct_ok. destruct c as [ca ty lo co]. cbn [er_category er_type er_locator er_comment] in *. ap_go; [reflexivity| | |].
      * apply c_str_iff. exact T. * apply c_str_iff. exact Lo. * apply c_opt_str_iff. exact Co.
    + split; [|exact M]. eapply member_truthy; [|exact M]. destruct (er_category c); discriminate.
Qed.
Lemma noisy_ref j : Noisy (parse_external_ref j).
Proof. unfold parse_external_ref. noisy. Qed.
Lemma code_iff j c : parse_package_verification_code j = Ok c <-> SaysCode j c.
Proof.
  split.
  - unfold parse_package_verification_code. intro H. apply bind_ok in H as (a & Ha & H). apply jget_or_inv in Ha as (kvs & -> & ->).
    rewrite !jget_at in H. cbn [bind] in H. cbv zeta in H. apply construct_ok in H. ap_inv H. apply c_str_iff in E0. rewrite strs_default in E.
    apply c_strs_iff in E. exists kvs. cbn [vc_value vc_excluded]. auto.
  - intros (kvs & -> & M & T). unfold parse_package_verification_code. rewrite jget_at, jget_or. cbn [bind]. cbv zeta. apply construct_ok. destruct c as [v ex]. cbn [vc_value vc_excluded] in *. ap_go.
    + apply c_str_iff. exact M.
    + rewrite strs_default. apply c_strs_iff. exact T.
Qed.
Lemma noisy_code j : Noisy (parse_package_verification_code j).
Proof. unfold parse_package_verification_code. noisy. Qed.
Lemma refs_field_iff j r : (exists o, parse_field j parse_external_refs = Ok ([], o) /\ match o with Some x => x | None => ([], []) end = ([], r)) <-> MaybeList SaysRef j r.
Proof.
  assert (K : forall x, Noisy (parse_external_refs x)).
  { intro x. unfold parse_external_refs. apply noisy_bind; [apply noisy_jiter|]. intro. apply noisy_elements. }
  unfold MaybeList. split.
  - intros (o & H & E). apply (field_iff _ (fun j a => parse_external_refs j = Ok a)) in H; [|tauto|exact K]. destruct o as [x|]; cbn [Maybe] in H.
    + subst x. right. destruct H as [T H]. split; auto. unfold parse_external_refs in H. apply bind_ok in H as (l & I & H). exists l. split; [apply jiter_iff; exact I|].
      apply (elements_iff _ _ _ _ ref_iff noisy_ref). exact H.
    + left. injection E as <-. auto.
  - intros [[T ->]|[T (l & I & H)]].
    + exists None. split; [|reflexivity]. apply (field_iff _ (fun j a => parse_external_refs j = Ok a)); [tauto|exact K|exact T].
    + exists (Some ([], r)). split; [|reflexivity]. apply (field_iff _ (fun j a => parse_external_refs j = Ok a)); [tauto|exact K|]. split; auto. unfold parse_external_refs.
      apply jiter_iff in I. rewrite I. cbn [bind]. apply (elements_iff _ _ _ _ ref_iff noisy_ref). exact H.
Qed.
Lemma opt_list_iff {A} (P : json -> A -> Prop) j r : (exists o, Maybe (ListOf P) j o /\ opt_list o = r) <-> MaybeList P j r.
Proof.
  unfold MaybeList. split.
  - intros ([l|] & H & <-); cbn in *; auto.
  - intros [[T ->]|[T H]]; [exists None|exists (Some r)]; cbn; auto.
Qed.
Ltac nils := repeat match goal with H : _ ++ _ = [] |- _ => apply app_eq_nil in H as [? H] end; subst.
Lemma cok_inj {A} (a b : A) : COk a = COk b -> a = b.
Proof. congruence. Qed.
Ltac cok := repeat match goal with H : COk _ = COk _ |- _ => apply cok_inj in H end; subst.
Ltac says := first [eapply c_str_iff; eassumption | eapply c_opt_str_iff; eassumption | eapply c_nn_iff; eassumption | eapply c_opt_nn_iff; eassumption
  | eapply c_opt_na_iff; eassumption | eapply c_bool_iff; eassumption | eapply c_strs_iff; rewrite <- strs_default; eassumption | eapply c_strs_iff; eassumption].
Ltac says2 := first [reflexivity | apply c_str_iff; eassumption | apply c_opt_str_iff; eassumption | apply c_nn_iff; eassumption | apply c_opt_nn_iff; eassumption
  | apply c_opt_na_iff; eassumption | apply c_bool_iff; eassumption | rewrite strs_default; apply c_strs_iff; eassumption | eassumption].
Section Packages.
Variable O : oracles.
Hypothesis L : forall s e, o_lic_parse O s = Raise e -> exists m, e = EExpr m.
Theorem package_iff kvs p : parse_package O (JObj kvs) = ([], Ok p) <-> SaysPackage O kvs p.
Proof.
  unfold parse_package. split.
  - destruct (parse_package_raw O (JObj kvs)) as [x|e] eqn:R; [|discriminate]. intros ->. unfold parse_package_raw in R. rewrite !jget_at in R.
    rewrite !jget_or in R. cbn [bind] in R.
    apply bind_ok in R as ([l1 built] & F1 & R). cbn [bind] in R. apply bind_ok in R as ([l2 cks] & F2 & R). cbn [bind] in R. apply bind_ok in R as ([l3 refs] & F3 & R). cbn [bind] in R.
    apply bind_ok in R as ([l4 conc] & F4 & R). cbn [bind] in R. apply bind_ok in R as ([l5 decl] & F5 & R). cbn [bind] in R. apply bind_ok in R as ([l6 info] & F6 & R). cbn [bind] in R.
    apply bind_ok in R as ([l7 orig] & F7 & R). cbn [bind] in R. apply bind_ok in R as ([l8 verif] & F8 & R). cbn [bind] in R. apply bind_ok in R as ([l9 purp] & F9 & R). cbn [bind] in R.
    apply bind_ok in R as ([l10 rel] & F10 & R). cbn [bind] in R. apply bind_ok in R as ([l11 supp] & F11 & R). cbn [bind] in R. apply bind_ok in R as ([l12 valid] & F12 & R). cbn [bind] in R.
    cbv zeta in R. destruct (match refs with Some r => r | None => ([], []) end) as [own er] eqn:RF. apply (f_equal (fun r => match r with Ok x => x | Raise _ => ([], Raise (EIndex [])) end)) in R. cbn iota in R.
    apply pair_equal_spec in R as [-> R]. apply named_ok in R as [NL R]. nils.
    apply construct_ok in R. ap_inv R.
    cok. split; cbn [pk_id pk_name pk_download pk_version pk_file_name pk_supplier pk_originator pk_files_analyzed pk_verif pk_checksums pk_homepage pk_source_info pk_concluded
      pk_info pk_declared pk_lic_comment pk_copyright pk_summary pk_description pk_comment pk_refs pk_attribution pk_purpose pk_release pk_built pk_valid_until]; try (says; fail).
    + apply (field_iff _ _ _ _ opt_actor_iff noisy_opt_actor). exact F11.
    + apply (field_iff _ _ _ _ opt_actor_iff noisy_opt_actor). exact F7.
    + apply (field_iff _ _ _ _ code_iff noisy_code). exact F8.
    + apply opt_list_iff. exists cks. split; [|reflexivity]. apply (field_list_iff _ _ _ _ checksum_iff noisy_checksum). exact F2.
    + apply (opt_license_iff O L). eauto.
    + eapply (licenses_iff O L). eauto.
    + apply (opt_license_iff O L). eauto.
    + apply refs_field_iff. eauto.
    + apply (field_iff _ _ _ _ purpose_iff noisy_purpose). exact F9.
    + apply (field_iff _ _ _ _ date_iff noisy_date). exact F10.
    + apply (field_iff _ _ _ _ date_iff noisy_date). exact F1.
    + apply (field_iff _ _ _ _ date_iff noisy_date). exact F12.
  - intro S. destruct p as [x1 x2 x3 x4 x5 x6 x7 x8 x9 x10 x11 x12 x13 x14 x15 x16 x17 x18 x19 x20 x21 x22 x23 x24 x25 x26]. destruct S. cbn [pk_id pk_name pk_download pk_version pk_file_name pk_supplier pk_originator pk_files_analyzed pk_verif pk_checksums pk_homepage pk_source_info pk_concluded
      pk_info pk_declared pk_lic_comment pk_copyright pk_summary pk_description pk_comment pk_refs pk_attribution pk_purpose pk_release pk_built pk_valid_until] in *.
    unfold parse_package_raw. rewrite !jget_at. rewrite !jget_or. cbn [bind].
    apply (field_iff _ _ _ _ opt_actor_iff noisy_opt_actor) in sp_supplier. apply (field_iff _ _ _ _ opt_actor_iff noisy_opt_actor) in sp_originator.
    apply (field_iff _ _ _ _ code_iff noisy_code) in sp_verif. apply opt_list_iff in sp_checksums as (cks & F2 & EC). apply (field_list_iff _ _ _ _ checksum_iff noisy_checksum) in F2.
    apply (opt_license_iff O L) in sp_concluded as (conc & F4 & E4). apply (licenses_iff O L $"Package" $"license_info_from_files") in sp_info as (info & F6 & E6).
    apply (opt_license_iff O L) in sp_declared as (decl & F5 & E5). apply refs_field_iff in sp_refs as (refs & F3 & E3).
    apply (field_iff _ _ _ _ purpose_iff noisy_purpose) in sp_purpose. apply (field_iff _ _ _ _ date_iff noisy_date) in sp_release.
    apply (field_iff _ _ _ _ date_iff noisy_date) in sp_built. apply (field_iff _ _ _ _ date_iff noisy_date) in sp_valid.
    rewrite sp_built. cbn [bind]. rewrite F2. cbn [bind]. rewrite F3. cbn [bind]. rewrite F4. cbn [bind]. rewrite F5. cbn [bind]. rewrite F6. cbn [bind]. rewrite sp_originator. cbn [bind].
    rewrite sp_verif. cbn [bind]. rewrite sp_purpose. cbn [bind]. rewrite sp_release. cbn [bind]. rewrite sp_supplier. cbn [bind]. rewrite sp_valid. cbn [bind]. cbv zeta.
    rewrite E3. apply pair_equal_spec. split; [reflexivity|]. apply named_ok. split; [reflexivity|]. apply construct_ok. ap_go; try (says2; fail).
    + rewrite EC. reflexivity.
    + rewrite E4. reflexivity.
    + rewrite E5. reflexivity.
Qed.
End Packages.
