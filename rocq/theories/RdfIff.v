(** What the RDF reader reads is what the graph says: fields and parts of elements. *)
From Verif Require Import Py PyRe PyFacts Data Oracles Basics Json Construct JsonParse JsonErrors JsonRead Rdf RdfParser RdfReadSpec.

(** ** Graphs *)
Lemma node_eqb_iff a b : node_eqb a b = true <-> a = b.
Proof. unfold node_eqb. destruct (node_eq_dec a b); split; intro; congruence. Qed.
Lemma objects_iff s p G l : Objects s p G l <-> objects G s p = l.
Proof.
  split.
  - induction 1 as [|o G l _ IH|[[s' p'] o] G l N _ IH].
    + reflexivity.
    + unfold objects in *. cbn [filter fst snd]. rewrite (proj2 (node_eqb_iff s s) eq_refl), str_eqb_refl. cbn [andb map snd]. congruence.
    + unfold objects in *. cbn [filter fst snd] in *. destruct (node_eqb s' s) eqn:E1; [apply node_eqb_iff in E1|exact IH].
      destruct (str_eqb p' p) eqn:E2; [apply str_eqb_eq in E2; congruence|exact IH].
  - intros <-. induction G as [|[[s' p'] o] G IH]; [constructor|]. unfold objects in *. cbn [filter fst snd].
    destruct (node_eqb s' s) eqn:E1; [destruct (str_eqb p' p) eqn:E2|]; cbn [andb].
    + apply node_eqb_iff in E1. apply str_eqb_eq in E2. subst. cbn [map snd]. constructor. exact IH.
    + constructor; [|exact IH]. cbn. intro K. injection K as -> ->. rewrite str_eqb_refl in E2. discriminate.
    + constructor; [|exact IH]. cbn. intro K. injection K as -> ->. rewrite (proj2 (node_eqb_iff s s) eq_refl) in E1. discriminate.
Qed.
Lemma subjects_iff p o G l : Subjects p o G l <-> subjects G p o = l.
Proof.
  split.
  - induction 1 as [|s G l _ IH|[[s p'] o'] G l N _ IH].
    + reflexivity.
    + unfold subjects in *. cbn [filter fst snd]. rewrite (proj2 (node_eqb_iff o o) eq_refl), str_eqb_refl. cbn [andb map fst]. congruence.
    + unfold subjects in *. cbn [filter fst snd] in *. destruct (str_eqb p' p) eqn:E1; [apply str_eqb_eq in E1|exact IH].
      destruct (node_eqb o' o) eqn:E2; [apply node_eqb_iff in E2; congruence|exact IH].
  - intros <-. induction G as [|[[s p'] o'] G IH]; [constructor|]. unfold subjects in *. cbn [filter fst snd].
    destruct (str_eqb p' p) eqn:E1; [destruct (node_eqb o' o) eqn:E2|]; cbn [andb].
    + apply str_eqb_eq in E1. apply node_eqb_iff in E2. subst. cbn [map fst]. constructor. exact IH.
    + constructor; [|exact IH]. cbn. intro K. injection K as -> ->. rewrite (proj2 (node_eqb_iff o o) eq_refl) in E2. discriminate.
    + constructor; [|exact IH]. cbn. intro K. injection K as -> ->. rewrite str_eqb_refl in E1. discriminate.
Qed.
Lemma links_iff p G l : Links p G l <-> pairs G p = l.
Proof.
  split.
  - induction 1 as [|s o G l _ IH|[[s p'] o'] G l N _ IH].
    + reflexivity.
    + unfold pairs in *. cbn [filter fst snd]. rewrite str_eqb_refl. cbn [map fst snd]. congruence.
    + unfold pairs in *. cbn [filter fst snd] in *. destruct (str_eqb p' p) eqn:E1; [apply str_eqb_eq in E1; congruence|exact IH].
  - intros <-. induction G as [|[[s p'] o'] G IH]; [constructor|]. unfold pairs in *. cbn [filter fst snd].
    destruct (str_eqb p' p) eqn:E1.
    + apply str_eqb_eq in E1. subst. cbn [map fst snd]. constructor. exact IH.
    + constructor; [|exact IH]. cbn. intro K. subst. rewrite str_eqb_refl in E1. discriminate.
Qed.
Lemma begins_iff t s : startswith t s = true <-> Begins t s.
Proof. apply startswith_spec. Qed.
Lemma begins_not t s : startswith t s = false <-> ~ Begins t s.
Proof. rewrite <- begins_iff. destruct (startswith t s); split; intro H; congruence. Qed.
Lemma is_uri_iff n s : is_uri n s = true <-> n = NUri s.
Proof. destruct n; cbn; split; intro H; try discriminate; [apply str_eqb_eq in H; congruence|]. injection H as ->. apply str_eqb_refl. Qed.
Lemma any_hd l : any_value l = hd_error l.
Proof. destruct l; reflexivity. Qed.

Section Reading.
Variable O : oracles.
Variable L : rdf_library.
Variable G : list triple.
Notation Single := (Single G).
Notation First := (First G).

Lemma first_iff s p o : First s p o <-> any_value (objects G s p) = o.
Proof.
  rewrite any_hd. unfold RdfReadSpec.First. split.
  - intros (l & H & ->). apply objects_iff in H. congruence.
  - intros <-. eexists. split; [apply objects_iff; reflexivity|reflexivity].
Qed.
Lemma single_iff s p o : Single s p o <-> only_value (objects G s p) = inl o.
Proof.
  unfold RdfReadSpec.Single. rewrite objects_iff. unfold only_value. destruct (objects G s p) as [|x [|y l]], o; split; intro H; try discriminate; congruence.
Qed.
(** ** Fields *)
Lemma unique_iff s p o : get_unique_value G s p = ([], o) <-> Single s p o.
Proof. rewrite single_iff. unfold get_unique_value. destruct (only_value (objects G s p)); split; intro H; try discriminate; congruence. Qed.
Lemma literal_iff {A} (f : node -> result A) (R : node -> A -> Prop) s p o : (forall n a, f n = Ok a <-> R n a) -> (forall n, Noisy (f n)) ->
  parse_literal L f G s p = Ok ([], o) <-> MaybeAt L G R s p o.
Proof.
  intros H N. unfold parse_literal, MaybeAt, Truthy. destruct (get_unique_value G s p) as [log v] eqn:U. split.
  - intro K. assert (log = []) as ->.
    { destruct v as [n|]; [|congruence]. destruct (node_truthy L n); [|congruence]. apply bind_ok in K as ([l a] & _ & K). injection K as K _. apply app_eq_nil in K. tauto. }
    exists v. split; [apply unique_iff; exact U|]. destruct v as [n|].
    + destruct (node_truthy L n) eqn:T.
      * apply bind_ok in K as ([l a] & K1 & K2). injection K2 as -> ->. unfold apply_parsing_method in K1. destruct (f n) as [a|e] eqn:E.
        { injection K1 as <-. exists n. repeat split; auto. apply H. exact E. }
        destruct (caught e) as [ms|] eqn:C; [|discriminate]. injection K1 as -> <-. destruct (N n e E C).
      * injection K as <-. intros m E. congruence.
    + injection K as <-. intros m E. discriminate.
  - intros (v' & S1 & K). apply unique_iff in S1. rewrite S1 in U. injection U as <- <-. destruct o as [a|].
    + destruct K as (n & -> & T & K). rewrite T. unfold apply_parsing_method. apply H in K. rewrite K. reflexivity.
    + destruct v' as [n|]; [|reflexivity]. specialize (K n eq_refl). destruct (node_truthy L n); [congruence|reflexivity].
Qed.
Lemma some_literal {A} (f : node -> result A) s p log a : parse_literal L f G s p = Ok (log, Some a) -> log = [].
Proof.
  unfold parse_literal. destruct (get_unique_value G s p) as [l v] eqn:U. destruct v as [n|]; [|discriminate]. destruct (node_truthy L n); [|discriminate].
  intro K. apply bind_ok in K as ([l' a'] & K1 & K2). injection K2 as <- ->. unfold apply_parsing_method in K1. unfold get_unique_value in U.
  destruct (only_value _); [|discriminate]. injection U as <- _. destruct (f n) as [b|e]; [injection K1 as <- _; reflexivity|]. destruct (caught e); discriminate.
Qed.
Lemma na_not_none n : NoAssertion L n -> Nothing L n -> False.
Proof.
  intros [A|A] [B|B]; try (subst n; discriminate).
  - destruct n as [s|s|s k]; cbn in A, B; try (apply str_eqb_eq in A, B; subst; discriminate).
    destruct (lit_value L s k); try discriminate. apply str_eqb_eq in A, B; subst; discriminate.
Qed.
Lemma na_iff n : (is_uri n (spdx "noassertion") || py_is L n $"NOASSERTION") = true <-> NoAssertion L n.
Proof. rewrite orb_true_iff, is_uri_iff. reflexivity. Qed.
Lemma none_iff n : (is_uri n (spdx "none") || py_is L n $"NONE") = true <-> Nothing L n.
Proof. rewrite orb_true_iff, is_uri_iff. reflexivity. Qed.
Lemma typed_iff {A} (f : node -> result A) (R : node -> A -> Prop) n x : (forall n a, f n = Ok a <-> R n a) -> (forall n, Noisy (f n)) ->
  get_correctly_typed_value L f (Some n) = Ok ([], x) <-> match x with Some w => Truthy L n /\ Word L R n w | None => ~ Truthy L n end.
Proof.
  intros H N. unfold get_correctly_typed_value, Truthy. destruct (node_truthy L n); cbn [negb].
  2: { destruct x as [w|]; split; intro K; try discriminate; try reflexivity. destruct K; discriminate. }
  pose proof (na_iff n) as WA. pose proof (none_iff n) as WB. destruct (_ || _).
  { assert (NoAssertion L n) as A' by (apply WA; reflexivity). split.
    - intro K. injection K as <-. auto.
    - destruct x as [[a| |]|]; cbn; intro K; try reflexivity; try tauto. destruct K as [_ K]. destruct (na_not_none n A' K). }
  assert (~ NoAssertion L n) as A' by (rewrite <- WA; discriminate). destruct (_ || _).
  { assert (Nothing L n) as B' by (apply WB; reflexivity). split.
    - intro K. injection K as <-. auto.
    - destruct x as [[a| |]|]; cbn; intro K; try reflexivity; tauto. }
  assert (~ Nothing L n) as B' by (rewrite <- WB; discriminate). unfold apply_parsing_method. destruct (f n) as [a|e] eqn:E.
  - cbn [bind]. split.
    + intro K. injection K as <-. cbn. repeat split; auto. apply H. exact E.
    + destruct x as [[b| |]|]; cbn; intro K; try tauto. destruct K as (_ & _ & _ & K). apply H in K. congruence.
  - split.
    + destruct (caught e) as [ms|] eqn:C; [|discriminate]. cbn [bind]. intro K. injection K as -> <-. destruct (N n e E C).
    + destruct x as [[b| |]|]; cbn; intro K; try tauto. destruct K as (_ & _ & _ & K). apply H in K. congruence.
Qed.
Lemma nn_iff {A} (f : node -> result A) (R : node -> A -> Prop) s p o : (forall n a, f n = Ok a <-> R n a) -> (forall n, Noisy (f n)) ->
  parse_literal_nn L f G s p = Ok ([], o) <-> MaybeAt L G (Word L R) s p o.
Proof.
  intros H N. unfold parse_literal_nn, MaybeAt. destruct (get_unique_value G s p) as [log v] eqn:U. split.
  - intro K. apply bind_ok in K as ([l a] & K1 & K2). injection K2 as K2 ->. apply app_eq_nil in K2 as [-> ->]. exists v. split; [apply unique_iff; exact U|].
    destruct v as [n|].
    + apply (typed_iff f R n o H N) in K1. destruct o as [w|]; [exists n; tauto|]. intros m E. injection E as <-. exact K1.
    + injection K1 as <-. intros n E. discriminate.
  - intros (v' & S1 & K). apply unique_iff in S1. rewrite S1 in U. injection U as <- <-. destruct v' as [n|].
    + assert (K1 : get_correctly_typed_value L f (Some n) = Ok ([], o)).
      { apply (typed_iff f R n o H N). destruct o as [w|]; [|apply K; reflexivity]. destruct K as (m & E & K). injection E as <-. exact K. }
      rewrite K1. reflexivity.
    + destruct o as [w|]; [destruct K as (m & E & _); discriminate|reflexivity].
Qed.
Lemma nn_as_na {A} (R : node -> A -> Prop) c k s p o x : MaybeAt L G (Word L R) s p o -> c_na c k o = COk x -> MaybeAt L G (WordNA L R) s p x.
Proof.
  intros (v & S1 & K) C. exists v. split; auto. destruct o as [[a| |]|]; cbn in C; try discriminate C.
  - assert (x = Some (AVal a)) as -> by congruence. exact K.
  - assert (x = Some ANoAssertion) as -> by congruence. exact K.
  - assert (x = None) as -> by congruence. exact K.
Qed.
Lemma na_as_nn {A} (R : node -> A -> Prop) c k s p x : MaybeAt L G (WordNA L R) s p x -> exists o, MaybeAt L G (Word L R) s p o /\ c_na c k o = COk x.
Proof.
  intros (v & S1 & K). destruct x as [[a|]|].
  - exists (Some (NVal a)). split; [exists v; split; auto|reflexivity].
  - exists (Some NNoAssertion). split; [exists v; split; auto|reflexivity].
  - exists None. split; [exists v; split; auto|reflexivity].
Qed.
(** lists *)
Lemma each_iff {A B} (f : A -> result B) (R : A -> B -> Prop) l r : (forall n a, f n = Ok a <-> R n a) -> each f l = Ok r <-> Forall2 R l r.
Proof.
  intro H. revert r. induction l as [|x l IH]; intro r; cbn [each].
  - split; intro K; [injection K as <-; constructor|inversion K; reflexivity].
  - split.
    + intro K. apply bind_ok in K as (y & K1 & K). apply bind_ok in K as (ys & K2 & K). injection K as <-. constructor; [apply H; exact K1|apply IH; exact K2].
    + intro K. inversion K as [|? b ? m K1 K2]; subst. apply H in K1. apply IH in K2. rewrite K1. cbn [bind]. rewrite K2. reflexivity.
Qed.
Lemma each_at {A} (f : node -> result A) (R : node -> A -> Prop) s p r : (forall n a, f n = Ok a <-> R n a) ->
  each f (objects G s p) = Ok r <-> EachAt G R s p r.
Proof.
  intro H. rewrite (each_iff f R _ _ H). unfold EachAt. split.
  - intro K. eexists. split; [apply objects_iff; reflexivity|exact K].
  - intros (l & E & K). apply objects_iff in E. rewrite E. exact K.
Qed.
Lemma each_log_iff {A B} (f : A -> logged B) (R : A -> B -> Prop) l r : (forall n a, f n = Ok ([], a) <-> R n a) -> each_log f l = Ok ([], r) <-> Forall2 R l r.
Proof.
  intro H. revert r. induction l as [|x l IH]; intro r; cbn [each_log].
  - split; intro K; [injection K as <-; constructor|inversion K; reflexivity].
  - split.
    + intro K. apply bind_ok in K as ([m y] & K1 & K). apply bind_ok in K as ([ms ys] & K2 & K). injection K as K <-. apply app_eq_nil in K as [-> ->].
      constructor; [apply H; exact K1|apply IH; exact K2].
    + intro K. inversion K as [|? b ? m K1 K2]; subst. apply H in K1. apply IH in K2. rewrite K1. cbn [bind]. rewrite K2. reflexivity.
Qed.
Lemma each_try_iff {A B} (f : A -> result B) (R : A -> B -> Prop) l r : (forall n a, f n = Ok a <-> R n a) -> (forall n, Noisy (f n)) ->
  each_try f l = Ok ([], r) <-> Forall2 R l r.
Proof.
  intros H N. revert r. induction l as [|x l IH]; intro r; cbn [each_try].
  - split; intro K; [injection K as <-; constructor|inversion K; reflexivity].
  - split.
    + destruct (f x) as [y|e] eqn:E.
      * intro K. apply bind_ok in K as ([ms ys] & K2 & K). injection K as -> <-. constructor; [apply H; exact E|apply IH; exact K2].
      * intro K. destruct e; try discriminate K. apply bind_ok in K as ([ms ys] & K2 & K). injection K as K <-. apply app_eq_nil in K as [-> ->].
        destruct (N x _ E eq_refl).
    + intro K. inversion K as [|? b ? m K1 K2]; subst. apply H in K1. apply IH in K2. rewrite K1, K2. reflexivity.
Qed.
Lemma plain_at c k s p r : c_items c k (py_texts L (objects G s p)) = COk r <-> EachAt G (Plain L) s p r.
Proof.
  rewrite c_items_iff. unfold EachAt, py_texts. split.
  - intro K. eexists. split; [apply objects_iff; reflexivity|]. revert r K. induction (objects G s p) as [|x l IH]; intros [|y r] K; try discriminate; constructor.
    + cbn in K. unfold Plain. congruence.
    + apply IH. cbn in K. congruence.
  - intros (l & E & K). apply objects_iff in E. rewrite E. clear E. induction K as [|x y l r K1 K2 IH]; cbn; [reflexivity|]. unfold Plain in K1. congruence.
Qed.
(** ** Values *)
Lemma noisy_stripped n : Noisy (stripped n).
Proof. intros e H. discriminate. Qed.
Lemma stripped_iff n s : stripped n = Ok s <-> TextIs n s.
Proof. unfold stripped, TextIs. split; congruence. Qed.
Lemma unprefixed_iff prefix n s : remove_prefix (node_str n) prefix = s <-> Unprefixed prefix n s.
Proof.
  unfold remove_prefix, Unprefixed. destruct (startswith prefix (node_str n)) eqn:E.
  - apply begins_iff in E as [u E]. rewrite E. assert (K : skipn (List.length prefix) (prefix ++ u) = u) by (rewrite skipn_app, skipn_all, Nat.sub_diag; reflexivity). rewrite K. split.
    + intros ->. auto.
    + intros [H|[H B]]; [apply app_inv_head in H; exact H|]. destruct B. exists u. auto.
  - apply begins_not in E. split.
    + intros <-. auto.
    + intros [H|[H B]]; [|exact H]. destruct E. exists s. exact H.
Qed.
Lemma member_iff {A} (all : list A) (name : A -> pystr) (prefix : string) n a : (forall s x, enum_lookup all name s = Some x <-> s = name x) ->
  parse_enum_value all name (lit prefix) n = Ok a <-> Member name prefix n a.
Proof.
  intro H. unfold parse_enum_value, Member. split.
  - destruct (enum_lookup all name _) as [x|] eqn:E; [|discriminate]. intro K. injection K as ->. apply H in E. eexists. split; [|exact E].
    apply unprefixed_iff. reflexivity.
  - intros (s & U & E). apply unprefixed_iff in U. change (SPDX_NAMESPACE ++ lit prefix) with (term prefix). rewrite U. apply H in E. rewrite E. reflexivity.
Qed.
Lemma noisy_member {A} (all : list A) (name : A -> pystr) prefix n : Noisy (parse_enum_value all name prefix n).
Proof. unfold parse_enum_value. destruct (enum_lookup _ _ _); [apply noisy_ok|]. intros e H. injection H as <-. discriminate. Qed.
Lemma contains_replace o w s : contains o s = false -> replace o w s = s.
Proof.
  unfold replace. induction s as [|c s IH]; [reflexivity|]. cbn [contains replace_skip]. intro H. apply orb_false_iff in H as [H1 H2]. rewrite H1, IH by exact H2. reflexivity.
Qed.
Lemma algorithm_iff n a : convert_rdf_to_algorithm n = Ok a <-> Algorithm n a.
Proof.
  unfold convert_rdf_to_algorithm, Algorithm. change (term "checksumAlgorithm_") with (spdx "checksumAlgorithm_"). generalize (unprefixed_iff (spdx "checksumAlgorithm_") n).
  generalize (remove_prefix (node_str n) (spdx "checksumAlgorithm_")). intros t U.
  assert (K : (if contains $"BLAKE2B" (upper t) then replace $"BLAKE2B" $"BLAKE2B_" (upper t) else upper t) = replace $"BLAKE2B" $"BLAKE2B_" (upper t)).
  { destruct (contains _ (upper t)) eqn:E; [reflexivity|]. symmetry. apply contains_replace; exact E. }
  cbv zeta. rewrite K. split.
  - destruct (enum_lookup _ _ _) as [x|] eqn:E; [|discriminate]. intro H. injection H as ->. apply alg_lookup in E. exists t. split; [apply U; reflexivity|exact E].
  - intros (s & H & E). apply U in H. subst s. apply alg_lookup in E. rewrite E. reflexivity.
Qed.
Lemma noisy_algorithm n : Noisy (convert_rdf_to_algorithm n).
Proof. unfold convert_rdf_to_algorithm. cbv zeta. destruct (enum_lookup _ _ _); [apply noisy_ok|]. intros e H. injection H as <-. discriminate. Qed.
End Reading.
