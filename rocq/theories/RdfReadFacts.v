(** Reading back what the RDF writer says, from a graph whose triples may come in any order. *)
From Verif Require Import Py PyFacts Data Oracles Basics Validation ValidationSpec BasicsSpec Json Construct JsonParse LocatorFacts
  Rdf RdfWriter RdfParser RdfSpec RdfGraphFacts RdfWriteFacts RdfElemFacts.
From Verif Require JsonRound ActorFacts BasicsFacts.
From Coq Require Import Lia.

Lemma clean_strip s : Clean s -> strip s = s.
Proof. intros [_ H]. apply strip_id. exact H. Qed.
Lemma unspaced_trimmed s : Unspaced s -> Trimmed s.
Proof.
  unfold Unspaced. intro H. rewrite Forall_forall in H. split; intros c t ->; apply H; [left; reflexivity|].
  apply in_app_iff. right. left. reflexivity.
Qed.
Lemma unspaced_clean s : s <> [] -> Unspaced s -> Clean s.
Proof. intros H H'. split; [exact H|]. apply unspaced_trimmed. exact H'. Qed.
Lemma truthy_nonempty (s : pystr) : s <> [] -> truthy_list s = true.
Proof. destruct s; [congruence|reflexivity]. Qed.
Lemma hash_nonempty (a b : pystr) : a ++ $"#" ++ b <> [].
Proof. destruct a; discriminate. Qed.
Lemma remove_prefix_app p s : remove_prefix (p ++ s) p = s.
Proof. unfold remove_prefix. rewrite startswith_app, skipn_app, skipn_all, Nat.sub_diag. reflexivity. Qed.
Lemma startswith_false p s : (forall t, s <> p ++ t) -> startswith p s = false.
Proof. intro H. destruct (startswith p s) eqn:E; [|reflexivity]. apply startswith_spec in E as [t E]. destruct (H t E). Qed.

(** ** Lists in another order *)
Lemma forall2_permutation {A B} (R : A -> B -> Prop) l vs vs' : Forall2 R l vs -> Permutation vs vs' ->
  exists l', Permutation l l' /\ Forall2 R l' vs'.
Proof.
  intros F P. revert l F. induction P; intros l0 F.
  - inversion F; subst. exists []. split; constructor.
  - inversion F as [|a ? l1 ? H1 H2]; subst. destruct (IHP _ H2) as (m & P' & F'). exists (a :: m). split; constructor; auto.
  - inversion F as [|a ? l1 ? H1 H2]; subst. inversion H2 as [|b ? l2 ? H3 H4]; subst. exists (b :: a :: l2). split; [apply perm_swap|].
    repeat constructor; auto.
  - destruct (IHP1 _ F) as (l1 & P1' & F1). destruct (IHP2 _ F1) as (l2 & P2' & F2). exists l2. split; [|exact F2].
    eapply Permutation_trans; eauto.
Qed.
Lemma each_forall2 {A B C} (f : B -> result C) (R : A -> C -> Prop) l vs : Forall2 (fun a v => exists b, f v = Ok b /\ R a b) l vs ->
  exists m, each f vs = Ok m /\ Forall2 R l m.
Proof.
  induction 1 as [|a v l vs (b & E & H) _ (m & Em & Hm)]; [exists []; split; constructor|]. exists (b :: m).
  cbn [each]. rewrite E. cbn [bind]. rewrite Em. split; [reflexivity|]. constructor; auto.
Qed.
Lemma each_same {A B} (f : B -> result A) l vs : Forall2 (fun a v => f v = Ok a) l vs -> each f vs = Ok l.
Proof. induction 1 as [|a v l vs E _ IH]; [reflexivity|]. cbn [each]. rewrite E. cbn [bind]. rewrite IH. reflexivity. Qed.
Lemma each_try_forall2 {A B C} (f : B -> result C) (R : A -> C -> Prop) l vs : Forall2 (fun a v => exists b, f v = Ok b /\ R a b) l vs ->
  exists m, each_try f vs = Ok ([], m) /\ Forall2 R l m.
Proof.
  induction 1 as [|a v l vs (b & E & H) _ (m & Em & Hm)]; [exists []; split; constructor|]. exists (b :: m).
  cbn [each_try]. rewrite E, Em. split; [reflexivity|]. constructor; auto.
Qed.
Lemma forall2_eq {A} (l m : list A) : Forall2 eq l m -> l = m.
Proof. induction 1; congruence. Qed.
Lemma forall2_weaken {A B} (R R' : A -> B -> Prop) l m : (forall a b, In a l -> R a b -> R' a b) -> Forall2 R l m -> Forall2 R' l m.
Proof.
  intros H F. induction F; constructor.
  - apply H; auto. left. reflexivity.
  - apply IHF. intros a b Ha. apply H. right. exact Ha.
Qed.

Lemma forall2_swap {A B} (R : A -> B -> Prop) l m : Forall2 R l m -> Forall2 (fun b a => R a b) m l.
Proof. induction 1; constructor; auto. Qed.

(** ** Names of values *)
Lemma read_file_type t : parse_enum_value file_type_all file_type_name $"fileType_" (enum_uri $"fileType_" (file_type_name t)) = Ok t.
Proof. destruct t; vm_compute; reflexivity. Qed.
Lemma read_purpose t : parse_enum_value purpose_all purpose_name $"purpose_" (enum_uri $"purpose_" (purpose_name t)) = Ok t.
Proof. destruct t; vm_compute; reflexivity. Qed.
Lemma read_category t : parse_enum_value ref_category_all ref_category_name $"referenceCategory_"
  (enum_uri $"referenceCategory_" (ref_category_name t)) = Ok t.
Proof. destruct t; vm_compute; reflexivity. Qed.
Lemma read_annotation_type t : parse_enum_value annotation_type_all annotation_type_name $"annotationType_"
  (enum_uri $"annotationType_" (annotation_type_name t)) = Ok t.
Proof. destruct t; vm_compute; reflexivity. Qed.
Lemma read_rel_type t : parse_enum_value rel_type_all rel_type_name $"relationshipType_"
  (enum_uri $"relationshipType_" (rel_type_name t)) = Ok t.
Proof. destruct t; vm_compute; reflexivity. Qed.
Lemma read_algorithm a : convert_rdf_to_algorithm (algorithm_to_rdf_string a) = Ok a.
Proof. destruct a; vm_compute; reflexivity. Qed.

Section Reading.
Variable O : oracles.
Hypothesis HG : LicenseGrammar O.
Variable L : rdf_library.
Variable lab : nat -> pystr.
Hypothesis HLab : Labels lab.
Variable ns : pystr.
Hypothesis HN : RdfNamespace ns.
Hypothesis HL : RdfLibrary L ns.
Variable G : list triple.
Variable V : view.
Hypothesis HR : Reads G V.

Notation some_blank := (some_blank lab).

(** ** Single values *)
Lemma blank_truthy v : some_blank v -> node_truthy L v = true.
Proof. intros [k ->]. apply truthy_nonempty. apply (proj2 HLab k). Qed.
Lemma plain_truthy s : s <> [] -> node_truthy L (plain s) = true.
Proof. exact (truthy_nonempty s). Qed.
Lemma uri_truthy s : s <> [] -> node_truthy L (NUri s) = true.
Proof. exact (truthy_nonempty s). Qed.
Lemma literal_one {A} (f : node -> result A) s p v a : V s p = [v] -> node_truthy L v = true -> f v = Ok a ->
  parse_literal L f G s p = Ok ([], Some a).
Proof.
  intros E T F. unfold parse_literal, get_unique_value, apply_parsing_method. rewrite (reads_one _ _ _ _ _ HR E). cbn [only_value].
  rewrite T, F. reflexivity.
Qed.
Lemma literal_none {A} (f : node -> result A) s p : V s p = [] -> parse_literal L f G s p = Ok ([], None).
Proof. intros E. unfold parse_literal, get_unique_value. rewrite (reads_nil _ _ _ _ HR E). reflexivity. Qed.
Lemma literal_opt {A} (f : node -> result A) (g : A -> node) o s p : V s p = opt_nodes g o ->
  (forall a, o = Some a -> node_truthy L (g a) = true /\ f (g a) = Ok a) -> parse_literal L f G s p = Ok ([], o).
Proof.
  intros E H. destruct o as [a|]; cbn [opt_nodes] in E.
  - destruct (H a eq_refl). eapply literal_one; eauto.
  - apply literal_none. exact E.
Qed.
Lemma literal_text t s p : V s p = [plain t] -> Clean t -> parse_literal L stripped G s p = Ok ([], Some t).
Proof.
  intros E C. eapply literal_one; [exact E|apply plain_truthy; exact (proj1 C)|]. unfold stripped. cbn [node_str plain].
  rewrite clean_strip by exact C. reflexivity.
Qed.
Lemma literal_opt_text o s p : V s p = opt_nodes plain o -> IfSome Clean o -> parse_literal L stripped G s p = Ok ([], o).
Proof.
  intros E C. destruct o as [t|]; [exact (literal_text t s p E C)|apply literal_none; exact E].
Qed.
Lemma read_date d : PlainDate d -> node_truthy L (plain (stamp d)) = true /\ node_date (plain (stamp d)) = Ok d.
Proof. intro H. destruct (stamp_ok d H) as (_ & H1 & H2). split; [apply plain_truthy; exact H1|exact H2]. Qed.
Lemma literal_opt_date o s p : V s p = opt_nodes (fun d => plain (stamp d)) o -> IfSome PlainDate o ->
  parse_literal L node_date G s p = Ok ([], o).
Proof. intros E C. eapply literal_opt; [exact E|]. intros d ->. apply read_date. exact C. Qed.
Lemma read_actor a : ReadableActor a -> node_truthy L (plain (actor_str a)) = true /\ node_actor (plain (actor_str a)) = Ok a.
Proof.
  intro H. split; [destruct a as [[] n e]; reflexivity|]. apply ActorFacts.actor_round_trip. exact H.
Qed.
(** values that may be NOASSERTION or NONE *)
Lemma nn_none {A} (f : node -> result A) s p : V s p = [] -> parse_literal_nn L f G s p = Ok ([], None).
Proof. intros E. unfold parse_literal_nn, get_unique_value. rewrite (reads_nil _ _ _ _ HR E). reflexivity. Qed.
Lemma nn_one {A} (f : node -> result A) s p v a : V s p = [v] -> get_correctly_typed_value L f (Some v) = Ok ([], a) ->
  parse_literal_nn L f G s p = Ok ([], a).
Proof.
  intros E T. unfold parse_literal_nn, get_unique_value. rewrite (reads_one _ _ _ _ _ HR E). cbn [only_value]. rewrite T. reflexivity.
Qed.
Definition outside (v : node) : Prop :=
  node_truthy L v = true /\ is_uri v (spdx "noassertion") = false /\ py_is L v $"NOASSERTION" = false
  /\ is_uri v (spdx "none") = false /\ py_is L v $"NONE" = false.
Lemma typed_value {A} (f : node -> result A) v a : outside v -> f v = Ok a -> get_correctly_typed_value L f (Some v) = Ok ([], Some (NVal a)).
Proof.
  intros (H1 & H2 & H3 & H4 & H5) F. unfold get_correctly_typed_value, apply_parsing_method. rewrite H1, H2, H3, H4, H5, F. reflexivity.
Qed.
Lemma typed_noassertion {A} (f : node -> result A) : get_correctly_typed_value L f (Some (NUri (spdx "noassertion"))) = Ok ([], Some NNoAssertion).
Proof. reflexivity. Qed.
Lemma typed_none {A} (f : node -> result A) : get_correctly_typed_value L f (Some (NUri (spdx "none"))) = Ok ([], Some NNone).
Proof. reflexivity. Qed.
Lemma plain_outside s : s <> [] -> ~ Reserved s -> outside (plain s).
Proof.
  intros H N. split; [apply plain_truthy; exact H|]. split; [reflexivity|]. split; [|split; [reflexivity|]]; apply str_eqb_neq;
    intros ->; apply N; [right|left]; reflexivity.
Qed.
Lemma hash_outside a b : ~ In #"#" a -> a <> $"http://spdx.org/rdf/terms" -> outside (NUri (a ++ $"#" ++ b)).
Proof.
  intros H N. split; [apply uri_truthy; apply hash_nonempty|].
  assert (X : forall x, is_uri (NUri (a ++ $"#" ++ b)) (spdx x) = false).
  { intro x. cbn [is_uri]. apply str_eqb_neq. change (spdx x) with ($"http://spdx.org/rdf/terms" ++ $"#" ++ lit x). intro E.
    apply hash_inj in E; [destruct E as [E _]; exact (N E)|exact H|]. apply has_char_false. vm_compute. reflexivity. }
  assert (Y : forall x, ~ In #"#" x -> py_is L (NUri (a ++ $"#" ++ b)) x = false).
  { intros x Hx. cbn [py_is node_str]. apply str_eqb_neq. intro E. apply Hx. rewrite <- E. apply in_hash. }
  split; [apply X|]. split; [apply Y; apply has_char_false; vm_compute; reflexivity|]. split; [apply X|]. apply Y.
  apply has_char_false. vm_compute. reflexivity.
Qed.
Lemma blank_outside v : some_blank v -> outside v.
Proof.
  intros B. assert (N : ~ Reserved (node_str v)) by (destruct B as [k ->]; apply (proj2 HLab k)). pose proof (blank_truthy v B) as T. destruct B as [k ->]. split; [exact T|]. split; [reflexivity|].
  split; [|split; [reflexivity|]]; cbn [py_is]; apply str_eqb_neq; intro E; apply N; [right|left]; exact E.
Qed.

(** ** Licenses *)
Lemma licensing_ok s e : (exists c, In c s /\ is_space c = false) -> o_lic_parse O s = Ok e -> licensing O s = Ok (Some e).
Proof.
  intros (c & Hc & Hs) E. unfold licensing, licensing_parse. destruct (strip s) eqn:X; [|rewrite E; reflexivity].
  exfalso. exact (JsonRound.strip_has s c Hc Hs X).
Qed.
Lemma license_not_ns k : startswith LICENSE_NAMESPACE (ns ++ $"#" ++ k) = false.
Proof.
  apply startswith_false. intros t E.
  assert (X : forall (a b t k : pystr), ~ In #"#" a -> b ++ #"#" :: k = a ++ t -> exists u, b = a ++ u).
  { induction a as [|x a IH]; intros b t0 k0 Ha Eq; [exists b; reflexivity|]. destruct b as [|y b]; cbn [app] in Eq.
    - injection Eq as Eq _. exfalso. apply Ha. left. auto.
    - injection Eq as -> Eq. destruct (IH b t0 k0) as [u ->]; [intro K; apply Ha; right; exact K|exact Eq|]. exists u. reflexivity. }
  destruct (X LICENSE_NAMESPACE ns t k license_no_hash E) as [u Eu]. exact (rn_license _ HN u Eu).
Qed.
Lemma label_colon k : ~ In #":" (lab k).
Proof. destruct (proj2 HLab k) as (_ & H & _). exact H. Qed.
Lemma blank_not_license k : startswith LICENSE_NAMESPACE (lab k) = false.
Proof.
  apply startswith_false. intros t E. apply (label_colon k). rewrite E. apply in_app_iff. left. apply has_char_In. vm_compute. reflexivity.
Qed.
Lemma blank_not_ns k : startswith ns (lab k) = false.
Proof.
  apply startswith_false. intros t E. apply (label_colon k). rewrite E. apply in_app_iff. left. exact (rn_colon _ HN).
Qed.
Lemma key_solid k : Key O k -> exists c, In c k /\ is_space c = false.
Proof.
  intros (H1 & H2 & _). destruct k as [|c k]; [congruence|]. exists c. split; [left; reflexivity|]. inversion H2; assumption.
Qed.
Lemma expression_sym d k : Key O k -> parse_expression O L (S d) G ns (Some (license_symbol_node O k ns)) = Ok (Some (LSym k)).
Proof.
  intro H. pose proof (key_solid k H) as So. destruct H as (H1 & H2 & H3 & H4). unfold license_symbol_node. destruct (on_spdx_list O k).
  - cbn [parse_expression node_str]. rewrite startswith_app, remove_prefix_app. apply licensing_ok; assumption.
  - cbn [parse_expression node_str]. rewrite license_not_ns, startswith_app. cbn [fragment_of]. rewrite (rl_fragment _ _ HL k H2). cbn [bind].
    apply licensing_ok; assumption.
Qed.
Lemma atom_solid e : Atom O e -> exists c, In c (o_lic_str O e) /\ is_space c = false.
Proof.
  intros [k H|k x H _ _].
  - rewrite (lg_sym _ HG). apply key_solid. exact H.
  - rewrite (lg_with _ HG). destruct (key_solid k H) as (c & Hc & Hs). exists c. split; [apply in_app_iff; left; exact Hc|exact Hs].
Qed.
Lemma join_in sep (x : pystr) l c : In x l -> In c x -> In c (join sep l).
Proof.
  induction l as [|a l IH]; intros Hx Hc; [destruct Hx|]. destruct l as [|b l].
  - destruct Hx as [->|[]]. exact Hc.
  - change (join sep (a :: b :: l)) with (a ++ sep ++ join sep (b :: l)). apply in_app_iff. destruct Hx as [->|Hx]; [left; exact Hc|].
    right. apply in_app_iff. right. apply IH; assumption.
Qed.
Lemma exception_reads x v : ExceptionAt lab V x v -> parse_license_exception L G (Some v) = Ok x.
Proof.
  intros [->|((k & ->) & E)]; unfold parse_license_exception.
  - cbn [node_str]. rewrite startswith_app, remove_prefix_app. reflexivity.
  - cbn [node_str]. rewrite blank_not_license. rewrite (reads_one _ _ _ _ _ HR E). reflexivity.
Qed.
Lemma expression_atom d e v : Atom O e -> ExprAt O lab ns V e v -> parse_expression O L (S (S d)) G ns (Some v) = Ok (Some e).
Proof.
  intros [k H|k x H Hx Hp] E; inversion E; subst.
  - apply expression_sym. exact H.
  - match goal with T : V _ RDF_type = _, M : V _ (spdx "member") = _, X : item _ _ _ _ |- _ => rename T into ET; rename M into EM; destruct X as (w & EW & AW) end.
    cbn [parse_expression node_str]. rewrite blank_not_license, blank_not_ns.
    rewrite (reads_one _ _ _ _ _ HR ET), (reads_one _ _ _ _ _ HR EM), (reads_one _ _ _ _ _ HR EW). cbn [any_value].
    change (is_uri (NUri (spdx "WithExceptionOperator")) (spdx "ConjunctiveLicenseSet")) with false.
    change (is_uri (NUri (spdx "WithExceptionOperator")) (spdx "DisjunctiveLicenseSet")) with false.
    change (is_uri (NUri (spdx "WithExceptionOperator")) (spdx "WithExceptionOperator")) with true.
    cbn match. pose proof (expression_sym d k H) as Y. cbn [parse_expression] in Y. rewrite Y. cbn [bind]. rewrite (exception_reads x w AW). cbn [bind show_expression].
    rewrite (lg_sym _ HG). apply licensing_ok; [|exact Hp]. destruct (key_solid k H) as (c & Hc & Hs). exists c.
    split; [apply in_app_iff; left; exact Hc|exact Hs].
Qed.
Lemma same_expr_refl e : SameExpr e e.
Proof.
  induction e as [k|k x|l IH|l IH] using lexpr_all_ind; try constructor; apply (Same_and l l l) || apply (Same_or l l l); try apply Permutation_refl;
    (induction IH; constructor; auto).
Qed.

Lemma forall2_length {A B} (R : A -> B -> Prop) l m : Forall2 R l m -> List.length l = List.length m.
Proof. induction 1; cbn; congruence. Qed.
Lemma forall2_forall {A B} (R : A -> B -> Prop) (P : B -> Prop) l m : Forall2 (fun a b => R a b /\ P b) l m -> Forall P m.
Proof. induction 1; constructor; tauto. Qed.
Lemma conj_solid e : Conj O e -> exists c, In c (o_lic_str O e) /\ is_space c = false.
Proof.
  intros [H|(l & -> & Hl & _ & F)]; [apply atom_solid; exact H|]. rewrite (proj1 (lg_and _ HG l Hl F)).
  destruct l as [|a l]; [cbn in Hl; lia|]. inversion F as [|? ? Ha _]; subst. destruct (atom_solid a Ha) as (c & Hc & Hs). exists c.
  split; [|exact Hs]. apply (join_in _ (o_lic_str O a)); [left; reflexivity|exact Hc].
Qed.
Lemma expression_conj d e v : Conj O e -> ExprAt O lab ns V e v ->
  exists e', parse_expression O L (S (S (S d))) G ns (Some v) = Ok (Some e') /\ SameExpr e e' /\ Conj O e'.
Proof.
  intros [H|(l & -> & Hl & ND & F)] E.
  { exists e. split; [apply expression_atom; assumption|]. split; [apply same_expr_refl|left; exact H]. }
  inversion E as [| |l0 j vs ET EM NV FV|]; subst.
  pose proof (HR (NBlank (lab j)) (spdx "member") NV) as P.
  destruct (forall2_permutation _ _ _ _ FV P) as (l' & Pl & Fl).
  assert (F' : Forall (Atom O) l') by (eapply Permutation_Forall; eauto).
  assert (Hl' : 2 <= List.length l') by (rewrite <- (Permutation_length Pl); exact Hl).
  exists (LAnd l'). split.
  - cbn [parse_expression node_str]. rewrite blank_not_license, blank_not_ns. rewrite (reads_one _ _ _ _ _ HR ET). cbn [any_value].
    change (is_uri (NUri (spdx "ConjunctiveLicenseSet")) (spdx "ConjunctiveLicenseSet")) with true. cbn match.
    assert (Ee : each (fun m => parse_expression O L (S (S d)) G ns (Some m)) (objects G (NBlank (lab j)) (spdx "member")) = Ok (map Some l')).
    { apply each_same. clear - F' Fl HG HLab HN HL HR. induction Fl as [|a w l' vs' H1 H2 IH]; [constructor|]. inversion F'; subst. constructor; [|apply IH; assumption].
      apply expression_atom; assumption. }
    cbn [parse_expression] in Ee. rewrite Ee. cbn [bind]. rewrite map_map. cbn [show_expression].
    destruct (lg_and _ HG l' Hl' F') as [_ E2]. apply licensing_ok; [|exact E2].
    destruct l' as [|a l']; [cbn in Hl'; lia|]. inversion F' as [|? ? Ha _]; subst. destruct (atom_solid a Ha) as (c & Hc & Hs). exists c.
    split; [|exact Hs]. apply (join_in _ (o_lic_str O a)); [left; reflexivity|exact Hc].
  - split.
    + apply (Same_and l l l'); [|exact Pl]. clear. induction l; constructor; auto using same_expr_refl.
    + right. exists l'. repeat (split; auto). eapply Permutation_NoDup; eauto.
Qed.
Lemma expression_dnf d e v : Dnf O e -> ExprAt O lab ns V e v ->
  exists e', parse_expression O L (S (S (S (S d)))) G ns (Some v) = Ok (Some e') /\ SameExpr e e'.
Proof.
  intros [H|(l & -> & Hl & ND & F)] E.
  { destruct (expression_conj (S d) e v H E) as (e' & E1 & E2 & _). exists e'. auto. }
  inversion E as [| | |l0 j vs ET EM NV FV]; subst.
  pose proof (HR (NBlank (lab j)) (spdx "member") NV) as P.
  destruct (forall2_permutation _ _ _ _ FV P) as (l' & Pl & Fl).
  assert (F' : Forall (Conj O) l') by (eapply Permutation_Forall; eauto).
  assert (Ee : exists m, each (fun m => parse_expression O L (S (S (S d))) G ns (Some m)) (objects G (NBlank (lab j)) (spdx "member")) = Ok (map Some m)
    /\ Forall2 (fun a b => SameExpr a b /\ Conj O b) l' m).
  { clear - F' Fl HG HLab HN HL HR. induction Fl as [|a w l' vs' H1 H2 IH]; [exists []; split; constructor|]. inversion F'; subst.
    destruct IH as (m & Em & Fm); [assumption|]. destruct (expression_conj d a w) as (b & E1 & E2 & E3); [assumption|assumption|].
    exists (b :: m). cbn [each]. rewrite E1. cbn [bind]. rewrite Em. split; [reflexivity|]. constructor; auto. }
  destruct Ee as (m & Em & Fm).
  assert (Hl' : 2 <= List.length m) by (rewrite <- (forall2_length _ _ _ Fm), <- (Permutation_length Pl); exact Hl).
  pose proof (forall2_forall _ _ _ _ Fm) as Fc.
  exists (LOr m). split.
  - cbn [parse_expression node_str]. rewrite blank_not_license, blank_not_ns. rewrite (reads_one _ _ _ _ _ HR ET). cbn [any_value].
    change (is_uri (NUri (spdx "DisjunctiveLicenseSet")) (spdx "ConjunctiveLicenseSet")) with false.
    change (is_uri (NUri (spdx "DisjunctiveLicenseSet")) (spdx "DisjunctiveLicenseSet")) with true. cbn match.
    cbn [parse_expression] in Em. rewrite Em. cbn [bind]. rewrite map_map. cbn [show_expression].
    apply licensing_ok; [|exact (lg_or _ HG m Hl' Fc)].
    destruct m as [|a m]; [cbn in Hl'; lia|]. inversion Fc as [|? ? Ha _]; subst. destruct (conj_solid a Ha) as (c & Hc & Hs). exists c.
    split; [|exact Hs]. apply (join_in _ (o_lic_str O a)); [left; reflexivity|exact Hc].
  - destruct (forall2_permutation _ _ _ _ (forall2_swap _ _ _ (forall2_weaken _ _ _ _ (fun a b _ H => proj1 H) Fm)) (Permutation_sym Pl)) as (m' & Pm & Fm').
    apply (Same_or l m' m); [apply forall2_swap in Fm'; exact Fm'|apply Permutation_sym; exact Pm].
Qed.
Lemma license_expr e v : Dnf O e -> ExprAt O lab ns V e v -> exists e', parse_license O L G ns v = Ok (Some e') /\ SameExpr e e'.
Proof.
  intros H E. unfold parse_license. pose proof (rl_depth _ _ HL) as D.
  destruct (r_depth L) as [|[|[|[|d]]]]; try lia. apply expression_dnf; assumption.
Qed.
Lemma symbol_outside k : Key O k -> outside (license_symbol_node O k ns).
Proof.
  intros (H1 & _ & H3 & _). unfold license_symbol_node. destruct (on_spdx_list O k).
  - split; [reflexivity|]. split; [reflexivity|]. split; [reflexivity|]. split; reflexivity.
  - apply hash_outside; [exact (rn_hash _ HN)|exact (rn_terms _ HN)].
Qed.
Lemma dnf_outside e v : Dnf O e -> ExprAt O lab ns V e v -> outside v.
Proof.
  intros H E. inversion E; subst; try (apply blank_outside; eexists; reflexivity). apply symbol_outside.
  destruct H as [[H|(l & ? & _)]|(l & ? & _)]; [|discriminate|discriminate]. inversion H; assumption.
Qed.
Lemma license_reads l v : DnfLicense O l -> LicenseAt O lab ns V l v ->
  exists l', (do (log, x) <- get_correctly_typed_value L (parse_license O L G ns) (Some v); Ok (log, as_license x)) = Ok ([], Some l')
  /\ SameLicense l l'.
Proof.
  intros H A. destruct l as [e| |]; cbn [LicenseAt DnfLicense] in *.
  - destruct (license_expr e v H A) as (e' & E & SE). exists (NVal e'). rewrite (typed_value _ _ _ (dnf_outside e v H A) E). split; [reflexivity|].
    constructor. exact SE.
  - subst v. exists NNoAssertion. split; [reflexivity|constructor].
  - subst v. exists NNone. split; [reflexivity|constructor].
Qed.
Lemma license_field o s p : IfSome (DnfLicense O) o -> opt_item (LicenseAt O lab ns) o V (V s p) ->
  exists o', parse_license_field O L G ns s p = Ok ([], o') /\ SameOpt SameLicense o o'.
Proof.
  intros H A. destruct o as [l|]; cbn [opt_item IfSome] in *.
  - destruct A as (v & E & A). destruct (license_reads l v H A) as (l' & El & Sl). exists (Some l'). split; [|constructor; exact Sl].
    unfold parse_license_field, parse_literal_nn, get_unique_value. rewrite (reads_one _ _ _ _ _ HR E). cbn [only_value].
    destruct (get_correctly_typed_value L (parse_license O L G ns) (Some v)) as [[log x]|]; [|discriminate]. cbn [bind app] in *. exact El.
  - exists None. split; [|constructor]. unfold parse_license_field. rewrite nn_none by exact A. reflexivity.
Qed.
Lemma all_some_map {A} (l : list A) : all_some (map Some l) = Some l.
Proof. induction l as [|a l IH]; [reflexivity|]. cbn. rewrite IH. reflexivity. Qed.
Lemma license_list l s p : Forall (DnfLicense O) l /\ NoDup l -> items (LicenseAt O lab ns) l V (V s p) ->
  exists m, parse_license_list O L G ns s p = Ok ([], map Some m) /\ SameList SameLicense l m.
Proof.
  intros [F _] [A ND]. destruct (forall2_permutation _ _ _ _ A (HR s p ND)) as (l' & P & A').
  assert (F' : Forall (DnfLicense O) l') by (eapply Permutation_Forall; eauto).
  assert (X : exists m, parse_license_list O L G ns s p = Ok ([], map Some m) /\ Forall2 SameLicense l' m).
  { unfold parse_license_list. clear - A' F' HG HLab HN HL HR. induction A' as [|a w l' vs' H1 H2 IH]; [exists []; split; constructor|]. inversion F'; subst.
    destruct IH as (m & Em & Fm); [assumption|]. destruct (license_reads a w) as (b & E1 & E2); [assumption|assumption|].
    exists (b :: m). cbn [each_log]. rewrite E1. cbn [bind]. rewrite Em. split; [reflexivity|]. constructor; auto. }
  destruct X as (m & Em & Fm). exists m. split; [exact Em|]. exists l'. auto.
Qed.

(** ** Lists of texts *)
Lemma texts_of l : py_texts L (map plain l) = map Some l.
Proof. induction l as [|a l IH]; [reflexivity|]. cbn [map py_texts] in *. unfold py_texts in IH. rewrite <- IH. reflexivity. Qed.
Lemma texts_read l s p : V s p = map plain l -> NoDup l -> exists m, py_texts L (objects G s p) = map Some m /\ Permutation l m.
Proof.
  intros E ND. assert (N : NoDup (V s p)) by (rewrite E; apply FinFun.Injective_map_NoDup; [exact plain_inj|exact ND]).
  pose proof (HR s p N) as P. rewrite E in P. apply Permutation_sym, Permutation_map_inv in P as (m & Em & P). rewrite Em.
  exists m. split; [apply texts_of|exact P].
Qed.
Lemma mapped_read {A} (f : A -> node) (g : node -> result A) l s p : V s p = map f l -> NoDup l -> (forall a b, f a = f b -> a = b) ->
  (forall a, g (f a) = Ok a) -> exists m, each_log (apply_parsing_method g) (objects G s p) = Ok ([], map Some m) /\ Permutation l m.
Proof.
  intros E ND Inj Hg. assert (N : NoDup (V s p)) by (rewrite E; apply FinFun.Injective_map_NoDup; [exact Inj|exact ND]).
  pose proof (HR s p N) as P. rewrite E in P. apply Permutation_sym, Permutation_map_inv in P as (m & Em & P). rewrite Em.
  exists m. split; [|exact P]. clear - Hg. induction m as [|a m IH]; [reflexivity|]. cbn [map each_log].
  unfold apply_parsing_method at 1. rewrite Hg. cbn [bind]. rewrite IH. reflexivity.
Qed.
(** lists of nodes with something said about each *)
Lemma items_read {A} (At : view -> A -> node -> Prop) (g : node -> result A) l s p : items At l V (V s p) ->
  (forall a v, In a l -> At V a v -> g v = Ok a) -> exists m, each g (objects G s p) = Ok m /\ Permutation l m.
Proof.
  intros [A1 ND] Hg. destruct (forall2_permutation _ _ _ _ A1 (HR s p ND)) as (m & P & A2). exists m. split; [|exact P].
  apply each_same. eapply forall2_weaken; [|exact A2]. intros a v Ha. apply Hg. eapply Permutation_in; [apply Permutation_sym; exact P|exact Ha].
Qed.

(** ** Parts of elements *)
Ltac said H := unfold says in H; repeat (apply Forall_cons_iff in H; let K := fresh "q0" in destruct H as [K H]; cbn [fst snd] in K).
Lemma checksum_reads c v : Clean (ck_value c) -> ChecksumAt lab V c v -> RdfParser.parse_checksum L G v = Ok c.
Proof.
  intros H [B S0]. said S0. unfold RdfParser.parse_checksum. unfold is in *.
  rewrite (literal_one _ _ _ _ (ck_alg c) q1); [|destruct c as [[] ?]; reflexivity|apply read_algorithm]. cbn [bind].
  rewrite (literal_text _ _ _ q2 H). destruct c; reflexivity.
Qed.

Lemma code_reads c v : RdfCode c -> CodeAt lab V c v ->
  exists c', RdfParser.parse_package_verification_code L G v = Ok c' /\ SameCode c c'.
Proof.
  intros H [B S0]. said S0. unfold is in *. destruct (texts_read _ _ _ q2 (rv_excluded _ H)) as (m & Em & Pm).
  exists {| vc_value := vc_value c; vc_excluded := m |}. split; [|constructor; [reflexivity|exact Pm]].
  unfold RdfParser.parse_package_verification_code. rewrite (literal_text _ _ _ q1 (rv_value _ H)), Em. cbn [bind raise_if_named].
  unfold c_items. rewrite all_some_map. reflexivity.
Qed.
Lemma known_type c t : In t (category_types c) -> replace REFERENCE_NAMESPACE $"" (REFERENCE_NAMESPACE ++ t) = t.
Proof.
  assert (X : forallb (fun c => forallb (fun t => str_eqb (replace REFERENCE_NAMESPACE $"" (REFERENCE_NAMESPACE ++ t)) t) (category_types c)) ref_category_all = true)
    by (vm_compute; reflexivity).
  rewrite forallb_forall in X. assert (Hc : In c ref_category_all) by (destruct c; cbn; tauto). specialize (X c Hc).
  rewrite forallb_forall in X. intro Ht. apply str_eqb_eq. apply X. exact Ht.
Qed.
Lemma ref_type_reads r : Unspaced (er_type r) ->
  node_truthy L (reference_type_node r ns) = true /\ parse_external_package_ref_type L ns (reference_type_node r ns) = Ok (Some (er_type r)).
Proof.
  intro H. unfold reference_type_node. destruct (str_in (er_type r) (category_types (er_category r))) eqn:E.
  - split; [reflexivity|]. unfold parse_external_package_ref_type. cbn [node_str]. rewrite startswith_false by (intros t; apply (rn_reference _ HN)).
    rewrite startswith_app. rewrite (known_type (er_category r)); [reflexivity|]. apply str_in_In. exact E.
  - split; [apply uri_truthy, hash_nonempty|]. unfold parse_external_package_ref_type. cbn [node_str]. rewrite startswith_app. cbn [fragment_of].
    rewrite (rl_fragment _ _ HL _ H). reflexivity.
Qed.
Lemma package_ref_reads r v : RdfPackageRef r -> PackageRefAt lab ns V r v -> RdfParser.parse_external_package_ref L G ns v = Ok r.
Proof.
  intros H [B S0]. said S0. unfold is in *. unfold RdfParser.parse_external_package_ref.
  rewrite (literal_text _ _ _ q3 (rr_locator _ H)). cbn [bind].
  rewrite (literal_one _ _ _ _ (er_category r) q1); [|destruct r as [[] ? ? ?]; reflexivity|apply read_category]. cbn [bind].
  destruct (ref_type_reads r (rr_type _ H)) as [T1 T2]. rewrite (literal_one _ _ _ _ (Some (er_type r)) q2 T1 T2). cbn [bind].
  rewrite (literal_opt_text _ _ _ q4 (rr_comment _ H)). destruct r; reflexivity.
Qed.
Lemma pointer_reads bytes f z w : PointerAt lab bytes f V z w -> z <> 0%Z ->
  objects G w RDF_type = [NUri (if bytes then ptr "ByteOffsetPointer" else ptr "LineCharPointer")]
  /\ parse_range_value L G w (if bytes then ptr "offset" else ptr "lineNumber") = Ok (Some z).
Proof.
  intros [B S0] Hz. said S0. unfold is in *. split; [exact (reads_one _ _ _ _ _ HR q0)|].
  unfold parse_range_value. rewrite (reads_one _ _ _ _ _ HR q2). cbn [only_value]. unfold int_node, node_truthy, py_int, lit_value.
  rewrite (rl_int _ _ HL). rewrite (proj2 (Z.eqb_neq z 0) Hz). reflexivity.
Qed.
Lemma range_reads f bytes r v : NonZero r -> RangeAt lab f V (bytes, r) v -> parse_ranges L G v = Ok (bytes, (Some (fst r), Some (snd r))).
Proof.
  intros [H1 H2] [B S0]. said S0. unfold is in *. destruct q1 as (a & Ea & Ha), q2 as (b & Eb & Hb).
  unfold parse_ranges, get_pointer_type. rewrite (reads_one _ _ _ _ _ HR Ea), (reads_one _ _ _ _ _ HR Eb). cbn [only_value].
  rewrite (blank_truthy a (proj1 Ha)), (blank_truthy b (proj1 Hb)). cbn [fst snd] in *.
  destruct (pointer_reads _ _ _ _ Ha H1) as [T1 X1]. destruct (pointer_reads _ _ _ _ Hb H2) as [T2 X2].
  rewrite T1, T2. cbn [any_value bind].
  destruct (opt_node_eq_dec _ _) as [_|N]; [|congruence].
  replace (pointer_matching (Some (NUri (if bytes then ptr "ByteOffsetPointer" else ptr "LineCharPointer"))))
    with (Some (bytes, if bytes then ptr "offset" else ptr "lineNumber")) by (destruct bytes; reflexivity).
  rewrite X1, X2. reflexivity.
Qed.
Lemma ranges_read f bytes lines s : NonZero bytes -> NonZero lines ->
  items (RangeAt lab f) [(true, bytes); (false, lines)] V (V s (spdx "range")) ->
  read_ranges L G (objects G s (spdx "range")) None None
  = Ok ([], (Some (Some (fst bytes), Some (snd bytes)), Some (Some (fst lines), Some (snd lines)))).
Proof.
  intros Hb Hl [A ND]. pose proof (HR s (spdx "range") ND) as P.
  inversion A as [|? v1 ? l1 A1 A']; subst. inversion A' as [|? v2 ? l2 A2 A'']; subst. inversion A''; subst.
  match goal with E : [v1; v2] = _ |- _ => rewrite <- E in P end.
  pose proof (range_reads f true bytes v1 Hb A1) as R1. pose proof (range_reads f false lines v2 Hl A2) as R2.
  apply Permutation_length_2_inv in P as [P|P]; rewrite P; cbn [read_ranges]; unfold apply_parsing_method; rewrite R1, R2; reflexivity.
Qed.

(** ** Ids *)
Variable bound : list (pystr * pystr).
Variable refs : list ext_doc_ref.
Hypothesis Hrefs : Forall (RdfDocRef ns) refs.
Hypothesis Hdist : NoDup (map edr_id refs).
Hypothesis Hbound : forall r b, In r refs -> RdfId b -> r_normalize L bound (edr_uri r ++ $"#" ++ b) = edr_id r ++ $":" ++ b.
Lemma id_internal bd id : Unspaced id -> parse_spdx_id L bd (Some (NUri (ns ++ $"#" ++ id))) ns = Ok (Some id).
Proof.
  intros H. unfold parse_spdx_id. rewrite uri_truthy by apply hash_nonempty. cbn [negb node_str].
  rewrite app_assoc, startswith_app, <- app_assoc. cbn [fragment_of]. rewrite (rl_fragment _ _ HL id H). reflexivity.
Qed.
Lemma id_reads id : RdfRef refs id -> parse_spdx_id L bound (Some (NUri (uri_of ns refs id))) ns = Ok (Some id).
Proof.
  intro H. pose proof (uri_of_spec ns refs Hrefs Hdist id H) as U. destruct U as [id H'|r b Hr Hb].
  - apply id_internal. apply rdf_id_not in H'. tauto.
  - unfold parse_spdx_id. rewrite uri_truthy by apply hash_nonempty. cbn [negb node_str].
    rewrite Forall_forall in Hrefs. specialize (Hrefs r Hr).
    rewrite startswith_false.
    + rewrite (proj2 (has_char_In _ _) (in_hash (edr_uri r) b)). rewrite Hbound; auto.
    + intros t E. rewrite <- app_assoc in E. apply hash_inj in E; [|exact (rx_hash _ _ Hrefs)|exact (rn_hash _ HN)].
      destruct E as [E _]. exact (rx_other _ _ Hrefs E).
Qed.
Lemma uri_outside id : RdfRef refs id -> outside (NUri (uri_of ns refs id)).
Proof.
  intro H. pose proof (uri_of_spec ns refs Hrefs Hdist id H) as U. destruct U as [id H'|r b Hr Hb].
  - apply hash_outside; [exact (rn_hash _ HN)|exact (rn_terms _ HN)].
  - split; [apply uri_truthy, hash_nonempty|].
    rewrite Forall_forall in Hrefs. pose proof (rx_hash _ _ (Hrefs r Hr)) as Hh. clear H Hr.
    assert (X : forall x, startswith $"SPDXRef-" (lit x) = false -> is_uri (NUri (edr_uri r ++ $"#" ++ b)) (spdx x) = false).
    { intros x Hx. cbn [is_uri]. apply str_eqb_neq. change (spdx x) with ($"http://spdx.org/rdf/terms" ++ $"#" ++ lit x). intro E.
      apply hash_inj in E; [|exact Hh|apply has_char_false; vm_compute; reflexivity]. destruct E as [_ E]. subst b.
      destruct Hb as (t & Et & _). rewrite Et, startswith_app in Hx. discriminate. }
    assert (Y : forall x, ~ In #"#" x -> py_is L (NUri (edr_uri r ++ $"#" ++ b)) x = false).
    { intros x Hx. cbn [py_is node_str]. apply str_eqb_neq. intro E. apply Hx. rewrite <- E. apply in_hash. }
    split; [apply X; vm_compute; reflexivity|]. split; [apply Y; apply has_char_false; vm_compute; reflexivity|].
    split; [apply X; vm_compute; reflexivity|]. apply Y. apply has_char_false. vm_compute. reflexivity.
Qed.

(** ** Fields *)
Lemma copyright_reads o s p : V s p = opt_nodes (fun x => plain (nn_text (fun x => x) x)) o -> IfSome CleanNN o ->
  parse_literal_nn L stripped G s p = Ok ([], o).
Proof.
  intros E H. destruct o as [[t| |]|]; cbn [opt_nodes nn_text IfSome CleanNN] in *; [| | |apply nn_none; exact E];
    (eapply nn_one; [exact E|]); [|reflexivity|reflexivity].
  destruct H as [H1 H2]. apply typed_value; [apply plain_outside; [exact (proj1 H1)|exact H2]|]. unfold stripped. cbn [node_str plain].
  rewrite clean_strip by exact H1. reflexivity.
Qed.
Lemma download_reads x s p : V s p = [nn_node x] -> CleanNN x -> parse_literal_nn L stripped G s p = Ok ([], Some x).
Proof.
  intros E H. eapply nn_one; [exact E|]. destruct x as [t| |]; [|reflexivity|reflexivity].
  destruct H as [H1 H2]. apply typed_value; [apply plain_outside; [exact (proj1 H1)|exact H2]|]. unfold stripped. cbn [node_str plain nn_node].
  rewrite clean_strip by exact H1. reflexivity.
Qed.
Definition na_nn {A} (x : na A) : nn A := match x with AVal a => NVal a | ANoAssertion => NNoAssertion end.
Lemma c_na_nn {A} c fld (o : option (na A)) : c_na c fld (option_map na_nn o) = COk o.
Proof. destruct o as [[a|]|]; reflexivity. Qed.
Lemma supplier_reads o s p : V s p = opt_nodes (fun a => plain (na_text actor_str a)) o -> IfSome ReadableNA o ->
  parse_literal_nn L node_actor G s p = Ok ([], option_map na_nn o).
Proof.
  intros E H. destruct o as [[a|]|]; cbn [opt_nodes na_text IfSome] in *; [| |apply nn_none; exact E];
    (eapply nn_one; [exact E|]); [|reflexivity].
  destruct (read_actor a H) as [T R]. cbn [option_map na_nn]. apply typed_value; [|exact R]. apply plain_outside.
  - destruct a as [[] n e]; discriminate.
  - intros [K|K]; destruct a as [[] n e]; discriminate.
Qed.
Lemma name_reads o s p : V s p = opt_nodes na_node o ->
  IfSome (fun x => match x with AVal t => Clean t /\ ~ Reserved t | ANoAssertion => True end) o ->
  parse_literal_nn L stripped G s p = Ok ([], option_map na_nn o).
Proof.
  intros E H. destruct o as [[t|]|]; cbn [opt_nodes na_node IfSome] in *; [| |apply nn_none; exact E];
    (eapply nn_one; [exact E|]); [|reflexivity].
  destruct H as [H1 H2]. apply typed_value; [apply plain_outside; [exact (proj1 H1)|exact H2]|]. unfold stripped. cbn [node_str plain].
  rewrite clean_strip by exact H1. reflexivity.
Qed.
Lemma checksums_read l s : Forall (fun c => Clean (ck_value c)) l -> items (ChecksumAt lab) l V (V s (spdx "checksum")) ->
  exists m, each (RdfParser.parse_checksum L G) (objects G s (spdx "checksum")) = Ok m /\ Permutation l m.
Proof.
  intros F A. eapply items_read; [exact A|]. rewrite Forall_forall in F. intros a v Ha. apply checksum_reads. auto.
Qed.
Lemma refs_read l s : Forall RdfPackageRef l -> items (PackageRefAt lab ns) l V (V s (spdx "externalRef")) ->
  exists m, each (RdfParser.parse_external_package_ref L G ns) (objects G s (spdx "externalRef")) = Ok m /\ Permutation l m.
Proof.
  intros F A. eapply items_read; [exact A|]. rewrite Forall_forall in F. intros a v Ha. apply package_ref_reads. auto.
Qed.
Lemma code_field o s : IfSome RdfCode o -> opt_item (CodeAt lab) o V (V s (spdx "packageVerificationCode")) ->
  exists o', parse_literal L (RdfParser.parse_package_verification_code L G) G s (spdx "packageVerificationCode") = Ok ([], o')
  /\ SameOpt SameCode o o'.
Proof.
  intros H A. destruct o as [c|]; cbn [opt_item IfSome] in *.
  - destruct A as (v & E & A). destruct (code_reads c v H A) as (c' & Ec & Sc). exists (Some c'). split; [|constructor; exact Sc].
    eapply literal_one; [exact E|apply blank_truthy; exact (proj1 A)|exact Ec].
  - exists None. split; [apply literal_none; exact A|constructor].
Qed.

(** ** Files *)
Lemma file_reads f : RdfFile O f -> says (file_says O lab ns f) V (NUri (file_uri ns (fi_id f))) ->
  exists f', RdfParser.parse_file O L G bound ns (NUri (file_uri ns (fi_id f))) = Ok f' /\ SameFile f f'.
Proof.
  intros H A. set (s := NUri (file_uri ns (fi_id f))) in *. said A. unfold is in *.
  destruct (mapped_read _ (parse_enum_value file_type_all file_type_name $"fileType_") _ _ _ q1 (rf_types _ _ H) file_type_uri_inj read_file_type)
    as (types & E1 & P1).
  destruct (checksums_read _ _ (rf_checksums _ _ H) q2) as (sums & E2 & P2).
  destruct (license_field _ _ _ (rf_concluded _ _ H) q3) as (concluded & E3 & P3).
  destruct (license_list _ _ _ (rf_info _ _ H) q4) as (info & E4 & P4).
  destruct (texts_read _ _ _ q9 (rf_contributors _ _ H)) as (contributors & E5 & P5).
  destruct (texts_read _ _ _ q10 (rf_attribution _ _ H)) as (attribution & E6 & P6).
  eexists. split.
  - unfold RdfParser.parse_file. unfold s at 1. unfold file_uri. rewrite id_internal by (apply (rdf_id_not _ (rf_id _ _ H))). cbn [bind].
    rewrite (literal_text _ _ _ q0 (rf_name _ _ H)). cbn [bind]. rewrite E2. cbn [bind]. rewrite E1. cbn [bind]. rewrite E3. cbn [bind].
    rewrite E4. cbn [bind]. rewrite (literal_opt_text _ _ _ q5 (rf_lic_comment _ _ H)). cbn [bind].
    rewrite (copyright_reads _ _ _ q6 (rf_copyright _ _ H)). cbn [bind]. rewrite (literal_opt_text _ _ _ q8 (rf_notice _ _ H)). cbn [bind].
    rewrite (literal_opt_text _ _ _ q7 (rf_comment _ _ H)). cbn [bind]. rewrite E5, E6. cbn [app raise_if_named bind]. unfold c_items.
    rewrite !all_some_map. cbn. reflexivity.
  - constructor; cbn; auto.
Qed.

(** ** Packages *)
Lemma package_reads p : RdfPackage O p -> says (package_says O lab ns p) V (NUri (file_uri ns (pk_id p))) ->
  exists p', RdfParser.parse_package O L G bound ns (NUri (file_uri ns (pk_id p))) = Ok p' /\ SamePackage p p'.
Proof.
  intros H A. set (s := NUri (file_uri ns (pk_id p))) in *. said A. unfold is in *.
  destruct (code_field _ _ (rp_verif _ _ H) q7) as (code & E1 & P1).
  destruct (checksums_read _ _ (rp_checksums _ _ H) q8) as (sums & E2 & P2).
  destruct (license_field _ _ _ (rp_concluded _ _ H) q11) as (concluded & E3 & P3).
  destruct (license_list _ _ _ (rp_info _ _ H) q12) as (info & E4 & P4).
  destruct (license_field _ _ _ (rp_declared _ _ H) q13) as (declared & E5 & P5).
  destruct (refs_read _ _ (rp_refs _ _ H) q19) as (prefs & E6 & P6).
  destruct (texts_read _ _ _ q20 (rp_attribution _ _ H)) as (attribution & E7 & P7).
  assert (E8 : exists h, parse_literal L stripped G s DOAP_homepage = Ok ([], h) /\ match h with Some x => Some (NVal x) | None => None end = pk_homepage p).
  { pose proof (rp_homepage _ _ H) as Hh. destruct (pk_homepage p) as [x|]; cbn [IfSome opt_nodes] in *.
    - destruct Hh as (t & -> & Ct). exists (Some t). split; [exact (literal_text t _ _ q9 Ct)|reflexivity].
    - exists None. split; [apply literal_none; exact q9|reflexivity]. }
  destruct E8 as (h & E8 & P8).
  assert (E9 : match any_value (objects G s (spdx "filesAnalyzed")) with Some n => node_truthy L n | None => true end = pk_files_analyzed p).
  { rewrite (reads_one _ _ _ _ _ HR q6). cbn [any_value node_truthy lit_value]. destruct (pk_files_analyzed p); [rewrite (rl_true _ _ HL)|rewrite (rl_false _ _ HL)]; reflexivity. }
  eexists. split.
  - unfold RdfParser.parse_package. unfold s at 1. unfold file_uri. rewrite id_internal by (apply (rdf_id_not _ (rp_id _ _ H))). cbn [bind].
    rewrite (literal_text _ _ _ q0 (rp_name _ _ H)). cbn [bind]. rewrite (download_reads _ _ _ q5 (rp_download _ _ H)). cbn [bind].
    rewrite E2. cbn [bind]. rewrite (literal_opt_text _ _ _ q1 (rp_version _ _ H)). cbn [bind].
    rewrite (literal_opt_text _ _ _ q2 (rp_file_name _ _ H)). cbn [bind].
    rewrite (supplier_reads _ _ _ q3 (rp_supplier _ _ H)). cbn [bind]. rewrite (supplier_reads _ _ _ q4 (rp_originator _ _ H)). cbn [bind].
    rewrite E1. cbn [bind]. rewrite E6. cbn [bind]. rewrite E9. rewrite E3. cbn [bind]. rewrite E5. cbn [bind]. rewrite E4. cbn [bind].
    rewrite (literal_opt_text _ _ _ q14 (rp_lic_comment _ _ H)). cbn [bind].
    rewrite (literal_opt_text _ _ _ q18 (rp_comment _ _ H)). cbn [bind].
    rewrite (literal_opt_text _ _ _ q16 (rp_summary _ _ H)). cbn [bind].
    rewrite (literal_opt_text _ _ _ q17 (rp_description _ _ H)). cbn [bind].
    rewrite (copyright_reads _ _ _ q15 (rp_copyright _ _ H)). cbn [bind].
    rewrite (literal_opt_text _ _ _ q10 (rp_source_info _ _ H)). cbn [bind].
    rewrite (literal_opt _ _ _ _ _ q21 (fun a _ => conj eq_refl (read_purpose a))). cbn [bind].
    rewrite E8. cbn [bind]. rewrite (literal_opt_date _ _ _ q22 (rp_release _ _ H)). cbn [bind].
    rewrite (literal_opt_date _ _ _ q23 (rp_built _ _ H)). cbn [bind].
    rewrite (literal_opt_date _ _ _ q24 (rp_valid_until _ _ H)). cbn [bind].
    rewrite E7, P8, !c_na_nn. cbn [app raise_if_named bind]. unfold c_items.
    rewrite !all_some_map. cbn. reflexivity.
  - constructor; cbn; auto.
Qed.

(** ** Snippets *)
Lemma snippet_reads x lines : RdfSnippet O refs x -> sn_lines x = Some lines ->
  says (snippet_says O lab ns refs x lines) V (NUri (file_uri ns (sn_id x))) ->
  exists x', RdfParser.parse_snippet O L G bound ns (NUri (file_uri ns (sn_id x))) = Ok x' /\ SameSnippet x x'.
Proof.
  intros H El A. set (s := NUri (file_uri ns (sn_id x))) in *. said A. unfold is in *.
  assert (NZ : NonZero lines) by (destruct (rs_lines _ _ _ H) as (r & Er & Hr); congruence).
  pose proof (ranges_read _ _ _ _ (rs_bytes _ _ _ H) NZ q1) as E1.
  destruct (license_field _ _ _ (rs_concluded _ _ _ H) q2) as (concluded & E3 & P3).
  destruct (license_list _ _ _ (rs_info _ _ _ H) q3) as (info & E4 & P4).
  destruct (texts_read _ _ _ q8 (rs_attribution _ _ _ H)) as (attribution & E7 & P7).
  eexists. split.
  - unfold RdfParser.parse_snippet. unfold s at 1. unfold file_uri. rewrite id_internal by (apply (rdf_id_not _ (rs_id _ _ _ H))). cbn [bind].
    rewrite (reads_one _ _ _ _ _ HR q0). cbn [any_value]. rewrite (id_reads _ (rs_file _ _ _ H)). cbn [bind]. rewrite E1. cbn [bind].
    rewrite E3. cbn [bind]. rewrite E4. cbn [bind].
    rewrite (literal_opt_text _ _ _ q4 (rs_lic_comment _ _ _ H)). cbn [bind].
    rewrite (copyright_reads _ _ _ q5 (rs_copyright _ _ _ H)). cbn [bind].
    rewrite (literal_opt_text _ _ _ q6 (rs_comment _ _ _ H)). cbn [bind].
    rewrite (literal_opt_text _ _ _ q7 (rs_name _ _ _ H)). cbn [bind].
    rewrite E7. cbn [app raise_if_named bind c_req c_pair c_opt_pair]. unfold c_items. rewrite !all_some_map. cbn. reflexivity.
  - constructor; cbn; auto; [destruct (sn_bytes x); reflexivity|]. rewrite El. destruct lines; reflexivity.
Qed.

(** ** Annotations and relationships *)
Lemma annotation_reads a b : RdfAnnotation refs a -> says (annotation_says a) V b ->
  RdfParser.parse_annotation L G bound ns (NUri (uri_of ns refs (an_id a)), b) = Ok a.
Proof.
  intros H A. said A. unfold is in *. unfold RdfParser.parse_annotation. rewrite (id_reads _ (ra_id _ _ H)). cbn [bind].
  destruct (read_actor _ (ra_annotator _ _ H)) as [T1 R1]. rewrite (literal_one _ _ _ _ _ q1 T1 R1). cbn [bind].
  rewrite (literal_one _ _ _ _ (an_type a) q0); [|destruct a as [? [] ? ? ?]; reflexivity|apply read_annotation_type]. cbn [bind].
  destruct (read_date _ (ra_date _ _ H)) as [T2 R2]. rewrite (literal_one _ _ _ _ _ q2 T2 R2). cbn [bind].
  rewrite (literal_text _ _ _ q3 (ra_comment _ _ H)). destruct a; reflexivity.
Qed.
Lemma relationship_reads r b : RdfRelationship refs r -> says (relationship_says ns refs r) V b ->
  RdfParser.parse_relationship L G bound ns (NUri (uri_of ns refs (re_id r)), b) = Ok r.
Proof.
  intros H A. said A. unfold is in *. unfold RdfParser.parse_relationship. rewrite (id_reads _ (rl_id _ _ H)). cbn [bind].
  rewrite (literal_one _ _ _ _ (re_type r) q0); [|destruct r as [? [] ? ?]; reflexivity|apply read_rel_type]. cbn [bind].
  assert (E : parse_literal_nn L (fun n => parse_spdx_id L bound (Some n) ns) G b (spdx "relatedSpdxElement")
    = Ok ([], Some match re_related r with NVal x => NVal (Some x) | NNoAssertion => NNoAssertion | NNone => NNone end)).
  { eapply nn_one; [exact q1|]. pose proof (rl_related _ _ H) as K. destruct (re_related r) as [x| |]; [|reflexivity|reflexivity].
    cbn [related_node]. apply typed_value; [apply uri_outside; exact K|]. apply id_reads. exact K. }
  rewrite E. cbn [bind]. rewrite (literal_opt_text _ _ _ q2 (rl_comment _ _ H)). destruct r as [? ? [?| |] ?]; reflexivity.
Qed.

(** ** Extracted licensing info *)
Lemma extracted_reads e id : RdfExtracted e -> el_id e = Some id -> says (extracted_says e id) V (NUri (file_uri ns id)) ->
  exists e', RdfParser.parse_extracted_licensing_info L G ns (NUri (file_uri ns id)) = Ok e' /\ SameExtracted e e'.
Proof.
  intros H Ei A. set (s := NUri (file_uri ns id)) in *. said A. unfold is in *.
  destruct (re_id_some _ H) as (i & Ei' & Hne & Hu & _). assert (i = id) by congruence. subst i.
  destruct (texts_read _ _ _ q4 (re_xrefs _ H)) as (xrefs & E7 & P7).
  eexists. split.
  - unfold RdfParser.parse_extracted_licensing_info. rewrite (literal_text _ _ _ q1 (unspaced_clean _ Hne Hu)). cbn [bind].
    destruct id as [|c id]; [congruence|]. cbn [bind]. rewrite (literal_opt_text _ _ _ q2 (re_text _ H)). cbn [bind].
    rewrite (literal_opt_text _ _ _ q5 (re_comment_clean _ H)). cbn [bind]. rewrite (name_reads _ _ _ q3 (re_name _ H)). cbn [bind].
    rewrite E7, c_na_nn. cbn [app raise_if_named bind]. unfold c_items. rewrite all_some_map. cbn. reflexivity.
  - constructor; cbn; auto.
Qed.

(** ** External document references *)
Lemma doc_ref_reads bd r : RdfDocRef ns r -> says (doc_ref_says lab r) V (NUri (file_uri ns (edr_id r))) ->
  RdfParser.parse_external_document_ref L G bd ns (NUri (file_uri ns (edr_id r))) = Ok r.
Proof.
  intros H A. set (s := NUri (file_uri ns (edr_id r))) in *. said A. unfold is in *.
  unfold RdfParser.parse_external_document_ref. unfold s at 1. unfold file_uri.
  rewrite id_internal by (apply (docref_not _ (rx_id _ _ H))). cbn [bind].
  rewrite (literal_one stripped _ _ _ (edr_uri r) q1).
  2:{ apply uri_truthy. exact (proj1 (rx_uri _ _ H)). }
  2:{ unfold stripped. cbn [node_str]. rewrite clean_strip by exact (rx_uri _ _ H). reflexivity. }
  cbn [bind]. destruct q2 as (v & Ev & Av).
  rewrite (literal_one _ _ _ _ _ Ev (blank_truthy _ (proj1 Av)) (checksum_reads _ _ (rx_checksum _ _ H) Av)). destruct r; reflexivity.
Qed.
End Reading.
