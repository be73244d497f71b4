(** What the RDF writer says about each element. *)
From Verif Require Import Py PyFacts Data Oracles Basics Validation ValidationSpec BasicsSpec LocatorFacts Rdf RdfWriter RdfSpec RdfGraphFacts.
From Verif Require JsonRound TvLexFacts.
From Coq Require Import Lia.

(** ** Closed facts about names *)
Fixpoint nodupb (l : list pystr) : bool := match l with [] => true | x :: l' => negb (str_in x l') && nodupb l' end.
Lemma nodupb_ok l : nodupb l = true -> NoDup l.
Proof.
  induction l as [|x l IH]; intro H; constructor; cbn [nodupb] in H; apply andb_true_iff in H as [H1 H2]; auto.
  apply negb_true_iff, str_in_false in H1. exact H1.
Qed.
Lemma str_in_all l m : forallb (fun x => negb (str_in x m)) l = true -> forall x, In x l -> ~ In x m.
Proof. rewrite forallb_forall. intros H x Hx. apply str_in_false. apply negb_true_iff, H, Hx. Qed.
Ltac closed_nodup := apply nodupb_ok; cbn [map fst app]; vm_compute; reflexivity.

(** ** Text lemmas *)
Lemma app_split_char c (a b x y : pystr) : ~ In c a -> ~ In c b -> a ++ c :: x = b ++ c :: y -> a = b /\ x = y.
Proof.
  revert b; induction a as [|h a IH]; intros [|h' b] Ha Hb E; cbn [app] in E.
  - injection E as E. auto.
  - injection E as E1 E2. destruct Hb. left. auto.
  - injection E as E1 E2. destruct Ha. left. auto.
  - injection E as -> E2. destruct (IH b) as [-> ->]; auto; intro K; [apply Ha|apply Hb]; right; exact K.
Qed.
Lemma hash_inj (a b x y : pystr) : ~ In #"#" a -> ~ In #"#" b -> a ++ $"#" ++ x = b ++ $"#" ++ y -> a = b /\ x = y.
Proof. apply app_split_char. Qed.
Lemma in_hash (a x : pystr) : In #"#" (a ++ $"#" ++ x).
Proof. apply in_app_iff. right. left. reflexivity. Qed.
Lemma license_no_hash : ~ In #"#" LICENSE_NAMESPACE.
Proof. apply has_char_false. vm_compute. reflexivity. Qed.
Lemma hash_not_exc u : In #"#" u -> ~ exc (NUri u).
Proof.
  intros H (x & E & Hx). assert (E' : u = LICENSE_NAMESPACE ++ x) by congruence. rewrite E' in H. apply in_app_iff in H as [H|H]; [exact (license_no_hash H)|exact (Hx H)].
Qed.
Lemma hash_good lab n u : In #"#" u -> good lab n (NUri u).
Proof. intro H. split; [apply hash_not_exc; exact H|]. intros k _ E. discriminate. Qed.
Lemma blank_node_good lab : (forall i j, lab i = lab j -> i = j) -> forall n k, k < n -> good lab n (NBlank (lab k)).
Proof. intros H n k. apply blank_good. exact H. Qed.

(** ids *)
Lemma id_char_not c : IdChar c -> c <> #":" /\ c <> #"#" /\ is_space c = false.
Proof.
  intro H.
  assert (G : forall x, is_alpha x = false -> is_digit x = false -> x <> #"." -> x <> #"-" -> c <> x).
  { intros x H1 H2 H3 H4 ->. destruct H as [H|[H|H]].
    - unfold Letter in H. unfold is_alpha, is_upper, is_lower in H1. rewrite orb_false_iff, !andb_false_iff, !N.leb_gt in H1. lia.
    - unfold UnicodeDigit in H. unfold is_digit in H2. destruct (digit_val x); [discriminate|congruence].
    - destruct H as [<-|[<-|[]]]; [apply H3|apply H4]; reflexivity. }
  split; [apply G; try reflexivity; intro; discriminate|]. split; [apply G; try reflexivity; intro; discriminate|].
  destruct (is_space c) eqn:E; [|reflexivity]. exfalso. apply (G c); auto.
  - unfold is_space in E. rewrite !orb_true_iff, !andb_true_iff, !N.leb_le, !N.eqb_eq in E.
    unfold is_alpha, is_upper, is_lower. rewrite orb_false_iff, !andb_false_iff, !N.leb_gt. lia.
  - apply TvLexFacts.space_not_digit. exact E.
  - intros ->. discriminate.
  - intros ->. discriminate.
Qed.
Lemma docref_char_not c : DocRefChar c -> c <> #":" /\ c <> #"#" /\ is_space c = false.
Proof.
  intros [H|H]; [apply id_char_not; exact H|]. destruct H as [<-|[]]. repeat split; intro; discriminate.
Qed.
Lemma prefixed_not (P : char -> Prop) pre s : (forall c, P c -> c <> #":" /\ c <> #"#" /\ is_space c = false) ->
  forallb (fun c => negb (N.eqb c #":") && negb (N.eqb c #"#") && negb (is_space c)) pre = true ->
  Prefixed pre P s -> ~ In #":" s /\ ~ In #"#" s /\ Unspaced s /\ s <> [].
Proof.
  intros HP Hpre (t & -> & Ht & F).
  assert (A : forall c, In c (pre ++ t) -> c <> #":" /\ c <> #"#" /\ is_space c = false).
  { intros c Hc. apply in_app_iff in Hc as [Hc|Hc].
    - rewrite forallb_forall in Hpre. specialize (Hpre c Hc). rewrite !andb_true_iff, !negb_true_iff, !N.eqb_neq in Hpre. tauto.
    - rewrite Forall_forall in F. apply HP, F, Hc. }
  split; [intro K; apply A in K; tauto|]. split; [intro K; apply A in K; tauto|].
  split; [apply Forall_forall; intros c Hc; apply A in Hc; tauto|]. destruct pre; [exact Ht|discriminate].
Qed.
Lemma rdf_id_not s : RdfId s -> ~ In #":" s /\ ~ In #"#" s /\ Unspaced s /\ s <> [].
Proof. apply prefixed_not; [exact id_char_not|vm_compute; reflexivity]. Qed.
Lemma docref_not s : Prefixed $"DocumentRef-" DocRefChar s -> ~ In #":" s /\ ~ In #"#" s /\ Unspaced s /\ s <> [].
Proof. apply prefixed_not; [exact docref_char_not|vm_compute; reflexivity]. Qed.
(** ids as URIs *)
Lemma add_namespace_internal id ns ext : RdfId id -> add_namespace_to_spdx_id id ns ext = ns ++ $"#" ++ id.
Proof.
  intro H. destruct (rdf_id_not id H) as (H1 & _). unfold add_namespace_to_spdx_id. rewrite (proj2 (has_char_false _ _) H1).
  rewrite (proj2 (internal_id_spec id)); [reflexivity|]. left. exact H.
Qed.
Lemma add_namespace_external r b ns ext : ~ In #":" (edr_id r) -> RdfId b -> assoc (edr_id r) ext = Some (edr_uri r) ->
  add_namespace_to_spdx_id (edr_id r ++ $":" ++ b) ns ext = edr_uri r ++ $"#" ++ b.
Proof.
  intros H1 H2 H3. destruct (rdf_id_not b H2) as (H4 & _). unfold add_namespace_to_spdx_id.
  replace (has_char #":" (edr_id r ++ $":" ++ b)) with true.
  2:{ symmetry. apply has_char_In. apply in_app_iff. right. left. reflexivity. }
  change ($":" ++ b) with (#":" :: b). rewrite split_on_app by exact H1. rewrite split_on_nochar by exact H4. rewrite H3. reflexivity.
Qed.

Section Writing.
Variable O : oracles.
Variable lab : nat -> pystr.
Hypothesis lab_inj : forall i j, lab i = lab j -> i = j.
Variable ns : pystr.
Hypothesis HN : RdfNamespace ns.

Notation WritesL := (Writes lab).
Notation Writes1L := (Writes1 lab).

(** exactly these objects *)
Definition is (l : list node) : view -> list node -> Prop := fun _ x => x = l.
Definition opt_nodes {A} (f : A -> node) (o : option A) : list node := match o with Some a => [f a] | None => [] end.
(** one object for every item *)
Definition items {A} (At : view -> A -> node -> Prop) (l : list A) : view -> list node -> Prop :=
  fun V vs => Forall2 (At V) l vs /\ NoDup vs.
Definition item {A} (At : view -> A -> node -> Prop) (a : A) : view -> list node -> Prop := fun V vs => exists v, vs = [v] /\ At V a v.
Definition opt_item {A} (At : view -> A -> node -> Prop) (o : option A) : view -> list node -> Prop :=
  match o with None => is [] | Some a => item At a end.
Definition some_blank (v : node) : Prop := exists k, v = NBlank (lab k).

Lemma writes_is par p o : ~ blank o -> special (par, p, o) = false -> WritesL (w_add par p o) par p (is [o]).
Proof. apply writes_add. Qed.
Lemma writes_opt {A} (w : A -> writer) (o : option A) par p (f : A -> node) :
  (forall a, o = Some a -> WritesL (w a) par p (is [f a])) ->
  WritesL (match o with Some a => w a | None => w_nil end) par p (is (opt_nodes f o)).
Proof. destruct o as [a|]; intro H; [apply H; reflexivity|apply writes_nil]. Qed.
Lemma writes_opt_item {A} (w : A -> writer) (o : option A) par p (At : view -> A -> node -> Prop) :
  (forall a, o = Some a -> Writes1L (w a) par p (fun V => At V a)) ->
  WritesL (match o with Some a => w a | None => w_nil end) par p (opt_item At o).
Proof. destruct o as [a|]; intro H; [apply H; reflexivity|apply writes_nil]. Qed.
Lemma writes_optional {A} (str : A -> pystr) (o : option A) par p : special (par, p, plain []) = false ->
  WritesL (add_optional_literal str o par p) par p (is (opt_nodes (fun a => plain (str a)) o)).
Proof. intro H. destruct o as [a|]; [|apply writes_nil]. apply writes_is; [intros []|exact H]. Qed.
Lemma distinct_pairs {A} (R : A -> A -> Prop) l : NoDup l -> (forall a b, In a l -> In b l -> a <> b -> R a b) -> ForallOrdPairs R l.
Proof.
  induction 1 as [|a l N ND IH]; intro H; constructor.
  - apply Forall_forall. intros b Hb. apply H; [left; reflexivity|right; exact Hb|]. intros ->. exact (N Hb).
  - apply IH. intros x y Hx Hy. apply H; right; assumption.
Qed.
Lemma all_pairs {A} (R : A -> A -> Prop) l : (forall a b, R a b) -> ForallOrdPairs R l.
Proof. intro H. induction l; constructor; auto. apply Forall_forall. auto. Qed.
Lemma writes_map {A} (f : A -> node) l par p : NoDup l -> (forall a b, f a = f b -> a = b) -> (forall a, ~ blank (f a)) ->
  (forall a, special (par, p, f a) = false) ->
  WritesL (w_all (fun a => w_add par p (f a)) l) par p (is (map f l)).
Proof.
  intros ND Inj NB Sp.
  eapply writes_impl; [|apply (writes_all lab lab_inj (fun a => w_add par p (f a)) par p (fun _ a v => v = f a))].
  - intros V vs [H _]. unfold is. clear - H. induction H; cbn; congruence.
  - apply Forall_forall. intros a _. eapply writes_impl; [|apply writes_is; auto].
    intros V x ->. exists (f a). auto.
  - apply distinct_pairs; [exact ND|]. intros a b _ _ N V v _ -> E. apply N, Inj, E.
Qed.
Lemma plain_inj s t : plain s = plain t -> s = t.
Proof. unfold plain. congruence. Qed.
Lemma writes_texts l par p : NoDup l -> special (par, p, plain []) = false ->
  WritesL (w_all (fun x => w_add par p (plain x)) l) par p (is (map plain l)).
Proof. intros ND Sp. apply writes_map; auto using plain_inj. Qed.
Lemma writes_blanks {A} (f : A -> writer) par p (At : view -> A -> node -> Prop) l :
  Forall (fun a => Writes1L (f a) par p (fun V => At V a)) l -> (forall V a v, At V a v -> some_blank v) ->
  WritesL (w_all f l) par p (items At l).
Proof.
  intros H B. apply (writes_all lab lab_inj f par p At); [exact H|]. apply all_pairs. intros a b V v N Ha _.
  destruct (B _ _ _ Ha) as [k ->]. apply N. exact I.
Qed.

(** ** Checksums *)
Definition checksum_says (c : checksum) : list (pystr * (view -> list node -> Prop)) :=
  [(RDF_type, is [NUri (spdx "Checksum")]);
   (spdx "algorithm", is [algorithm_to_rdf_string (ck_alg c)]);
   (spdx "checksumValue", is [plain (ck_value c)])].
Definition ChecksumAt (V : view) (c : checksum) (v : node) : Prop := some_blank v /\ says (checksum_says c) V v.
Lemma writes_checksum c par : Writes1L (add_checksum_to_graph lab c par) par (spdx "checksum") (fun V => ChecksumAt V c).
Proof.
  apply (writes_fresh lab lab_inj par (spdx "checksum")
    (fun b => [w_add b RDF_type (NUri (spdx "Checksum")); w_add b (spdx "algorithm") (algorithm_to_rdf_string (ck_alg c));
               w_add b (spdx "checksumValue") (plain (ck_value c))]) (fun b => []) (checksum_says c) []).
  - intro b. repeat constructor; cbn [fst snd]; apply writes_is; solve [intros []|reflexivity].
  - intro b. constructor.
  - closed_nodup.
  - reflexivity.
Qed.
Lemma writes_checksums l par : WritesL (w_all (fun c => add_checksum_to_graph lab c par) l) par (spdx "checksum") (items ChecksumAt l).
Proof.
  apply writes_blanks; [apply Forall_forall; intros; apply writes_checksum|]. intros V a v [H _]. exact H.
Qed.

(** ** License expressions *)
Definition ExceptionAt (V : view) (x : pystr) (v : node) : Prop :=
  v = NUri (LICENSE_NAMESPACE ++ x) \/ (some_blank v /\ V v (spdx "licenseExceptionId") = [plain x]).
Inductive ExprAt (V : view) : lexpr -> node -> Prop :=
| EA_sym k : ExprAt V (LSym k) (license_symbol_node O k ns)
| EA_with k x j :
    V (NBlank (lab j)) RDF_type = [NUri (spdx "WithExceptionOperator")] ->
    V (NBlank (lab j)) (spdx "member") = [license_symbol_node O k ns] ->
    item ExceptionAt x V (V (NBlank (lab j)) (spdx "licenseException")) ->
    ExprAt V (LWith k x) (NBlank (lab j))
| EA_and l j vs :
    V (NBlank (lab j)) RDF_type = [NUri (spdx "ConjunctiveLicenseSet")] -> V (NBlank (lab j)) (spdx "member") = vs ->
    NoDup vs -> Forall2 (ExprAt V) l vs -> ExprAt V (LAnd l) (NBlank (lab j))
| EA_or l j vs :
    V (NBlank (lab j)) RDF_type = [NUri (spdx "DisjunctiveLicenseSet")] -> V (NBlank (lab j)) (spdx "member") = vs ->
    NoDup vs -> Forall2 (ExprAt V) l vs -> ExprAt V (LOr l) (NBlank (lab j)).
Definition LicenseAt (V : view) (l : license) (v : node) : Prop :=
  match l with NNoAssertion => v = NUri (spdx "noassertion") | NNone => v = NUri (spdx "none") | NVal e => ExprAt V e v end.

Lemma license_symbol_blank k : ~ blank (license_symbol_node O k ns).
Proof. unfold license_symbol_node. destruct (on_spdx_list O k); intros []. Qed.
Lemma license_symbol_inj k k' : ~ In #"#" k -> ~ In #"#" k' -> license_symbol_node O k ns = license_symbol_node O k' ns -> k = k'.
Proof.
  intros H H'. unfold license_symbol_node.
  assert (X : forall a b, ~ In #"#" a -> LICENSE_NAMESPACE ++ a <> ns ++ $"#" ++ b).
  { intros a b Ha E. assert (K : In #"#" (LICENSE_NAMESPACE ++ a)) by (rewrite E; apply in_hash).
    apply in_app_iff in K as [K|K]; [exact (license_no_hash K)|exact (Ha K)]. }
  destruct (on_spdx_list O k), (on_spdx_list O k'); intro E.
  - assert (E' : LICENSE_NAMESPACE ++ k = LICENSE_NAMESPACE ++ k') by congruence. apply app_inv_head in E'. exact E'.
  - exfalso. apply (X k k' H). congruence.
  - exfalso. apply (X k' k H'). congruence.
  - assert (E' : ns ++ $"#" ++ k = ns ++ $"#" ++ k') by congruence. apply app_inv_head, app_inv_head in E'. exact E'.
Qed.
Lemma license_symbol_plain k x : x = "none"%string \/ x = "noassertion"%string -> license_symbol_node O k ns <> NUri (spdx x).
Proof.
  intros Hx. unfold license_symbol_node. destruct (on_spdx_list O k); intro E.
  - assert (E' : LICENSE_NAMESPACE ++ k = spdx x) by congruence. destruct Hx as [-> | ->]; vm_compute in E'; discriminate.
  - assert (E' : ns ++ $"#" ++ k = $"http://spdx.org/rdf/terms" ++ $"#" ++ lit x)
      by (transitivity (spdx x); [congruence|reflexivity]).
    apply hash_inj in E'; [destruct E' as [E' _]; exact (rn_terms _ HN E')|exact (rn_hash _ HN)|].
    apply has_char_false. vm_compute. reflexivity.
Qed.

Lemma writes_exception x par : ~ In #"#" x ->
  Writes1L (add_license_exception_to_graph O lab x par) par (spdx "licenseException") (fun V => ExceptionAt V x).
Proof.
  intros Hx. unfold add_license_exception_to_graph. destruct (on_spdx_list O x).
  - intros n Hn.
    exists [(par, spdx "licenseException", NUri (LICENSE_NAMESPACE ++ x)); (NUri (LICENSE_NAMESPACE ++ x), RDF_type, NUri (spdx "LicenseException"))], n.
    assert (E : objects [(par, spdx "licenseException", NUri (LICENSE_NAMESPACE ++ x));
                         (NUri (LICENSE_NAMESPACE ++ x), RDF_type, NUri (spdx "LicenseException"))] par (spdx "licenseException")
              = [NUri (LICENSE_NAMESPACE ++ x)]).
    { rewrite !objects_cons, objects_nil, node_eqb_refl, str_eqb_refl. cbn [andb app].
      rewrite (node_eqb_neq (NUri (LICENSE_NAMESPACE ++ x)) par); [reflexivity|]. intro E. apply (proj1 Hn). exists x. split; [congruence|exact Hx]. }
    rewrite E. split; [reflexivity|]. split; [lia|]. split.
    { constructor; [left; split; reflexivity|]. constructor; [|constructor]. right. right. exists x. split; [reflexivity|exact Hx]. }
    split; [repeat constructor|]. split; [constructor; [right; intros []|constructor]|].
    intros V _. eexists. split; [reflexivity|]. left. reflexivity.
  - eapply writes_impl;
      [|apply (writes_fresh lab lab_inj par (spdx "licenseException")
         (fun b => [w_add b (spdx "licenseExceptionId") (plain x)]) (fun b => [w_add b RDF_type (NUri (spdx "LicenseException"))])
         [(spdx "licenseExceptionId", is [plain x])] [(RDF_type, is [NUri (spdx "LicenseException")])])].
    + intros V l (v & -> & B & S0). exists v. split; [reflexivity|]. right. split; [exact B|].
      apply Forall_cons_iff in S0 as [S0 _]. exact S0.
    + intro b. repeat constructor; cbn [fst snd]; apply writes_is; solve [intros []|reflexivity].
    + intro b. repeat constructor; cbn [fst snd]; apply writes_is; solve [intros []|reflexivity].
    + closed_nodup.
    + reflexivity.
Qed.

(** expressions without repeated members *)
Inductive Wf : lexpr -> Prop :=
| Wf_sym k : ~ In #"#" k -> Wf (LSym k)
| Wf_with k x : ~ In #"#" k -> ~ In #"#" x -> Wf (LWith k x)
| Wf_and l : NoDup l -> Forall Wf l -> Wf (LAnd l)
| Wf_or l : NoDup l -> Forall Wf l -> Wf (LOr l).
Lemma key_hash k : Key O k -> ~ In #"#" k.
Proof. intros (_ & _ & H & _). exact H. Qed.
Lemma atom_wf e : Atom O e -> Wf e.
Proof. intros [k H|k x H H' _]; constructor; auto; apply key_hash; exact H. Qed.
Lemma conj_wf e : Conj O e -> Wf e.
Proof.
  intros [H|(l & -> & _ & ND & F)]; [apply atom_wf; exact H|]. constructor; [exact ND|]. eapply Forall_impl; [|exact F]. exact atom_wf.
Qed.
Lemma dnf_wf e : Dnf O e -> Wf e.
Proof.
  intros [H|(l & -> & _ & ND & F)]; [apply conj_wf; exact H|]. constructor; [exact ND|]. eapply Forall_impl; [|exact F]. exact conj_wf.
Qed.
Lemma expr_inj V e e' v : ~ blank v -> Wf e -> Wf e' -> ExprAt V e v -> ExprAt V e' v -> e = e'.
Proof.
  intros B W W' H H'. inversion H; subst; try (exfalso; apply B; exact I).
  inversion H'; subst; try (exfalso; apply B; match goal with E : NBlank _ = _ |- _ => rewrite <- E end; exact I).
  inversion W; subst. inversion W'; subst. f_equal. apply license_symbol_inj; auto.
Qed.

Section Ind.
Variable P : lexpr -> Prop.
Hypothesis Psym : forall k, P (LSym k).
Hypothesis Pwith : forall k x, P (LWith k x).
Hypothesis Pand : forall l, Forall P l -> P (LAnd l).
Hypothesis Por : forall l, Forall P l -> P (LOr l).
Fixpoint lexpr_all_ind (e : lexpr) : P e :=
  match e with
  | LSym k => Psym k
  | LWith k x => Pwith k x
  | LAnd l => Pand l ((fix go l : Forall P l := match l with [] => Forall_nil P | a :: l' => Forall_cons a (lexpr_all_ind a) (go l') end) l)
  | LOr l => Por l ((fix go l : Forall P l := match l with [] => Forall_nil P | a :: l' => Forall_cons a (lexpr_all_ind a) (go l') end) l)
  end.
End Ind.

Lemma writes_expr e : Wf e -> forall par p, (forall o, special (par, p, o) = false) ->
  Writes1L (add_license_expression_to_graph O lab e par p ns) par p (fun V => ExprAt V e).
Proof.
  induction e as [k|k x|l IH|l IH] using lexpr_all_ind; intros W par p Sp.
  - eapply writes_impl; [|apply writes_is; [apply license_symbol_blank|apply Sp]].
    intros V vs ->. eexists. split; [reflexivity|]. constructor.
  - inversion W; subst.
    eapply writes_impl;
      [|apply (writes_fresh lab lab_inj par p
         (fun b => [w_add b RDF_type (NUri (spdx "WithExceptionOperator"))])
         (fun b => [w_add b (spdx "member") (license_symbol_node O k ns); add_license_exception_to_graph O lab x b])
         [(RDF_type, is [NUri (spdx "WithExceptionOperator")])]
         [(spdx "member", is [license_symbol_node O k ns]); (spdx "licenseException", item ExceptionAt x)])].
    + intros V vs (v & -> & (j & ->) & S0). exists (NBlank (lab j)). split; [reflexivity|].
      apply Forall_cons_iff in S0 as [S1 S0]. apply Forall_cons_iff in S0 as [S2 S0]. apply Forall_cons_iff in S0 as [S3 _].
      constructor; assumption.
    + intro b. repeat constructor; cbn [fst snd]; apply writes_is; solve [intros []|reflexivity].
    + intro b. constructor; [|constructor; [|constructor]]; cbn [fst snd].
      * apply writes_is; [apply license_symbol_blank|reflexivity].
      * apply writes_exception. assumption.
    + closed_nodup.
    + apply Sp.
  - inversion W as [| |? ND WF|]; subst.
    eapply writes_impl;
      [|apply (writes_fresh lab lab_inj par p
         (fun b => [w_add b RDF_type (NUri (spdx "ConjunctiveLicenseSet"))])
         (fun b => [w_all (fun a => add_license_expression_to_graph O lab a b (spdx "member") ns) l])
         [(RDF_type, is [NUri (spdx "ConjunctiveLicenseSet")])]
         [(spdx "member", items ExprAt l)])].
    + intros V vs (v & -> & (j & ->) & S0). exists (NBlank (lab j)). split; [reflexivity|].
      apply Forall_cons_iff in S0 as [S1 S0]. apply Forall_cons_iff in S0 as [[S2 S3] _]. eapply EA_and; eauto.
    + intro b. repeat constructor; cbn [fst snd]; apply writes_is; solve [intros []|reflexivity].
    + intro b. constructor; [|constructor]; cbn [fst snd]. apply (writes_all lab lab_inj).
      * rewrite Forall_forall in IH, WF |- *. intros a Ha. apply IH; auto.
      * rewrite Forall_forall in WF. apply distinct_pairs; [exact ND|]. intros a b0 Ha Hb N V v B E1 E2. apply N.
        eapply expr_inj; eauto.
    + closed_nodup.
    + apply Sp.
  - inversion W as [| | |? ND WF]; subst.
    eapply writes_impl;
      [|apply (writes_fresh lab lab_inj par p
         (fun b => [w_add b RDF_type (NUri (spdx "DisjunctiveLicenseSet"))])
         (fun b => [w_all (fun a => add_license_expression_to_graph O lab a b (spdx "member") ns) l])
         [(RDF_type, is [NUri (spdx "DisjunctiveLicenseSet")])]
         [(spdx "member", items ExprAt l)])].
    + intros V vs (v & -> & (j & ->) & S0). exists (NBlank (lab j)). split; [reflexivity|].
      apply Forall_cons_iff in S0 as [S1 S0]. apply Forall_cons_iff in S0 as [[S2 S3] _]. eapply EA_or; eauto.
    + intro b. repeat constructor; cbn [fst snd]; apply writes_is; solve [intros []|reflexivity].
    + intro b. constructor; [|constructor]; cbn [fst snd]. apply (writes_all lab lab_inj).
      * rewrite Forall_forall in IH, WF |- *. intros a Ha. apply IH; auto.
      * rewrite Forall_forall in WF. apply distinct_pairs; [exact ND|]. intros a b0 Ha Hb N V v B E1 E2. apply N.
        eapply expr_inj; eauto.
    + closed_nodup.
    + apply Sp.
Qed.
(** licenses *)
Definition WfLicense (l : license) : Prop := match l with NVal e => Wf e | _ => True end.
Lemma dnf_license_wf l : DnfLicense O l -> WfLicense l.
Proof. destruct l; [apply dnf_wf|auto|auto]. Qed.
Lemma writes_license l par p : WfLicense l -> (forall o, special (par, p, o) = false) ->
  Writes1L (add_license O lab l par p ns) par p (fun V => LicenseAt V l).
Proof.
  intros W Sp. destruct l as [e| |]; [apply writes_expr; auto| |];
    (eapply writes_impl; [|apply writes_is; [intros []|apply Sp]]; intros V vs ->; eexists; split; reflexivity).
Qed.
Lemma license_inj V a b v : ~ blank v -> WfLicense a -> WfLicense b -> LicenseAt V a v -> LicenseAt V b v -> a = b.
Proof.
  intros B Wa Wb Ha Hb.
  assert (X : forall e x, Wf e -> (x = "none"%string \/ x = "noassertion"%string) -> ExprAt V e v -> v <> NUri (spdx x)).
  { intros e x _ Hx He E. inversion He; subst; try discriminate. apply (license_symbol_plain k x Hx). auto. }
  destruct a as [e| |], b as [f| |]; cbn [LicenseAt WfLicense] in *; auto.
  - f_equal. eapply expr_inj; eauto.
  - exfalso. eapply (X e "noassertion"%string); eauto.
  - exfalso. eapply (X e "none"%string); eauto.
  - exfalso. eapply (X f "noassertion"%string); eauto.
  - exfalso. subst. vm_compute in Hb. discriminate.
  - exfalso. eapply (X f "none"%string); eauto.
  - exfalso. subst. vm_compute in Hb. discriminate.
Qed.
Lemma writes_opt_license o par p : IfSome (DnfLicense O) o -> (forall x, special (par, p, x) = false) ->
  WritesL (add_opt_license O lab o par p ns) par p (opt_item LicenseAt o).
Proof.
  intros H Sp. apply (writes_opt_item (fun l => add_license O lab l par p ns)). intros a ->. apply writes_license; auto.
  apply dnf_license_wf. exact H.
Qed.
Lemma writes_licenses l par p : Forall (DnfLicense O) l /\ NoDup l -> (forall x, special (par, p, x) = false) ->
  WritesL (add_licenses O lab l par p ns) par p (items LicenseAt l).
Proof.
  intros [F ND] Sp. assert (W : forall a, In a l -> WfLicense a).
  { intros a Ha. apply dnf_license_wf. rewrite Forall_forall in F. auto. }
  apply (writes_all lab lab_inj).
  - apply Forall_forall. intros a Ha. apply writes_license; auto.
  - apply distinct_pairs; [exact ND|]. intros a b Ha Hb N V v B E1 E2. apply N. eapply license_inj; eauto.
Qed.
End Writing.
