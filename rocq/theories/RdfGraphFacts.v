(** Reading a graph whose triples come in another order, and blocks of triples written one after the other. *)
From Verif Require Import Py PyFacts Data Oracles Basics Rdf RdfWriter RdfSpec.
From Coq Require Import Lia.

Lemma node_eqb_eq a b : node_eqb a b = true <-> a = b.
Proof. unfold node_eqb. destruct (node_eq_dec a b); split; intro; congruence. Qed.
Lemma node_eqb_refl a : node_eqb a a = true.
Proof. apply node_eqb_eq. reflexivity. Qed.
Lemma node_eqb_neq a b : a <> b -> node_eqb a b = false.
Proof. unfold node_eqb. destruct (node_eq_dec a b); congruence. Qed.

(** ** Sets of triples *)
Definition sub {B} (f : triple -> bool) (h : triple -> B) (l : list triple) : list B := map h (filter f l).
Lemma NoDup_map_filter {A B} (h : A -> B) l : NoDup (map h l) -> NoDup l.
Proof. apply NoDup_map_inv. Qed.
Lemma filter_permutation f (G G0 : list triple) : NoDup G -> (forall t, In t G <-> In t G0) -> NoDup (filter f G0) ->
  Permutation (filter f G0) (filter f G).
Proof.
  intros HG HE H0. apply NoDup_Permutation; auto using NoDup_filter.
  intro x. rewrite !filter_In, HE. reflexivity.
Qed.
Lemma sub_permutation {B} f (h : triple -> B) G G0 : NoDup G -> (forall t, In t G <-> In t G0) -> NoDup (sub f h G0) ->
  Permutation (sub f h G0) (sub f h G).
Proof.
  intros HG HE H0. apply Permutation_map, filter_permutation; auto. eapply NoDup_map_inv. exact H0.
Qed.

(** ** Objects *)
Definition view : Type := node -> pystr -> list node.
Lemma objects_cons s p o ts x q :
  objects ((s, p, o) :: ts) x q = (if node_eqb s x && str_eqb p q then [o] else []) ++ objects ts x q.
Proof. unfold objects. cbn [filter fst snd]. destruct (node_eqb s x && str_eqb p q); reflexivity. Qed.
Lemma objects_app a b x q : objects (a ++ b) x q = objects a x q ++ objects b x q.
Proof. unfold objects. rewrite filter_app, map_app. reflexivity. Qed.
Lemma objects_nil x q : objects [] x q = [].
Proof. reflexivity. Qed.
Lemma objects_none ts x q : Forall (fun t => fst (fst t) = x -> snd (fst t) = q -> False) ts -> objects ts x q = [].
Proof.
  induction 1 as [|[[s p] o] ts H HF IH]; [reflexivity|]. rewrite objects_cons, IH, app_nil_r. cbn [fst snd] in H.
  destruct (node_eqb s x) eqn:E1; [|reflexivity]. destruct (str_eqb p q) eqn:E2; [|reflexivity].
  apply node_eqb_eq in E1. apply str_eqb_eq in E2. destruct H; auto.
Qed.

(** how a graph is read through the objects of the triples it was made from *)
Definition Reads (G : list triple) (V : view) : Prop := forall s p, NoDup (V s p) -> Permutation (V s p) (objects G s p).
Lemma reads_same G G0 : NoDup G -> (forall t, In t G <-> In t G0) -> Reads G (objects G0).
Proof. intros HG HE s p H. apply (sub_permutation _ snd); auto. Qed.
Lemma reads_nil G V s p : Reads G V -> V s p = [] -> objects G s p = [].
Proof. intros R E. specialize (R s p). rewrite E in R. apply Permutation_nil, R. constructor. Qed.
Lemma reads_one G V s p x : Reads G V -> V s p = [x] -> objects G s p = [x].
Proof.
  intros R E. specialize (R s p). rewrite E in R. apply Permutation_length_1_inv, R. constructor; [intros []|constructor].
Qed.

Section Blocks.
Variable lab : nat -> pystr.
Hypothesis lab_inj : forall i j, lab i = lab j -> i = j.

(** a blank node numbered from n up to n' *)
Definition own (n n' : nat) (v : node) : Prop := exists k, n <= k < n' /\ v = NBlank (lab k).
Definition blank (v : node) : Prop := match v with NBlank _ => True | _ => False end.
(** the node of a license exception of the license list *)
Definition exc (v : node) : Prop := exists x, v = NUri (LICENSE_NAMESPACE ++ x) /\ ~ In #"#" x.
(** v is neither such a node nor a blank node created later *)
Definition good (n : nat) (v : node) : Prop := ~ exc v /\ forall k, n <= k -> v <> NBlank (lab k).

(** what the reader looks for in the whole graph *)
Definition special_types : list pystr :=
  [spdx "SpdxDocument"; spdx "CreationInfo"; spdx "Package"; spdx "File"; spdx "Snippet"].
Definition special_preds : list pystr :=
  [spdx "annotation"; spdx "relationship"; spdx "hasFile"; spdx "describesPackage"; spdx "hasExtractedLicensingInfo";
   spdx "externalDocumentRef"].
Definition special (t : triple) : bool :=
  let '(s, p, o) := t in
  str_in p special_preds || (str_eqb p RDF_type && match o with NUri u => str_in u special_types | _ => false end).

(** every triple is about something admitted by A, a blank node of the block, or a license exception *)
Definition frame (A : node -> pystr -> Prop) (n n' : nat) (ts : list triple) : Prop :=
  Forall (fun t => A (fst (fst t)) (snd (fst t)) \/ own n n' (fst (fst t)) \/ exc (fst (fst t))) ts.
Definition quiet (ts : list triple) : Prop := Forall (fun t => special t = false) ts.
(** V says about the blank nodes of the block what the block says *)
Definition local (V : view) (n n' : nat) (ts : list triple) : Prop :=
  forall k p, n <= k < n' -> V (NBlank (lab k)) p = objects ts (NBlank (lab k)) p.

Lemma own_le n n' m m' v : n <= m -> m' <= n' -> own m m' v -> own n n' v.
Proof. intros H1 H2 (k & H & E). exists k. split; [lia|exact E]. Qed.
Lemma frame_le A n n' m m' ts : n <= m -> m' <= n' -> frame A m m' ts -> frame A n n' ts.
Proof.
  intros H1 H2. apply Forall_impl. intros t [H|[H|H]]; auto. right. left. eapply own_le; eauto.
Qed.
Lemma frame_impl (A B : node -> pystr -> Prop) n n' ts : (forall s p, A s p -> B s p) -> frame A n n' ts -> frame B n n' ts.
Proof. intros H. apply Forall_impl. intros t [K|K]; auto. Qed.
Lemma frame_app A n n' a b : frame A n n' a -> frame A n n' b -> frame A n n' (a ++ b).
Proof. intros. apply Forall_app. auto. Qed.
Lemma good_le n m v : n <= m -> good n v -> good m v.
Proof. intros H [H1 H2]. split; auto. intros k K. apply H2. lia. Qed.
Lemma blank_good n k : k < n -> good n (NBlank (lab k)).
Proof.
  intro H. split; [intros (x & E & _); discriminate|]. intros j J E. injection E as E. apply lab_inj in E. lia.
Qed.
(** nothing is said about nodes outside the block *)
Lemma frame_objects A n n' ts x q : frame A n n' ts -> ~ exc x -> ~ own n n' x -> ~ A x q -> objects ts x q = [].
Proof.
  intros F E W N. apply objects_none. eapply Forall_impl; [|exact F]. intros [[s p] o]; cbn [fst snd].
  intros [H|[H|H]] -> ->; auto.
Qed.
Lemma blank_not_exc l : ~ exc (NBlank l).
Proof. intros (x & E & _). discriminate. Qed.
Lemma own_lab n n' k : own n n' (NBlank (lab k)) -> n <= k < n'.
Proof. intros (j & H & E). injection E as E. apply lab_inj in E. subst. exact H. Qed.

(** ** Splitting *)
(** A never speaks of blank nodes created in the block *)
Definition outer (A : node -> pystr -> Prop) (n : nat) : Prop := forall s p, A s p -> good n s.
Lemma local_left V n m n' A a b : n <= m -> m <= n' -> frame A m n' b -> outer A n -> local V n n' (a ++ b) -> local V n m a.
Proof.
  intros H1 H2 F K Lo k p Hk. rewrite (Lo k p) by lia. rewrite objects_app, (frame_objects A m n' b), app_nil_r; auto.
  - apply blank_not_exc.
  - intro W. apply own_lab in W. lia.
  - intro X. apply K in X. destruct X as [_ X]. apply (X k); [lia|reflexivity].
Qed.
Lemma local_right V n m n' A a b : n <= m -> m <= n' -> frame A n m a -> outer A n -> local V n n' (a ++ b) -> local V m n' b.
Proof.
  intros H1 H2 F K Lo k p Hk. rewrite (Lo k p) by lia. rewrite objects_app, (frame_objects A n m a); auto.
  - apply blank_not_exc.
  - intro W. apply own_lab in W. lia.
  - intro X. apply K in X. destruct X as [_ X]. apply (X k); [lia|reflexivity].
Qed.

(** ** Writers of one property *)
Definition only (par : node) (p : pystr) : node -> pystr -> Prop := fun s q => s = par /\ q = p.
(** w writes the property p of par; its objects satisfy C *)
Definition Writes (w : writer) (par : node) (p : pystr) (C : view -> list node -> Prop) : Prop :=
  forall n, good n par -> exists ts n', w n = Ok (ts, n') /\ n <= n' /\ frame (only par p) n n' ts /\ quiet ts
    /\ Forall (fun v => own n n' v \/ ~ blank v) (objects ts par p)
    /\ forall V, local V n n' ts -> C V (objects ts par p).
(** exactly one object *)
Definition Writes1 (w : writer) (par : node) (p : pystr) (C : view -> node -> Prop) : Prop :=
  Writes w par p (fun V l => exists v, l = [v] /\ C V v).

Lemma outer_only n par p : good n par -> outer (only par p) n.
Proof. intros H s q [-> _]. exact H. Qed.
Lemma writes_impl w par p (C D : view -> list node -> Prop) : (forall V l, C V l -> D V l) -> Writes w par p C -> Writes w par p D.
Proof.
  intros H W n Hn. destruct (W n Hn) as (ts & n' & E & H1 & H2 & H3 & H4 & H5). exists ts, n'. intuition.
Qed.
Lemma writes_nil par p : Writes w_nil par p (fun V l => l = []).
Proof.
  intros n Hn. exists [], n. repeat split; auto; constructor.
Qed.
Lemma writes_add par p o : ~ blank o -> special (par, p, o) = false ->
  Writes (w_add par p o) par p (fun V l => l = [o]).
Proof.
  intros B S0 n Hn. exists [(par, p, o)], n.
  assert (E : objects [(par, p, o)] par p = [o]) by (rewrite objects_cons, node_eqb_refl, str_eqb_refl; reflexivity).
  rewrite E. repeat split; auto.
  - constructor; [|constructor]. left. split; reflexivity.
  - constructor; [exact S0|constructor].
Qed.

(** a for loop; no two items share a node that is not blank *)
Lemma writes_all {X} (f : X -> writer) par p (At : view -> X -> node -> Prop) (l : list X) :
  Forall (fun a => Writes1 (f a) par p (fun V => At V a)) l ->
  ForallOrdPairs (fun a a' => forall V v, ~ blank v -> At V a v -> At V a' v -> False) l ->
  Writes (w_all f l) par p (fun V vs => Forall2 (At V) l vs /\ NoDup vs).
Proof.
  intros HW HP. induction l as [|a l IH]; intros n Hn.
  { exists [], n. split; [reflexivity|]. split; [lia|]. split; [constructor|]. split; [constructor|]. split; [constructor|].
    intros V _. split; constructor. }
  inversion HW as [|? ? Wa Wl]; subst. inversion HP as [|? ? Pa Pl]; subst. specialize (IH Wl Pl).
  destruct (Wa n Hn) as (t1 & m & E1 & H1 & F1 & Q1 & O1 & C1).
  destruct (IH m (good_le _ _ _ H1 Hn)) as (t2 & n' & E2 & H2 & F2 & Q2 & O2 & C2).
  exists (t1 ++ t2), n'. split.
  { change (w_all f (a :: l)) with (w_app (f a) (w_all f l)). unfold w_app. rewrite E1. cbn [bind]. rewrite E2. reflexivity. }
  split; [lia|]. split; [apply frame_app; [apply (frame_le _ n n' n m)|apply (frame_le _ n n' m n')]; auto|]. split; [apply Forall_app; auto|].
  rewrite objects_app. split.
  { apply Forall_app. split; [eapply Forall_impl; [|exact O1]|eapply Forall_impl; [|exact O2]];
      intros v [K|K]; auto; left; [apply (own_le n n' n m)|apply (own_le n n' m n')]; auto. }
  intros V Lo.
  assert (L1 : local V n m t1) by (eapply local_left; eauto using outer_only).
  assert (L2 : local V m n' t2) by (eapply local_right; eauto using outer_only).
  destruct (C1 V L1) as (v & Ev & Av). destruct (C2 V L2) as [A2 N2]. rewrite Ev in O1 |- *. cbn [app]. split; [constructor; auto|].
  constructor; [|exact N2]. intro Hin.
  inversion O1 as [|? ? Ov _]; subst. rewrite Forall_forall in O2. pose proof (O2 v Hin) as Ov2.
  destruct v as [s|b|t k].
  - assert (exists a', In a' l /\ At V a' (NUri s)) as (a' & Ha' & Aa').
    { clear - A2 Hin. induction A2 as [|x y xs ys Hxy HF IH]; [destruct Hin|]. destruct Hin as [->|Hin].
      - exists x. split; [left; reflexivity|auto].
      - destruct (IH Hin) as (z & Hz & Az). exists z. split; [right|]; auto. }
    rewrite Forall_forall in Pa. eapply (Pa a' Ha' V); [|exact Av|exact Aa']. intros [].
  - destruct Ov as [(k & Hk & Ek)|B]; [|apply B; exact I]. destruct Ov2 as [(j & Hj & Ej)|B]; [|apply B; exact I].
    rewrite Ek in Ej. injection Ej as Ej. apply lab_inj in Ej. lia.
  - assert (exists a', In a' l /\ At V a' (NLit t k)) as (a' & Ha' & Aa').
    { clear - A2 Hin. induction A2 as [|x y xs ys Hxy HF IH]; [destruct Hin|]. destruct Hin as [->|Hin].
      - exists x. split; [left; reflexivity|auto].
      - destruct (IH Hin) as (z & Hz & Az). exists z. split; [right|]; auto. }
    rewrite Forall_forall in Pa. eapply (Pa a' Ha' V); [|exact Av|exact Aa']. intros [].
Qed.

(** ** Writers of several properties of one node *)
Definition among (par : node) (ps : list pystr) : node -> pystr -> Prop := fun s q => s = par /\ In q ps.
Definition WritesAll (w : writer) (par : node) (pcs : list (pystr * (view -> list node -> Prop))) : Prop :=
  forall n, good n par -> exists ts n', w n = Ok (ts, n') /\ n <= n' /\ frame (among par (map fst pcs)) n n' ts /\ quiet ts
    /\ forall V, local V n n' ts -> Forall (fun pc => snd pc V (objects ts par (fst pc))) pcs.
Lemma outer_among n par ps : good n par -> outer (among par ps) n.
Proof. intros H s q [-> _]. exact H. Qed.
Lemma writes_seq par ws pcs : Forall2 (fun w pc => Writes w par (fst pc) (snd pc)) ws pcs -> NoDup (map fst pcs) ->
  WritesAll (w_seq ws) par pcs.
Proof.
  intros HF. induction HF as [|w [p C] ws pcs W HF IH]; intros ND n Hn.
  { exists [], n. split; [reflexivity|]. split; [lia|]. repeat (split; [constructor|]). intros V _. constructor. }
  cbn [map fst snd] in *. inversion ND as [|? ? Np Nps]; subst. specialize (IH Nps).
  destruct (W n Hn) as (t1 & m & E1 & H1 & F1 & Q1 & O1 & C1).
  destruct (IH m (good_le _ _ _ H1 Hn)) as (t2 & n' & E2 & H2 & F2 & Q2 & C2).
  exists (t1 ++ t2), n'. split.
  { change (w_seq (w :: ws)) with (w_app w (w_seq ws)). unfold w_app. rewrite E1. cbn [bind]. rewrite E2. reflexivity. }
  split; [lia|]. split.
  { apply frame_app; [apply (frame_le _ n n' n m)|apply (frame_le _ n n' m n')]; auto.
    - eapply frame_impl; [|exact F1]. intros s q [-> ->]. split; auto. left. reflexivity.
    - eapply frame_impl; [|exact F2]. intros s q [-> K]. split; auto. right. exact K. }
  split; [apply Forall_app; auto|].
  intros V Lo.
  assert (L1 : local V n m t1) by (eapply local_left; eauto using outer_among).
  assert (L2 : local V m n' t2) by (eapply local_right; eauto using outer_only).
  assert (NO : forall a b, n <= a -> ~ own a b par).
  { intros a b Ha (k & Hk & E). destruct Hn as [_ Hn]. apply (Hn k); [lia|exact E]. }
  constructor; cbn [fst snd].
  - rewrite objects_app, (frame_objects _ _ _ t2 _ _ F2), app_nil_r; auto.
    + apply Hn.
    + intros [_ K]. exact (Np K).
  - specialize (C2 V L2). rewrite Forall_forall in C2 |- *. intros [q D] Hq. cbn [fst snd]. specialize (C2 _ Hq).
    cbn [fst snd] in C2. rewrite objects_app, (frame_objects _ _ _ t1 _ _ F1); auto.
    + apply Hn.
    + intros [_ ->]. apply Np. apply in_map_iff. exists (p, D). auto.
Qed.

(** ** Nodes of their own *)
Lemma w_seq_app a b n : w_seq (a ++ b) n = do (x, m) <- w_seq a n; do (y, k) <- w_seq b m; Ok (x ++ y, k).
Proof.
  revert n; induction a as [|w a IH]; intro n.
  - change (w_seq [] n) with (Ok ([] : list triple, n)). cbn [app bind]. destruct (w_seq b n) as [[y k]|e]; reflexivity.
  - cbn [app]. change (w_seq (w :: a ++ b)) with (w_app w (w_seq (a ++ b))).
    change (w_seq (w :: a)) with (w_app w (w_seq a)). unfold w_app. destruct (w n) as [[x m]|e]; [|reflexivity].
    cbn [bind]. rewrite IH. destruct (w_seq a m) as [[y k]|e]; [|reflexivity]. cbn [bind].
    destruct (w_seq b k) as [[z j]|e]; [|reflexivity]. cbn [bind]. rewrite app_assoc. reflexivity.
Qed.
Definition says (pcs : list (pystr * (view -> list node -> Prop))) (V : view) (v : node) : Prop :=
  Forall (fun pc => snd pc V (V v (fst pc))) pcs.
Lemma link_block par p b n ws1 ws2 pcs1 pcs2 : good n b ->
  Forall2 (fun w pc => Writes w b (fst pc) (snd pc)) ws1 pcs1 -> Forall2 (fun w pc => Writes w b (fst pc) (snd pc)) ws2 pcs2 ->
  NoDup (map fst (pcs1 ++ pcs2)) ->
  exists t1 t2 n', w_seq (ws1 ++ w_add par p b :: ws2) n = Ok (t1 ++ (par, p, b) :: t2, n') /\ n <= n'
    /\ frame (among b (map fst (pcs1 ++ pcs2))) n n' (t1 ++ t2) /\ quiet (t1 ++ t2)
    /\ forall V, local V n n' (t1 ++ t2) -> Forall (fun pc => snd pc V (objects (t1 ++ t2) b (fst pc))) (pcs1 ++ pcs2).
Proof.
  intros Hb H1 H2 ND. destruct (writes_seq b (ws1 ++ ws2) (pcs1 ++ pcs2) (Forall2_app H1 H2) ND n Hb) as (ts & n' & E & K).
  rewrite w_seq_app in E. destruct (w_seq ws1 n) as [[t1 m]|e] eqn:E1; [|discriminate]. cbn [bind] in E.
  destruct (w_seq ws2 m) as [[t2 k]|e] eqn:E2; [|discriminate]. cbn [bind] in E. injection E as <- <-.
  exists t1, t2, k. split; [|exact K].
  rewrite w_seq_app, E1. cbn [bind]. change (w_seq (w_add par p b :: ws2)) with (w_app (w_add par p b) (w_seq ws2)).
  unfold w_app, w_add. cbn [bind]. rewrite E2. reflexivity.
Qed.
Lemma objects_skip t1 s p o t2 x q : (s <> x \/ p <> q) -> objects (t1 ++ (s, p, o) :: t2) x q = objects (t1 ++ t2) x q.
Proof.
  intro H. rewrite !objects_app, objects_cons. replace (node_eqb s x && str_eqb p q) with false; [reflexivity|].
  symmetry. apply andb_false_iff. destruct H as [H|H]; [left; apply node_eqb_neq|right; apply str_eqb_neq]; exact H.
Qed.
Lemma local_skip V n n' t1 t2 s p o : (forall k, n <= k < n' -> s <> NBlank (lab k)) ->
  local V n n' (t1 ++ (s, p, o) :: t2) -> local V n n' (t1 ++ t2).
Proof. intros H Lo k q Hk. rewrite (Lo k q Hk). apply objects_skip. left. apply H. exact Hk. Qed.
Lemma writes_fresh par p (ws1 ws2 : node -> list writer) pcs1 pcs2 :
  (forall b, Forall2 (fun w pc => Writes w b (fst pc) (snd pc)) (ws1 b) pcs1) ->
  (forall b, Forall2 (fun w pc => Writes w b (fst pc) (snd pc)) (ws2 b) pcs2) ->
  NoDup (map fst (pcs1 ++ pcs2)) -> special (par, p, NBlank []) = false ->
  Writes1 (w_fresh lab (fun b => w_seq (ws1 b ++ w_add par p b :: ws2 b))) par p
    (fun V v => (exists k, v = NBlank (lab k)) /\ says (pcs1 ++ pcs2) V v).
Proof.
  intros H1 H2 ND SP n Hn.
  assert (Hb : good (S n) (NBlank (lab n))) by (apply blank_good; lia).
  destruct (link_block par p (NBlank (lab n)) (S n) (ws1 _) (ws2 _) pcs1 pcs2 Hb (H1 _) (H2 _) ND)
    as (t1 & t2 & n' & E & Hle & F & Q & K).
  exists (t1 ++ (par, p, NBlank (lab n)) :: t2), n'. split; [exact E|]. split; [lia|].
  assert (Pb : par <> NBlank (lab n)) by (destruct Hn as [_ Hn]; apply Hn; lia).
  assert (FO : frame (only par p) n n' (t1 ++ (par, p, NBlank (lab n)) :: t2)).
  { apply Forall_app in F. destruct F as [F1 F2].
    assert (X : forall t, frame (among (NBlank (lab n)) (map fst (pcs1 ++ pcs2))) (S n) n' t -> frame (only par p) n n' t).
    { intros t. apply Forall_impl. intros [[s q] o]; cbn [fst snd]. intros [[-> _]|[W|W]]; auto.
      - right. left. exists n. split; [lia|reflexivity].
      - right. left. apply (own_le n n' (S n) n'); auto. }
    apply Forall_app. split; [apply X; exact F1|]. constructor; [left; split; reflexivity|apply X; exact F2]. }
  split; [exact FO|]. split.
  { apply Forall_app in Q. destruct Q as [Q1 Q2]. apply Forall_app. split; [exact Q1|]. constructor; [|exact Q2].
    unfold special in SP |- *. rewrite orb_false_iff in SP. destruct SP as [SP _]. rewrite SP. rewrite andb_false_r. reflexivity. }
  assert (OP : objects (t1 ++ (par, p, NBlank (lab n)) :: t2) par p = [NBlank (lab n)]).
  { rewrite objects_app, objects_cons, node_eqb_refl, str_eqb_refl. cbn [andb].
    apply Forall_app in F. destruct F as [F1 F2].
    assert (No : ~ own (S n) n' par).
    { intros (k & Hk & Ek). destruct Hn as [_ Hn]. apply (Hn k); [lia|exact Ek]. }
    rewrite (frame_objects _ _ _ t1 _ _ F1), (frame_objects _ _ _ t2 _ _ F2); auto; try (apply Hn); intros [Hx _]; auto. }
  rewrite OP. split.
  { constructor; [|constructor]. left. exists n. split; [lia|reflexivity]. }
  intros V Lo. exists (NBlank (lab n)). split; [reflexivity|]. split; [eauto|]. unfold says.
  assert (LS : local V n n' (t1 ++ t2)).
  { eapply local_skip; [|exact Lo]. intros k Hk. destruct Hn as [_ Hn]. apply Hn. lia. }
  assert (L2 : local V (S n) n' (t1 ++ t2)) by (intros k q Hk; apply LS; lia).
  specialize (K V L2). rewrite Forall_forall in K |- *. intros pc Hpc. rewrite (LS n (fst pc)) by lia. apply K. exact Hpc.
Qed.
(** the properties of a node written at top level *)
Lemma says_seq par ws pcs n : Forall2 (fun w pc => Writes w par (fst pc) (snd pc)) ws pcs -> NoDup (map fst pcs) -> good n par ->
  exists ts n', w_seq ws n = Ok (ts, n') /\ n <= n' /\ frame (among par (map fst pcs)) n n' ts /\ quiet ts
    /\ forall V, local V n n' ts -> (forall p, In p (map fst pcs) -> V par p = objects ts par p) -> says pcs V par.
Proof.
  intros H ND Hn. destruct (writes_seq par ws pcs H ND n Hn) as (ts & n' & E & H1 & F & Q & K).
  exists ts, n'. repeat (split; auto). intros V Lo Ag. specialize (K V Lo). unfold says. rewrite Forall_forall in K |- *.
  intros pc Hpc. rewrite Ag; [apply K; exact Hpc|]. apply in_map. exact Hpc.
Qed.

(** ** Blocks at top level *)
(** predicates about which only the whole graph is asked *)
Definition deaf : list pystr :=
  [spdx "annotation"; spdx "relationship"; spdx "hasExtractedLicensingInfo"; spdx "externalDocumentRef"; spdx "creationInfo"].
(** w writes about the nodes and predicates of A; D holds for its special triples in every graph that says about these
    nodes what w says *)
Definition Top (w : writer) (A : node -> pystr -> Prop) (D : view -> list triple -> Prop) : Prop :=
  forall n, exists ts n', w n = Ok (ts, n') /\ n <= n' /\ frame A n n' ts
    /\ forall V, local V n n' ts -> (forall s q, A s q -> ~ In q deaf -> V s q = objects ts s q) -> D V (filter special ts).
Definition named (A : node -> pystr -> Prop) : Prop := forall s p, A s p -> ~ blank s /\ ~ exc s.
Lemma named_outer A n : named A -> outer A n.
Proof. intros H s p K. destruct (H s p K) as [H1 H2]. split; auto. intros k _ ->. apply H1. exact I. Qed.
Lemma named_own A n n' s p : named A -> A s p -> ~ own n n' s.
Proof. intros H K (k & _ & ->). destruct (H _ _ K) as [H1 _]. apply H1. exact I. Qed.
Lemma top_app w1 w2 A1 A2 D1 D2 : named A1 -> named A2 -> (forall s q, A1 s q -> A2 s q -> In q deaf) ->
  Top w1 A1 D1 -> Top w2 A2 D2 ->
  Top (w_app w1 w2) (fun s q => A1 s q \/ A2 s q) (fun V l => exists l1 l2, l = l1 ++ l2 /\ D1 V l1 /\ D2 V l2).
Proof.
  intros N1 N2 Dj T1 T2 n. destruct (T1 n) as (t1 & m & E1 & H1 & F1 & K1). destruct (T2 m) as (t2 & n' & E2 & H2 & F2 & K2).
  exists (t1 ++ t2), n'. split; [unfold w_app; rewrite E1; cbn [bind]; rewrite E2; reflexivity|]. split; [lia|]. split.
  { apply frame_app; [apply (frame_le _ n n' n m)|apply (frame_le _ n n' m n')]; auto; eapply frame_impl; [|exact F1| |exact F2]; auto. }
  intros V Lo Ag. rewrite filter_app. exists (filter special t1), (filter special t2). split; [reflexivity|].
  pose proof (named_outer A1 n N1) as O1. pose proof (named_outer A2 n N2) as O2. split.
  - apply K1; [eapply local_left; eauto|]. intros s q Hs Hq. rewrite Ag by auto.
    rewrite objects_app, (frame_objects _ _ _ t2 _ _ F2), app_nil_r; auto.
    + exact (proj2 (N1 _ _ Hs)).
    + exact (named_own A1 _ _ _ _ N1 Hs).
    + intro X. apply Hq. eapply Dj; eauto.
  - apply K2; [eapply local_right; eauto|]. intros s q Hs Hq. rewrite Ag by auto.
    rewrite objects_app, (frame_objects _ _ _ t1 _ _ F1); auto.
    + exact (proj2 (N2 _ _ Hs)).
    + exact (named_own A2 _ _ _ _ N2 Hs).
    + intro X. apply Hq. eapply Dj; eauto.
Qed.
Lemma top_all {X} (f : X -> writer) (A : X -> node -> pystr -> Prop) (D : X -> view -> list triple -> Prop) l :
  Forall (fun x => Top (f x) (A x) (D x)) l -> (forall x, In x l -> named (A x)) ->
  ForallOrdPairs (fun x y => forall s q, A x s q -> A y s q -> In q deaf) l ->
  Top (w_all f l) (fun s q => exists x, In x l /\ A x s q)
    (fun V sp => exists sps, sp = List.concat sps /\ Forall2 (fun x s => D x V s) l sps).
Proof.
  intros HT HN HP. induction l as [|x l IH].
  { intro n. exists [], n. split; [reflexivity|]. split; [lia|]. split; [constructor|]. intros V _ _. exists []. split; constructor. }
  inversion HT as [|? ? T1 Tl]; subst. inversion HP as [|? ? P1 Pl]; subst.
  assert (Tl' := IH Tl (fun y Hy => HN y (or_intror Hy)) Pl). clear IH.
  assert (Nl : named (fun s q => exists y, In y l /\ A y s q)).
  { intros s q (y & Hy & K). apply (HN y (or_intror Hy) _ _ K). }
  assert (Dj : forall s q, A x s q -> (exists y, In y l /\ A y s q) -> In q deaf).
  { intros s q Hx (y & Hy & K). rewrite Forall_forall in P1. eapply P1; eauto. }
  pose proof (top_app _ _ _ _ _ _ (HN x (or_introl eq_refl)) Nl Dj T1 Tl') as T.
  intro n. destruct (T n) as (ts & n' & E & H1 & F & K). exists ts, n'. split; [exact E|]. split; [exact H1|]. split.
  { eapply frame_impl; [|exact F]. intros s q [Hx|(y & Hy & Ky)]; [exists x|exists y]; split; auto; [left; reflexivity|right; exact Hy]. }
  intros V Lo Ag. destruct (K V Lo) as (l1 & l2 & -> & D1 & sps & -> & D2).
  { intros s q [Hx|(y & Hy & Ky)] Hq; apply Ag; auto; [exists x|exists y]; split; auto; [left; reflexivity|right; exact Hy]. }
  exists (l1 :: sps). split; [reflexivity|]. constructor; auto.
Qed.
End Blocks.
