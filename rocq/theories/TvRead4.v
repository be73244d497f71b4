(** Dictionaries entry by entry. *)
From Verif Require Import Py PyFacts PyRe PyReFacts Data Oracles Basics Json Construct JsonConv JsonParse JsonSpec JsonRead
  TvWriter TvLexer TvSpec TvTokSpec TvLexFacts TvLexValues TvParser TvParseFacts TvErrors TvRepeat TvRaises TvReadSpec TvRead TvRead2 TvRead3.

(** ** Operations on a dictionary *)
Inductive op :=
| Op_set (n : pystr) (v : option tval) | Op_app (n : pystr) (v : option tval)
| Op_over (n : pystr) (v : tval) | Op_first (n : pystr) (v : tval) | Op_skip | Op_fail.
Definition do_op (o : op) (d : tdict) : option tdict :=
  match o with
  | Op_set n v => put_once n v d
  | Op_app n v => put_more n v d
  | Op_over n v => Some (dict_set n v d)
  | Op_first n v => Some (match assoc n d with Some _ => d | None => dict_set n v d end)
  | Op_skip => Some d
  | Op_fail => None
  end.
Fixpoint do_ops (l : list op) (d : tdict) : option tdict :=
  match l with [] => Some d | o :: l' => match do_op o d with Some d' => do_ops l' d' | None => None end end.
(** what happens to one entry *)
Definition cell1 (n : pystr) (o : op) (x : option tval) : option (option tval) :=
  match o with
  | Op_set m v => if str_eqb n m then match v, x with Some y, None => Some (Some y) | _, _ => None end else Some x
  | Op_app m v => if str_eqb n m then match v with
                                      | Some y => match append_val x y with Ok z => Some (Some z) | Raise _ => None end
                                      | None => None
                                      end
                  else Some x
  | Op_over m v => if str_eqb n m then Some (Some v) else Some x
  | Op_first m v => if str_eqb n m then Some (Some (match x with Some y => y | None => v end)) else Some x
  | Op_skip => Some x
  | Op_fail => None
  end.
Fixpoint cells (n : pystr) (l : list op) (x : option tval) : option (option tval) :=
  match l with [] => Some x | o :: l' => match cell1 n o x with Some x' => cells n l' x' | None => None end end.
Lemma eqb_neq n m : n <> m -> str_eqb n m = false.
Proof. intro H. destruct (str_eqb n m) eqn:E; auto. apply str_eqb_eq in E. contradiction. Qed.
Lemma do_op_cell o d d' n : do_op o d = Some d' -> cell1 n o (assoc n d) = Some (assoc n d').
Proof.
  destruct o as [m v|m v|m v|m v| |]; cbn [do_op cell1]; intro H.
  - destruct (str_eqb n m) eqn:E.
    + apply str_eqb_eq in E. subst m. unfold put_once in H. destruct v; [|discriminate H]. destruct (assoc n d); [discriminate H|]. injection H as <-. rewrite assoc_dict_set_same. reflexivity.
    + apply str_eqb_neq in E. rewrite (put_once_lacks m v d d' n H E). reflexivity.
  - destruct (str_eqb n m) eqn:E.
    + apply str_eqb_eq in E. subst m. unfold put_more in H. destruct v; [|discriminate H]. destruct (append_val _ _); [|discriminate H]. injection H as <-. rewrite assoc_dict_set_same. reflexivity.
    + apply str_eqb_neq in E. rewrite (put_more_lacks m v d d' n H E). reflexivity.
  - injection H as <-. destruct (str_eqb n m) eqn:E; [apply str_eqb_eq in E; subst m; rewrite assoc_dict_set_same|apply str_eqb_neq in E; rewrite assoc_dict_set_other by auto]; reflexivity.
  - injection H as <-. destruct (str_eqb n m) eqn:E.
    + apply str_eqb_eq in E. subst m. destruct (assoc n d) eqn:A; [rewrite A; reflexivity|]. rewrite assoc_dict_set_same. reflexivity.
    + apply str_eqb_neq in E. destruct (assoc m d) eqn:A; [reflexivity|]. rewrite assoc_dict_set_other by auto. reflexivity.
  - congruence.
  - discriminate.
Qed.
Lemma do_op_some o d : (forall n, cell1 n o (assoc n d) <> None) -> exists d', do_op o d = Some d'.
Proof.
  intro H. destruct o as [m v|m v|m v|m v| |]; cbn [do_op cell1] in *; eauto.
  - specialize (H m). rewrite str_eqb_refl in H. unfold put_once. destruct v; [|congruence]. destruct (assoc m d); [congruence|eauto].
  - specialize (H m). rewrite str_eqb_refl in H. unfold put_more. destruct v; [|congruence]. destruct (append_val _ _); [eauto|congruence].
  - destruct (H []). reflexivity.
Qed.
Lemma do_ops_cells l : forall d d', do_ops l d = Some d' -> forall n, cells n l (assoc n d) = Some (assoc n d').
Proof.
  induction l as [|o l IH]; intros d d' H n; cbn [do_ops cells] in *; [congruence|]. destruct (do_op o d) as [d1|] eqn:E; [|discriminate H].
  rewrite (do_op_cell o d d1 n E). apply IH. exact H.
Qed.
Lemma do_ops_some l : forall d, (forall n, cells n l (assoc n d) <> None) -> exists d', do_ops l d = Some d'.
Proof.
  induction l as [|o l IH]; intros d H; cbn [do_ops]; [eauto|].
  destruct (do_op_some o d) as [d1 E]; [intros n K; apply (H n); cbn [cells]; rewrite K; reflexivity|]. rewrite E. apply IH. intros n K. apply (H n). cbn [cells]. rewrite (do_op_cell o d d1 n E). exact K.
Qed.

(** ** The entry of one tag *)
Section Entry.
Variable f : grp -> op.
Variables (n : pystr) (t : tag).
Variable val : grp -> option tval.
Definition apart (g : grp) : Prop := forall x, cell1 n (f g) x = Some x.
Lemma tag_eqb_spec a b : tag_eqb a b = true <-> a = b.
Proof. unfold tag_eqb. destruct (tag_eq_dec a b); split; congruence. Qed.
Lemma tag_eqb_no a b : a <> b -> tag_eqb a b = false.
Proof. intro H. destruct (tag_eqb a b) eqn:E; auto. apply tag_eqb_spec in E. contradiction. Qed.
Lemma with_tag_cons g gs : with_tag t (g :: gs) = if tag_eqb (g_tag g) t then g :: with_tag t gs else with_tag t gs.
Proof. reflexivity. Qed.
Lemma set_again gs v : Forall (fun g => g_tag g = t /\ f g = Op_set n (val g) \/ g_tag g <> t /\ apart g) gs ->
  cells n (map f gs) (Some v) = match with_tag t gs with [] => Some (Some v) | _ => None end.
Proof.
  induction gs as [|g gs IH]; intro H; [reflexivity|]. apply Forall_cons_iff in H as [[[E F]|[E F]] H]; cbn [map cells].
  - rewrite F. cbn [cell1]. rewrite str_eqb_refl, with_tag_cons, E. assert (T : tag_eqb t t = true) by (apply tag_eqb_spec; reflexivity). rewrite T. destruct (val g); reflexivity.
  - rewrite (F (Some v)), with_tag_cons, (tag_eqb_no _ _ E). apply IH. exact H.
Qed.
Lemma set_entry gs : Forall (fun g => g_tag g = t /\ f g = Op_set n (val g) \/ g_tag g <> t /\ apart g) gs ->
  cells n (map f gs) None = match with_tag t gs with [] => Some None | [g] => option_map Some (val g) | _ => None end.
Proof.
  induction gs as [|g gs IH]; intro H; [reflexivity|]. apply Forall_cons_iff in H as [[[E F]|[E F]] H]; cbn [map cells].
  - rewrite F. cbn [cell1]. rewrite str_eqb_refl, with_tag_cons, E. assert (T : tag_eqb t t = true) by (apply tag_eqb_spec; reflexivity). rewrite T.
    destruct (val g) as [v|]; [|destruct (with_tag t gs); reflexivity]. rewrite set_again by exact H. destruct (with_tag t gs); reflexivity.
  - rewrite (F None), with_tag_cons, (tag_eqb_no _ _ E). apply IH. exact H.
Qed.
(** the values of a list *)
Fixpoint appended (vs : list (option tval)) (x : option tval) : option (option tval) :=
  match vs with
  | [] => Some x
  | Some v :: vs' => match append_val x v with Ok y => appended vs' (Some y) | Raise _ => None end
  | None :: _ => None
  end.
Lemma app_entry gs : Forall (fun g => g_tag g = t /\ f g = Op_app n (val g) \/ g_tag g <> t /\ apart g) gs ->
  forall x, cells n (map f gs) x = appended (map val (with_tag t gs)) x.
Proof.
  induction gs as [|g gs IH]; intros H x; [reflexivity|]. apply Forall_cons_iff in H as [[[E F]|[E F]] H]; cbn [map cells].
  - rewrite F. cbn [cell1]. rewrite str_eqb_refl, with_tag_cons, E. assert (T : tag_eqb t t = true) by (apply tag_eqb_spec; reflexivity). rewrite T. cbn [map appended].
    destruct (val g) as [v|]; [|reflexivity]. destruct (append_val x v); [apply IH; exact H|reflexivity].
  - rewrite (F x), with_tag_cons, (tag_eqb_no _ _ E). apply IH. exact H.
Qed.
Lemma apart_all gs x : Forall apart gs -> cells n (map f gs) x = Some x.
Proof. induction 1 as [|g gs H _ IH]; cbn [map cells]; [reflexivity|]. rewrite H. exact IH. Qed.
Lemma over_entry gs : Forall (fun g => g_tag g = t /\ f g = Op_over n (VStr (tk_value (g_val g))) \/ g_tag g <> t /\ apart g) gs ->
  forall x, cells n (map f gs) x = Some (match rev (with_tag t gs) with [] => x | g :: _ => Some (VStr (tk_value (g_val g))) end).
Proof.
  induction gs as [|g gs IH]; intros H x; [reflexivity|]. apply Forall_cons_iff in H as [[[E F]|[E F]] H]; cbn [map cells].
  - rewrite F. cbn [cell1]. rewrite str_eqb_refl, with_tag_cons, E. assert (T : tag_eqb t t = true) by (apply tag_eqb_spec; reflexivity). rewrite T. cbn [rev].
    rewrite (IH H). destruct (rev (with_tag t gs)); reflexivity.
  - rewrite (F x), with_tag_cons, (tag_eqb_no _ _ E). apply IH. exact H.
Qed.
Lemma first_again gs v : Forall (fun g => g_tag g = t /\ f g = Op_first n (VStr (tk_value (g_val g))) \/ g_tag g <> t /\ apart g) gs ->
  cells n (map f gs) (Some v) = Some (Some v).
Proof.
  induction gs as [|g gs IH]; intros H; [reflexivity|]. apply Forall_cons_iff in H as [[[E F]|[E F]] H]; cbn [map cells].
  - rewrite F. cbn [cell1]. rewrite str_eqb_refl. apply IH. exact H.
  - rewrite (F (Some v)). apply IH. exact H.
Qed.
Lemma first_entry gs : Forall (fun g => g_tag g = t /\ f g = Op_first n (VStr (tk_value (g_val g))) \/ g_tag g <> t /\ apart g) gs ->
  cells n (map f gs) None = Some (match with_tag t gs with [] => None | g :: _ => Some (VStr (tk_value (g_val g))) end).
Proof.
  induction gs as [|g gs IH]; intros H; [reflexivity|]. apply Forall_cons_iff in H as [[[E F]|[E F]] H]; cbn [map cells].
  - rewrite F. cbn [cell1]. rewrite str_eqb_refl, with_tag_cons, E. assert (T : tag_eqb t t = true) by (apply tag_eqb_spec; reflexivity). rewrite T. apply first_again. exact H.
  - rewrite (F None), with_tag_cons, (tag_eqb_no _ _ E). apply IH. exact H.
Qed.
End Entry.
(** lists of items *)
Lemma appended_items {A} (K : list A -> tval) vs : (forall a b, append_val (Some (K a)) (K b) = Ok (K (a ++ b))) -> (forall a b, K a = K b -> a = b) ->
  Forall (fun v => forall y, v = Some y -> exists x, y = K [x]) vs ->
  forall a o, (appended vs (Some (K a)) = Some o <-> exists xs, vs = map (fun x => Some (K [x])) xs /\ o = Some (K (a ++ xs))).
Proof.
  intros HK HI. induction vs as [|v vs IH]; intros H a o.
  - cbn. split; [intro E; injection E as <-; exists []; rewrite app_nil_r; auto|]. intros ([|x xs] & E & ->); [rewrite app_nil_r; reflexivity|discriminate E].
  - apply Forall_cons_iff in H as [H1 H2]. cbn [appended]. destruct v as [y|].
    + destruct (H1 y eq_refl) as [x ->]. rewrite HK. rewrite (IH H2). split.
      * intros (xs & -> & ->). exists (x :: xs). split; [reflexivity|]. rewrite <- app_assoc. reflexivity.
      * intros ([|x' xs] & E & ->); [discriminate E|]. cbn [map] in E.
        assert (E1 : K [x] = K [x']) by congruence. assert (E2 : vs = map (fun x => Some (K [x])) xs) by congruence.
        apply HI in E1. assert (E3 : x = x') by congruence. subst x'. exists xs. split; auto. rewrite <- app_assoc. reflexivity.
    + split; [discriminate|]. intros ([|x' xs] & E & _); discriminate E.
Qed.
Lemma appended_all {A} (K : list A -> tval) vs : (forall a b, append_val (Some (K a)) (K b) = Ok (K (a ++ b))) -> (forall a b, K a = K b -> a = b) ->
  Forall (fun v => forall y, v = Some y -> exists x, y = K [x]) vs ->
  forall o, (appended vs None = Some o <-> exists xs, vs = map (fun x => Some (K [x])) xs /\ o = match xs with [] => None | _ => Some (K xs) end).
Proof.
  intros HK HI H o. destruct vs as [|v vs].
  - cbn. split; [intro E; injection E as <-; exists []; auto|]. intros ([|x xs] & E & ->); [reflexivity|discriminate E].
  - apply Forall_cons_iff in H as [H1 H2]. cbn [appended]. destruct v as [y|].
    + destruct (H1 y eq_refl) as [x ->]. cbn [append_val]. rewrite (appended_items K vs HK HI H2). split.
      * intros (xs & -> & ->). exists (x :: xs). auto.
      * intros ([|x' xs] & E & ->); [discriminate E|]. cbn [map] in E.
        assert (E1 : K [x] = K [x']) by congruence. assert (E2 : vs = map (fun x => Some (K [x])) xs) by congruence.
        apply HI in E1. assert (E3 : x = x') by congruence. subst x'. exists xs. auto.
    + split; [discriminate|]. intros ([|x' xs] & E & _); discriminate E.
Qed.

(** ** Shapes *)
Inductive shape := Sh_set (n : pystr) | Sh_app (n : pystr) | Sh_over (n : pystr) | Sh_first (n : pystr) | Sh_skip | Sh_fail.
Definition shape_name (s : shape) : option pystr :=
  match s with Sh_set n | Sh_app n | Sh_over n | Sh_first n => Some n | _ => None end.
Definition same_shape (a b : shape) : bool :=
  match a, b with
  | Sh_set n, Sh_set m | Sh_app n, Sh_app m | Sh_over n, Sh_over m | Sh_first n, Sh_first m => str_eqb n m
  | Sh_skip, Sh_skip | Sh_fail, Sh_fail => true
  | _, _ => false
  end.
Lemma same_shape_eq a b : same_shape a b = true -> a = b.
Proof. destruct a, b; cbn; try discriminate; intro H; try reflexivity; apply str_eqb_eq in H; congruence. Qed.
Section Shapes.
Variable O : oracles.
Variable sh : tag -> shape.
Definition the_op (g : grp) : op :=
  match sh (g_tag g) with
  | Sh_set n => Op_set n (val_of O g)
  | Sh_app n => Op_app n (val_of O g)
  | Sh_over n => Op_over n (VStr (tk_value (g_val g)))
  | Sh_first n => Op_first n (VStr (tk_value (g_val g)))
  | Sh_skip => Op_skip
  | Sh_fail => Op_fail
  end.
(** the entry [n] is that of the tag [t] only *)
Definition other_name (n : pystr) (s : shape) : bool :=
  match s with Sh_fail => false | _ => match shape_name s with Some m => negb (str_eqb n m) | None => true end end.
Definition entry_of (n : pystr) (t : tag) (s : shape) (tags : list tag) : bool :=
  forallb (fun x => if tag_eqb x t then same_shape (sh x) s else other_name n (sh x)) tags.
Lemma other_apart n g : other_name n (sh (g_tag g)) = true -> apart the_op n g.
Proof.
  unfold apart, the_op, other_name. intros H x. destruct (sh (g_tag g)) as [m|m|m|m| |]; cbn [shape_name] in H; cbn [cell1]; try discriminate H; try reflexivity;
  apply negb_true_iff in H; rewrite H; reflexivity.
Qed.
Lemma entry_each n t s tags gs : entry_of n t s tags = true -> Only tags gs -> Forall (fun g => g_tag g = t /\ sh (g_tag g) = s \/ g_tag g <> t /\ apart the_op n g) gs.
Proof.
  intros E H. eapply Forall_impl; [|exact H]. cbv beta. intros g Hg. unfold entry_of in E. rewrite forallb_forall in E. specialize (E _ Hg).
  destruct (tag_eqb (g_tag g) t) eqn:T.
  - left. split; [apply tag_eqb_spec; exact T|apply same_shape_eq; exact E].
  - right. split; [|apply other_apart; exact E]. intro K. rewrite K in T. assert (T' : tag_eqb t t = true) by (apply tag_eqb_spec; reflexivity). congruence.
Qed.
Section Field.
Variables (n : pystr) (t : tag) (tags : list tag) (gs : list grp).
Hypothesis Honly : Only tags gs.
Lemma in_with_tag g : In g (with_tag t gs) <-> In g gs /\ g_tag g = t.
Proof. unfold with_tag. rewrite filter_In, tag_eqb_spec. tauto. Qed.
Lemma set_cells : entry_of n t (Sh_set n) tags = true ->
  cells n (map the_op gs) None = match with_tag t gs with [] => Some None | [g] => option_map Some (val_of O g) | _ => None end.
Proof.
  intro E. apply set_entry. eapply Forall_impl; [|exact (entry_each n t _ tags gs E Honly)]. cbv beta. intros g [[A B]|[A B]]; [left|right; auto].
  split; auto. unfold the_op. rewrite B. reflexivity.
Qed.
Lemma app_cells : entry_of n t (Sh_app n) tags = true -> cells n (map the_op gs) None = appended (map (val_of O) (with_tag t gs)) None.
Proof.
  intro E. apply app_entry. eapply Forall_impl; [|exact (entry_each n t _ tags gs E Honly)]. cbv beta. intros g [[A B]|[A B]]; [left|right; auto].
  split; auto. unfold the_op. rewrite B. reflexivity.
Qed.
Lemma over_cells x : entry_of n t (Sh_over n) tags = true ->
  cells n (map the_op gs) x = Some (match rev (with_tag t gs) with [] => x | g :: _ => Some (VStr (tk_value (g_val g))) end).
Proof.
  intro E. apply over_entry. eapply Forall_impl; [|exact (entry_each n t _ tags gs E Honly)]. cbv beta. intros g [[A B]|[A B]]; [left|right; auto].
  split; auto. unfold the_op. rewrite B. reflexivity.
Qed.
Lemma first_cells : entry_of n t (Sh_first n) tags = true ->
  cells n (map the_op gs) None = Some (match with_tag t gs with [] => None | g :: _ => Some (VStr (tk_value (g_val g))) end).
Proof.
  intro E. apply first_entry. eapply Forall_impl; [|exact (entry_each n t _ tags gs E Honly)]. cbv beta. intros g [[A B]|[A B]]; [left|right; auto].
  split; auto. unfold the_op. rewrite B. reflexivity.
Qed.
(** *** Fields *)
Definition Reads {Y} (T : option tval -> chk Y) (y : Y) : Prop := exists o, cells n (map the_op gs) None = Some o /\ T o = COk y.
Definition Means {Y} (T : option tval -> chk Y) (P : grp -> Y -> Prop) : Prop :=
  forall g y, In g gs -> g_tag g = t -> ((exists v, val_of O g = Some v /\ T (Some v) = COk y) <-> P g y).
Lemma field_one {Y} (T : option tval -> chk Y) P y : entry_of n t (Sh_set n) tags = true -> Means T P -> (forall y, T None <> COk y) -> (Reads T y <-> One P t gs y).
Proof.
  intros E M N. unfold Reads, One. rewrite (set_cells E). assert (I : forall g, In g (with_tag t gs) -> In g gs /\ g_tag g = t) by (intro g; apply in_with_tag).
  destruct (with_tag t gs) as [|g [|g' l]].
  - split; [intros (o & A & B); injection A as <-; destruct (N _ B)|]. intros (g & A & _). discriminate A.
  - destruct (I g) as [I1 I2]; [left; reflexivity|]. split.
    + intros (o & A & B). destruct (val_of O g) as [v|] eqn:V; [|discriminate A]. injection A as <-. exists g. split; auto. apply (M g y I1 I2). eauto.
    + intros (g' & A & B). injection A as <-. apply (M g y I1 I2) in B as (v & -> & B). exists (Some v). auto.
  - split; [intros (o & A & B); discriminate A|]. intros (x & A & _). discriminate A.
Qed.
Lemma field_optional {Y} (T : option tval -> chk (option Y)) P y : entry_of n t (Sh_set n) tags = true -> Means T (fun g y => exists x, y = Some x /\ P g x) ->
  T None = COk None -> (Reads T y <-> Optional P t gs y).
Proof.
  intros E M N. unfold Reads, Optional. rewrite (set_cells E). assert (I : forall g, In g (with_tag t gs) -> In g gs /\ g_tag g = t) by (intro g; apply in_with_tag).
  destruct (with_tag t gs) as [|g [|g' l]].
  - split; [intros (o & A & B); injection A as <-; congruence|]. intros ->. exists None. auto.
  - destruct (I g) as [I1 I2]; [left; reflexivity|]. split.
    + intros (o & A & B). destruct (val_of O g) as [v|] eqn:V; [|discriminate A]. injection A as <-. apply (M g y I1 I2). eauto.
    + intro B. apply (M g y I1 I2) in B as (v & -> & B). exists (Some v). auto.
  - split; [intros (o & A & B); discriminate A|]. intros [].
Qed.
Lemma field_default {Y} (T : option tval -> chk Y) P dflt y : entry_of n t (Sh_set n) tags = true -> Means T P ->
  T None = COk dflt -> (Reads T y <-> Default P t gs dflt y).
Proof.
  intros E M N. unfold Reads, Default. rewrite (set_cells E). assert (I : forall g, In g (with_tag t gs) -> In g gs /\ g_tag g = t) by (intro g; apply in_with_tag).
  destruct (with_tag t gs) as [|g [|g' l]].
  - split; [intros (o & A & B); injection A as <-; congruence|]. intros ->. exists None. auto.
  - destruct (I g) as [I1 I2]; [left; reflexivity|]. split.
    + intros (o & A & B). destruct (val_of O g) as [v|] eqn:V; [|discriminate A]. injection A as <-. apply (M g y I1 I2). eauto.
    + intro B. apply (M g y I1 I2) in B as (v & -> & B). exists (Some v). auto.
  - split; [intros (o & A & B); discriminate A|]. intros [].
Qed.
Lemma field_each {X Y} (K : list X -> tval) (R : X -> Y -> Prop) (T : option tval -> chk (list Y)) (P : grp -> Y -> Prop) ys :
  entry_of n t (Sh_app n) tags = true ->
  (forall a b, append_val (Some (K a)) (K b) = Ok (K (a ++ b))) -> (forall a b, K a = K b -> a = b) ->
  (forall g, In g gs -> g_tag g = t -> forall v, val_of O g = Some v -> exists x, v = K [x]) ->
  (forall g y, In g gs -> g_tag g = t -> ((exists x, val_of O g = Some (K [x]) /\ R x y) <-> P g y)) ->
  (forall xs ys, T (Some (K xs)) = COk ys <-> Forall2 R xs ys) -> (forall y, T None = COk y -> y = []) ->
  (forall o, cells n (map the_op gs) None = Some o -> T o = COk ys -> Each P t gs ys /\ (o = None <-> ys = []))
  /\ (Each P t gs ys -> T None = COk [] \/ ys <> [] -> Reads T ys /\ (ys <> [] -> cells n (map the_op gs) None <> Some None)).
Proof.
  intros E HK HI HX HP HT HN'. unfold Reads, Each. rewrite (app_cells E).
  assert (I : Forall (fun g => In g gs /\ g_tag g = t) (with_tag t gs)) by (apply Forall_forall; intro g; apply in_with_tag).
  assert (J : Forall (fun v => forall y, v = Some y -> exists x, y = K [x]) (map (val_of O) (with_tag t gs))).
  { apply Forall_forall. intros v Hv y ->. apply in_map_iff in Hv as (g & V & Hg). apply in_with_tag in Hg as [H1 H2]. exact (HX g H1 H2 y V). }
  assert (W : forall xs, map (val_of O) (with_tag t gs) = map (fun x => Some (K [x])) xs -> Forall2 R xs ys -> Forall2 P (with_tag t gs) ys).
  { revert I. clear J HN'. generalize (with_tag t gs). intros l I xs. revert xs ys. induction I as [|g l [I1 I2] I IH]; intros [|x xs] [|y ys] H1 H2; try discriminate H1; inversion H2.
    - constructor.
    - cbn [map] in H1. assert (G1 : val_of O g = Some (K [x])) by congruence. assert (G2 : map (val_of O) l = map (fun x => Some (K [x])) xs) by congruence.
      constructor; [apply (HP g _ I1 I2); eauto|]. apply (IH xs ys G2); assumption. }
  split.
  - intros o A B. apply (appended_all K _ HK HI J) in A as (xs & A & ->). destruct xs as [|x xs].
    + apply HN' in B. subst ys. split; [apply (W []); auto|]. split; auto.
    + apply HT in B. split; [apply (W (x :: xs)); auto|]. inversion B; subst. split; discriminate.
  - intros F HN.
    assert (XX : exists xs, map (val_of O) (with_tag t gs) = map (fun x => Some (K [x])) xs /\ Forall2 R xs ys).
    { revert I F. clear J HN HN' W. generalize (with_tag t gs). intros l I. revert ys. induction I as [|g l [I1 I2] I IH]; intros [|y ys] F; try (exfalso; inversion F; fail).
      - exists []. split; constructor.
      - assert (H1 : P g y) by (inversion F; assumption). assert (H3 : Forall2 P l ys) by (inversion F; assumption). apply (HP g _ I1 I2) in H1 as (x & V & Hx). destruct (IH _ H3) as (xs & V' & Hxs). exists (x :: xs). cbn [map]. rewrite V, V'. split; auto. }
    destruct XX as (xs & X1 & X2). assert (C : appended (map (val_of O) (with_tag t gs)) None = Some match xs with [] => None | _ => Some (K xs) end).
    { apply (appended_all K _ HK HI J). eauto. }
    rewrite C. split.
    + eexists. split; [reflexivity|]. destruct xs; [inversion X2; subst; destruct HN; [assumption|congruence]|apply HT; exact X2].
    + intros N. destruct xs; [inversion X2; subst; congruence|discriminate].
Qed.
Lemma field_last (T : option tval -> chk pystr) s : entry_of n t (Sh_over n) tags = true -> (forall v y, T v = COk y <-> v = Some (VStr y)) ->
  (Reads T s <-> exists l g, with_tag t gs = l ++ [g] /\ SaysLine g s).
Proof.
  intros E HT. unfold Reads, SaysLine. rewrite (over_cells None E). split.
  - intros (o & A & B). injection A as <-. apply HT in B. destruct (rev (with_tag t gs)) as [|g l] eqn:R; [discriminate B|].
    apply (f_equal (@rev grp)) in R. rewrite rev_involutive in R. cbn [rev] in R. exists (rev l), g. split; auto. congruence.
  - intros (l & g & A & ->). rewrite A, rev_app_distr. cbn [rev app]. eexists. split; [reflexivity|]. apply HT. reflexivity.
Qed.
Lemma field_first (T : option tval -> chk pystr) s : entry_of n t (Sh_first n) tags = true -> (forall v y, T v = COk y <-> v = Some (VStr y)) ->
  (Reads T s <-> exists g l, with_tag t gs = g :: l /\ SaysLine g s).
Proof.
  intros E HT. unfold Reads, SaysLine. rewrite (first_cells E). split.
  - intros (o & A & B). injection A as <-. apply HT in B. destruct (with_tag t gs) as [|g l] eqn:R; [discriminate B|]. exists g, l. split; auto. congruence.
  - intros (g & l & A & ->). rewrite A. eexists. split; [reflexivity|]. apply HT. reflexivity.
Qed.
Lemma no_entry x : forallb (fun x => other_name n (sh x)) tags = true -> cells n (map the_op gs) x = Some x.
Proof.
  intro E. apply apart_all. apply Forall_forall. intros g Hg. apply other_apart. rewrite forallb_forall in E. apply E. apply (proj1 (Forall_forall _ _) Honly g Hg).
Qed.
End Field.
End Shapes.
