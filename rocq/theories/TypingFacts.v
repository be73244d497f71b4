(** Lemmas for C36. *)
From Verif Require Import Py PyFacts Data Typing TypingSpec.

Definition item (h : hint) : hint := match h with HList a => a | _ => h end.
Definition simple_hint (h : hint) : Prop := scalar (item h).
Fixpoint scalarb (h : hint) : bool :=
  match h with HOr a b | HPair a b => scalarb a && scalarb b | HList _ => false | _ => true end.
Lemma scalarb_ok h : scalarb h = true -> scalar h.
Proof. induction h; cbn; auto; try (intro H; apply andb_prop in H; tauto). discriminate. Qed.

Lemma accepts_scalar r h v : scalar h -> accepts r h v = true <-> Typed h v.
Proof.
  revert v. induction h as [| | | | | |name|a IHa b IHb|a IHa b IHb|a IHa]; intros v S; cbn [accepts Typed].
  - destruct v; split; intro H; try discriminate; auto.
  - destruct v; split; intro H; try discriminate; try (destruct H; discriminate); eauto.
  - destruct v; split; intro H; try discriminate; try (destruct H; discriminate); eauto.
  - destruct v; split; intro H; try discriminate; try (destruct H as [[? H]|[? H]]; discriminate); eauto.
  - destruct v; split; intro H; try discriminate; try (destruct H; discriminate); eauto.
  - destruct v; split; intro H; try discriminate; try (destruct H; discriminate); eauto.
  - destruct v; split; intro H; try discriminate; try (destruct H; discriminate).
    + apply str_eqb_eq in H. subst. eauto.
    + destruct H as (f & H). injection H as -> ->. apply str_eqb_refl.
  - destruct S as [Sa Sb]. rewrite orb_true_iff, IHa, IHb by assumption. reflexivity.
  - destruct S as [Sa Sb]. split.
    + intro H. destruct v as [| | | | | | | |l| |]; try discriminate. destruct l as [|x [|y [|]]]; try discriminate. apply andb_prop in H as [H1 H2]. apply IHa in H1; [|exact Sa]. apply IHb in H2; [|exact Sb]. eauto 6.
    + intros (x & y & -> & H1 & H2). apply IHa with (v := x) in H1; [|exact Sa]. apply IHb with (v := y) in H2; [|exact Sb]. rewrite H1, H2. reflexivity.
  - destruct S.
Qed.
Lemma typed_accepts h v : Typed h v -> forall r, accepts r h v = true.
Proof.
  revert v. induction h as [| | | | | |name|a IHa b IHb|a IHa b IHb|a IHa]; intros v T r.
  1-7: apply accepts_scalar; cbn; auto.
  - cbn in *. destruct T as [T|T]; [rewrite (IHa v T r)|rewrite (IHb v T r)]; [reflexivity|apply orb_true_r].
  - destruct T as (x & y & -> & T1 & T2). cbn [accepts]. rewrite (IHa x T1 r), (IHb y T2 r). reflexivity.
  - destruct T as (l & -> & F). cbn [accepts]. destruct l as [|x l]; [reflexivity|]. apply IHa. rewrite Forall_forall in F. apply F, nth_In.
    apply Nat.mod_upper_bound. discriminate.
Qed.
Lemma accepts_all h v : simple_hint h -> (forall r, accepts r h v = true) <-> Typed h v.
Proof.
  intro S. split; [|apply typed_accepts]. unfold simple_hint in S. destruct h as [| | | | | |name|a b|a b|a]; cbn [item] in S.
  1-9: intro H; specialize (H 0%nat); apply accepts_scalar in H; assumption.
  intro H. assert (H0 := H 0%nat). cbn [accepts] in H0. destruct v as [| | | | | | |l| | |]; try discriminate. exists l. split; [reflexivity|]. clear H0.
  rewrite Forall_forall. intros x I. apply In_nth with (d := VNone) in I as (k & L & E). specialize (H k). cbn [accepts] in H. destruct l as [|y l]; [inversion L|].
  apply accepts_scalar in H; [|exact S]. rewrite Nat.mod_small in H by exact L. rewrite (nth_indep _ y VNone) in H by exact L. rewrite E in H. exact H.
Qed.
Lemma list_rejected r a v : scalar a -> (forall l, v = VList l -> l <> [] /\ Forall (fun x => ~ Typed a x) l) -> accepts r (HList a) v = false.
Proof.
  intros S H. cbn [accepts]. destruct v as [| | | | | | |l| | |]; try reflexivity. destruct (H l eq_refl) as [N F]. destruct l as [|x l]; [contradiction|].
  destruct (accepts r a _) eqn:E; [|reflexivity]. apply accepts_scalar in E; [|exact S]. rewrite Forall_forall in F. exfalso. eapply F; [|exact E]. apply nth_In, Nat.mod_upper_bound. discriminate.
Qed.
Lemma list_missed a l x r : nth_error l r = Some x -> Typed a x -> accepts r (HList a) (VList l) = true.
Proof.
  intros N T. assert (L : (r < List.length l)%nat) by (apply nth_error_Some; congruence). cbn [accepts]. destruct l as [|y l]; [inversion L|]. rewrite Nat.mod_small by exact L.
  apply typed_accepts. apply nth_error_nth with (d := y) in N. rewrite N. exact T.
Qed.

(** ** The classes *)
Definition wf_class (c : class) : Prop :=
  map fst (cl_fields c) = map pa_name (cl_params c) /\ NoDup (map fst (cl_fields c)) /\ Forall (fun fh => simple_hint (snd fh)) (cl_fields c).
Fixpoint nodupb (l : list pystr) : bool := match l with [] => true | x :: l' => negb (str_in x l') && nodupb l' end.
Lemma nodupb_ok l : nodupb l = true -> NoDup l.
Proof.
  induction l as [|x l IH]; cbn; [constructor|]. intro H. apply andb_prop in H as [H1 H2]. constructor; [|auto]. intro I. apply str_in_In in I. rewrite I in H1. discriminate.
Qed.
Lemma model_wf c : In c model_classes -> wf_class c.
Proof.
  intro I. assert (B : forallb (fun c => eqb_of (list_eq_dec (list_eq_dec N.eq_dec)) (map fst (cl_fields c)) (map pa_name (cl_params c)) && nodupb (map fst (cl_fields c)) && forallb (fun fh => scalarb (item (snd fh))) (cl_fields c)) model_classes = true) by (vm_compute; reflexivity).
  rewrite forallb_forall in B. specialize (B c I). apply andb_prop in B as [B B3]. apply andb_prop in B as [B1 B2]. split; [|split].
  - unfold eqb_of in B1. destruct (list_eq_dec _ _ _) as [E|] in B1; [exact E|discriminate].
  - apply nodupb_ok. exact B2.
  - rewrite Forall_forall. rewrite forallb_forall in B3. intros x Hx. apply scalarb_ok. auto.
Qed.
Lemma unknown_none c kwargs : (forall k, In k (map fst kwargs) -> In k (map pa_name (cl_params c))) ->
  filter (fun kv : pystr * pyval => negb (str_in (fst kv) (map pa_name (cl_params c)))) kwargs = [].
Proof.
  generalize (map pa_name (cl_params c)). intros names H. induction kwargs as [|[k v] kwargs IH]; [reflexivity|]. cbn [filter fst].
  rewrite (proj2 (str_in_In k names)) by (apply H; left; reflexivity). cbn [negb]. apply IH. intros k' I. apply H. right. exact I.
Qed.
Lemma bind_ok_all kwargs : forall ps, (forall p, In p ps -> pa_default p = None -> In (pa_name p) (map fst kwargs)) ->
  bind_params ps kwargs = Ok (map (fun p => (pa_name p, value_of p kwargs)) ps).
Proof.
  induction ps as [|p ps IH]; intro H; [reflexivity|]. cbn [bind_params map]. rewrite IH by (intros q I; apply H; right; exact I).
  unfold value_of, argument. destruct (assoc (pa_name p) kwargs) as [v|] eqn:E.
  - cbn [bind]. destruct v; reflexivity.
  - destruct (pa_default p) as [v|] eqn:D.
    + cbn [bind]. destruct v; reflexivity.
    + exfalso. specialize (H p (or_introl eq_refl) D). apply in_map_iff in H as ([k v] & K & I). cbn in K. subst k.
      revert E I. clear. induction kwargs as [|[k' v'] l IH]; cbn [assoc]; intros E I; [inversion I|]. destruct (str_eqb (pa_name p) k') eqn:S; [discriminate|].
      destruct I as [I|I]; [|apply IH; assumption]. injection I as -> ->. rewrite str_eqb_refl in S. discriminate.
Qed.
Lemma bind_missing kwargs : forall ps r, bind_params ps kwargs = Ok r -> forall p, In p ps -> pa_default p = None -> In (pa_name p) (map fst kwargs).
Proof.
  induction ps as [|q ps IH]; intros r E p I D; [inversion I|]. cbn [bind_params] in E.
  assert (K : assoc (pa_name q) kwargs <> None -> In (pa_name q) (map fst kwargs)).
  { clear. induction kwargs as [|[k v] l IH]; cbn [assoc]; [contradiction|]. destruct (str_eqb (pa_name q) k) eqn:S; [intros _; left; symmetry; apply str_eqb_eq, S|].
    intro H. right. apply IH, H. }
  destruct (assoc (pa_name q) kwargs) as [v|] eqn:Eq.
  - cbn [bind] in E. destruct I as [<-|I]; [apply K; discriminate|]. destruct (bind_params ps kwargs) as [r'|e] eqn:Er; [eapply IH; eauto|discriminate E].
  - destruct (pa_default q) as [v|] eqn:Dq; [|discriminate E]. cbn [bind] in E. destruct I as [<-|I]; [congruence|].
    destruct (bind_params ps kwargs) as [r'|e] eqn:Er; [eapply IH; eauto|discriminate E].
Qed.
Lemma bind_params_error kwargs : forall ps e, bind_params ps kwargs = Raise e -> exists m, e = EType m.
Proof.
  induction ps as [|q ps IH]; intros e E; [discriminate|]. cbn [bind_params] in E.
  destruct (assoc (pa_name q) kwargs) as [v|]; [|destruct (pa_default q) as [v|]; [|cbn [bind] in E; injection E as <-; eexists; reflexivity]];
    cbn [bind] in E; (destruct (bind_params ps kwargs) as [r'|e'] eqn:Er; [discriminate E|injection E as <-; eapply IH; eauto]).
Qed.
Lemma ill_called rs c kwargs : ~ WellCalled c kwargs -> exists m, new rs c kwargs = Raise (EType m).
Proof.
  intro H. unfold new. destruct (filter _ kwargs) as [|kv l] eqn:Ef; [|eexists; reflexivity].
  destruct (bind_params (cl_params c) kwargs) as [r|e] eqn:Eb.
  - exfalso. apply H. split; [|apply (bind_missing kwargs (cl_params c) r Eb)]. intros k I. apply in_map_iff in I as ([k' v] & K & I). cbn in K. subst k'.
    destruct (str_in k (map pa_name (cl_params c))) eqn:Ei; [apply str_in_In, Ei|].
    assert (J : In (k, v) (filter (fun kv => negb (str_in (fst kv) (map pa_name (cl_params c)))) kwargs)) by (apply filter_In; split; [exact I|cbn [fst]; rewrite Ei; reflexivity]).
    rewrite Ef in J. inversion J.
  - destruct (bind_params_error _ _ _ Eb) as [m ->]. exists m. reflexivity.
Qed.
Lemma dict_set_new {A} k (v : A) l : ~ In k (map fst l) -> dict_set k v l = l ++ [(k, v)].
Proof.
  induction l as [|[k' v'] l IH]; cbn [dict_set map In app]; intro N; [reflexivity|]. destruct (str_eqb k k') eqn:E; [apply str_eqb_eq in E; subst; exfalso; apply N; left; reflexivity|].
  rewrite IH by tauto. reflexivity.
Qed.
Lemma assoc_map_names kwargs (ps : list param) p : NoDup (map pa_name ps) -> In p ps -> assoc (pa_name p) (map (fun p => (pa_name p, value_of p kwargs)) ps) = Some (value_of p kwargs).
Proof.
  induction ps as [|q ps IH]; intros N I; [inversion I|]. cbn [map assoc fst]. destruct I as [->|I]; [rewrite str_eqb_refl; reflexivity|].
  cbn [map] in N. apply NoDup_cons_iff in N as [N1 N2]. destruct (str_eqb (pa_name p) (pa_name q)) eqn:E; [|auto]. apply str_eqb_eq in E. exfalso. apply N1. rewrite <- E. apply in_map. exact I.
Qed.
Lemma assoc_in_nodup {A} k (v : A) l : NoDup (map fst l) -> In (k, v) l -> assoc k l = Some v.
Proof.
  induction l as [|[k' v'] l IH]; intros N I; [inversion I|]. cbn [assoc]. cbn [map fst] in N. apply NoDup_cons_iff in N as [N1 N2]. destruct I as [I|I].
  - injection I as -> ->. rewrite str_eqb_refl. reflexivity.
  - destruct (str_eqb k k') eqn:E; [|auto]. apply str_eqb_eq in E. subst. exfalso. apply N1. apply in_map_iff. exists (k', v). auto.
Qed.
(** the loop *)
Definition rejected_from (rs : nat -> nat) (k0 : nat) (fs : list (pystr * hint)) (ps : list param) kwargs : list pystr :=
  flat_map (fun x => match x with (k, ((f, h), p)) => if accepts (rs k) h (value_of p kwargs) then [] else [f] end)
           (combine (seq k0 (List.length fs)) (combine fs ps)).
Lemma loop_spec c kwargs locals : forall fs ps rs k0 i errors,
  map fst fs = map pa_name ps -> (forall p, In p ps -> assoc (pa_name p) locals = Some (value_of p kwargs)) ->
  (forall f h, In (f, h) fs -> assoc f (cl_fields c) = Some h) -> NoDup (map fst fs) -> (forall f, In f (map fst fs) -> ~ In f (map fst i)) ->
  set_values (fun k => rs (k0 + k)%nat) c fs locals i errors =
  match errors ++ map (setter_message (cl_name c)) (rejected_from rs k0 fs ps kwargs) with
  | [] => Ok (i ++ map (fun p => (pa_name p, value_of p kwargs)) ps)
  | ms => Raise (EConstructor ms)
  end.
Proof.
  induction fs as [|[f h] fs IH]; intros ps rs k0 i errors EN L A N D; destruct ps as [|p ps]; try discriminate EN.
  - cbn. rewrite !app_nil_r. destruct errors; reflexivity.
  - cbn [map fst] in EN, N, D. injection EN as E EN. apply NoDup_cons_iff in N as [N1 N2]. cbn [set_values]. rewrite E, (L p (or_introl eq_refl)). unfold set_field.
    rewrite <- E at 1. rewrite (A f h (or_introl eq_refl)). rewrite Nat.add_0_r.
    assert (X : forall i' e', (forall f0, In f0 (map fst fs) -> ~ In f0 (map fst i')) -> set_values (fun k => rs (k0 + S k)%nat) c fs locals i' e' =
      match e' ++ map (setter_message (cl_name c)) (rejected_from rs (S k0) fs ps kwargs) with [] => Ok (i' ++ map (fun p => (pa_name p, value_of p kwargs)) ps) | ms => Raise (EConstructor ms) end).
    { intros i' e' D'. rewrite <- (IH ps rs (S k0) i' e' EN); auto.
      - assert (F : forall fs (g g' : nat -> nat) i e, (forall k, g k = g' k) -> set_values g c fs locals i e = set_values g' c fs locals i e).
        { clear. induction fs as [|[f h] fs IHf]; intros g g' i e H; [reflexivity|]. cbn [set_values]. rewrite (H 0%nat). destruct (set_field _ _ _ _ _) as [x|[]]; auto. }
        apply F. intro k. f_equal. lia.
      - intros q I. apply L. right. exact I.
      - intros f0 h0 I. apply A. right. exact I. }
    unfold rejected_from. cbn [List.length seq combine flat_map]. fold (rejected_from rs (S k0) fs ps kwargs). destruct (accepts (rs k0) h (value_of p kwargs)) eqn:AC.
    + rewrite X.
      * cbn [app map]. rewrite dict_set_new by (rewrite <- E; apply D; left; reflexivity). rewrite <- app_assoc. reflexivity.
      * intros f0 I. rewrite dict_set_new by (rewrite <- E; apply D; left; reflexivity). rewrite map_app, in_app_iff. intros [H|[H|[]]]; [apply (D f0 (or_intror I) H)|].
        cbn in H. subst f0. apply N1. rewrite E. exact I.
    + rewrite X by (intros f0 I; apply D; right; exact I). cbn [app map]. rewrite <- E, <- app_assoc. cbn [app]. destruct errors; reflexivity.
Qed.
Theorem outcome rs c kwargs : In c model_classes -> WellCalled c kwargs ->
  new rs c kwargs =
  match rejected rs c kwargs with
  | [] => Ok (VObj (cl_name c) (map (fun p => (pa_name p, value_of p kwargs)) (cl_params c)))
  | l => Raise (EConstructor (map (setter_message (cl_name c)) l))
  end.
Proof.
  intros I [W1 W2]. destruct (model_wf c I) as (EN & N & _). unfold new. rewrite (unknown_none c kwargs W1), (bind_ok_all kwargs _ W2). cbn [bind].
  rewrite (loop_spec c kwargs _ (cl_fields c) (cl_params c) rs 0 [] []); auto.
  - cbn [app]. unfold rejected, rejected_from. destruct (flat_map _ _); reflexivity.
  - intros p Ip. apply assoc_map_names; [rewrite <- EN; exact N|exact Ip].
  - intros f h If. apply assoc_in_nodup; assumption.
Qed.
Lemma combine_nth {A B} : forall (l : list A) (m : list B) x k0, In x (combine l m) -> List.length l = List.length m -> exists k, In (k, x) (combine (seq k0 (List.length l)) (combine l m)).
Proof.
  induction l as [|a l IH]; intros m x k0 I E; destruct m as [|b m]; try discriminate E; [inversion I|]. cbn [combine List.length seq] in *. destruct I as [<-|I].
  - exists k0. left. reflexivity.
  - destruct (IH m x (S k0) I) as (k & K); [injection E as E; exact E|]. exists k. right. exact K.
Qed.
Lemma in_rejected rs c kwargs f : In f (rejected rs c kwargs) <-> exists k h p, In (k, ((f, h), p)) (combine (seq 0 (List.length (cl_fields c))) (combine (cl_fields c) (cl_params c))) /\ accepts (rs k) h (value_of p kwargs) = false.
Proof.
  unfold rejected. rewrite in_flat_map. split.
  - intros ((k & ((f' & h) & p)) & I & H). destruct (accepts _ _ _) eqn:A; [inversion H|]. destruct H as [<-|[]]. eauto 6.
  - intros (k & h & p & I & A). exists (k, ((f, h), p)). split; [exact I|]. rewrite A. left. reflexivity.
Qed.
Lemma class_lengths c : In c model_classes -> List.length (cl_fields c) = List.length (cl_params c).
Proof. intro I. destruct (model_wf c I) as (E & _). apply (f_equal (@List.length _)) in E. rewrite !map_length in E. exact E. Qed.
Lemma hint_of c f h p : In c model_classes -> In ((f, h), p) (combine (cl_fields c) (cl_params c)) -> simple_hint h.
Proof. intros I J. destruct (model_wf c I) as (_ & _ & F). rewrite Forall_forall in F. apply (F (f, h)). eapply in_combine_l. exact J. Qed.
Theorem only_ill_typed rs c kwargs f : In f (rejected rs c kwargs) -> IllTyped c kwargs f.
Proof.
  intro H. apply in_rejected in H as (k & h & p & I & A). exists h, p. split; [eapply in_combine_r; exact I|]. intro T. rewrite (typed_accepts _ _ T) in A. discriminate.
Qed.
Theorem scalar_reported rs c kwargs f h p : In c model_classes -> In ((f, h), p) (combine (cl_fields c) (cl_params c)) -> scalar h -> ~ Typed h (value_of p kwargs) -> In f (rejected rs c kwargs).
Proof.
  intros I J S T. apply in_rejected. destruct (combine_nth _ _ _ 0 J (class_lengths c I)) as (k & K). exists k, h, p. split; [exact K|].
  destruct (accepts (rs k) h (value_of p kwargs)) eqn:A; [|reflexivity]. apply accepts_scalar in A; [contradiction|exact S].
Qed.
Theorem list_reported rs c kwargs f a p : In c model_classes -> In ((f, HList a), p) (combine (cl_fields c) (cl_params c)) ->
  (forall l, value_of p kwargs = VList l -> l <> [] /\ Forall (fun x => ~ Typed a x) l) -> In f (rejected rs c kwargs).
Proof.
  intros I J H. apply in_rejected. destruct (combine_nth _ _ _ 0 J (class_lengths c I)) as (k & K). exists k, (HList a), p. split; [exact K|].
  apply list_rejected; [exact (hint_of c f (HList a) p I J)|exact H].
Qed.
Theorem ill_typed_possible c kwargs f : In c model_classes -> IllTyped c kwargs f -> exists rs, In f (rejected rs c kwargs).
Proof.
  intros I (h & p & J & T). assert (S := hint_of c f h p I J).
  assert (X : exists r, accepts r h (value_of p kwargs) = false).
  { unfold simple_hint in S. destruct h as [| | | | | |name|a b|a b|a]; cbn [item] in S.
    1-9: exists 0%nat; destruct (accepts _ _ _) eqn:A; [exfalso; apply T; apply accepts_scalar in A; assumption|reflexivity].
    destruct (value_of p kwargs) as [| | | | | | |l| | |] eqn:V; try (exists 0%nat; reflexivity).
    destruct (forallb (fun x => accepts 0 a x) l) eqn:B.
    - exfalso. apply T. exists l. split; [reflexivity|]. rewrite Forall_forall. rewrite forallb_forall in B. intros x Ix. eapply accepts_scalar; [exact S|]. apply B. exact Ix.
    - assert (exists k, (k < List.length l)%nat /\ accepts 0 a (nth k l VNone) = false) as (k & L & A).
      { clear -B. induction l as [|x l IH]; [discriminate|]. cbn [forallb] in B. destruct (accepts 0 a x) eqn:A; [|exists 0%nat; cbn; split; [lia|exact A]].
        destruct (IH B) as (k & L & K). exists (S k). cbn. split; [lia|exact K]. }
      exists k. cbn [accepts]. destruct l as [|y l]; [inversion L|]. rewrite Nat.mod_small by exact L. rewrite (nth_indep _ y VNone) by exact L.
      destruct (accepts k a _) eqn:A'; [|reflexivity]. apply accepts_scalar in A'; [|exact S]. apply (accepts_scalar 0) in A'; [|exact S]. congruence. }
  destruct X as (r & A). exists (fun _ => r). apply in_rejected. destruct (combine_nth _ _ _ 0 J (class_lengths c I)) as (k & K). eauto 6.
Qed.
Theorem all_typed rs c kwargs : In c model_classes -> WellCalled c kwargs -> (forall f, ~ IllTyped c kwargs f) ->
  new rs c kwargs = Ok (VObj (cl_name c) (map (fun p => (pa_name p, value_of p kwargs)) (cl_params c))).
Proof.
  intros I W T. rewrite (outcome rs c kwargs I W). destruct (rejected rs c kwargs) as [|f l] eqn:R; [reflexivity|]. exfalso. apply (T f). apply (only_ill_typed rs). rewrite R. left. reflexivity.
Qed.
(** ** Assignments *)
Lemma set_field_ok r c f v i i' : set_field r c f v i = Ok i' <-> exists h, assoc f (cl_fields c) = Some h /\ accepts r h v = true /\ i' = dict_set f v i.
Proof.
  unfold set_field. destruct (assoc f (cl_fields c)) as [h|]; [|split; [discriminate|intros (h & H & _); discriminate]]. destruct (accepts r h v) eqn:A.
  - split; [intro H; injection H as <-; eauto|intros (h' & H & _ & ->); reflexivity].
  - split; [discriminate|]. intros (h' & H & B & _). injection H as <-. congruence.
Qed.
Lemma dict_set_same {A} k (v : A) l : assoc k (dict_set k v l) = Some v.
Proof. induction l as [|[k' v'] l IH]; cbn; [rewrite str_eqb_refl; reflexivity|]. destruct (str_eqb k k') eqn:E; cbn; rewrite E; auto. Qed.
Lemma dict_set_other {A} k k' (v : A) l : k' <> k -> assoc k' (dict_set k v l) = assoc k' l.
Proof.
  intro N. induction l as [|[k0 v0] l IH]; cbn.
  - apply str_eqb_neq in N. rewrite N. reflexivity.
  - destruct (str_eqb k k0) eqn:E; cbn; [|rewrite IH; reflexivity]. apply str_eqb_eq in E. subst. apply str_eqb_neq in N. rewrite N. reflexivity.
Qed.
Theorem setter r c f v i i' : set_field r c f v i = Ok i' -> get_field f i' = Ok v /\ forall f', f' <> f -> get_field f' i' = get_field f' i.
Proof.
  intro H. apply set_field_ok in H as (h & _ & _ & ->). unfold get_field. split; [rewrite dict_set_same; reflexivity|]. intros f' N. rewrite dict_set_other by exact N. reflexivity.
Qed.
Definition kept (c : class) (i : instance) : Prop := forall f h v, assoc f (cl_fields c) = Some h -> assoc f i = Some v -> exists r, accepts r h v = true.
Lemma kept_set r c f v i i' : kept c i -> set_field r c f v i = Ok i' -> kept c i'.
Proof.
  intros K H. apply set_field_ok in H as (h & E & A & ->). intros f' h' v' E' V. destruct (list_eq_dec N.eq_dec f' f) as [->|N].
  - rewrite dict_set_same in V. injection V as <-. rewrite E in E'. injection E' as <-. eauto.
  - rewrite dict_set_other in V by exact N. eapply K; eassumption.
Qed.
Theorem kept_always c ops : forall i, kept c i -> kept c (assignments c ops i).
Proof.
  induction ops as [|[[r f] v] ops IH]; intros i K; [exact K|]. cbn [assignments]. apply IH. destruct (set_field r c f v i) as [i'|e] eqn:E; [|exact K]. eapply kept_set; eassumption.
Qed.
Lemma in_seq_lift {A} : forall (l : list A) k0 (x : A), In x l -> exists k, In (k, x) (combine (seq k0 (List.length l)) l).
Proof. induction l as [|a l IH]; intros k0 x I; [inversion I|]. cbn. destruct I as [->|I]; [eauto|]. destruct (IH (S k0) x I) as (k & K). eauto. Qed.
Lemma kept_new rs c kwargs i : In c model_classes -> WellCalled c kwargs -> new rs c kwargs = Ok (VObj (cl_name c) i) -> kept c i.
Proof.
  intros I W H. rewrite (outcome rs c kwargs I W) in H. destruct (rejected rs c kwargs) as [|x l] eqn:R; [|discriminate]. injection H as <-.
  intros f h v E V. destruct (model_wf c I) as (EN & N & _).
  assert (J : exists p, In ((f, h), p) (combine (cl_fields c) (cl_params c)) /\ pa_name p = f).
  { revert E EN. generalize (cl_params c) (cl_fields c). clear. intros ps fs. revert ps. induction fs as [|[f0 h0] fs IH]; intros ps E EN; [discriminate|]. destruct ps as [|p ps]; [discriminate|].
    cbn [assoc] in E. cbn [map fst] in EN. injection EN as E0 EN. cbn [combine]. destruct (str_eqb f f0) eqn:S.
    - apply str_eqb_eq in S. subst f0. injection E as ->. exists p. split; [left; reflexivity|auto].
    - destruct (IH ps E EN) as (q & Q & Z). exists q. split; [right; exact Q|exact Z]. }
  destruct J as (p & J & <-). rewrite assoc_map_names in V; [|rewrite <- EN; exact N|eapply in_combine_r; exact J]. injection V as <-.
  destruct (combine_nth _ _ _ 0 J (class_lengths c I)) as (k & K). exists (rs k). destruct (accepts (rs k) h (value_of p kwargs)) eqn:A; [reflexivity|]. exfalso.
  assert (In (pa_name p) (rejected rs c kwargs)) by (apply in_rejected; eauto 6). rewrite R in H. inversion H.
Qed.
Theorem always_typed rs c kwargs i ops f h v : In c model_classes -> WellCalled c kwargs -> new rs c kwargs = Ok (VObj (cl_name c) i) ->
  assoc f (cl_fields c) = Some h -> scalar h -> get_field f (assignments c ops i) = Ok v -> Typed h v.
Proof.
  intros I W H E S G. assert (K := kept_always c ops i (kept_new rs c kwargs i I W H)). unfold get_field in G. destruct (assoc f (assignments c ops i)) as [v'|] eqn:A; [|discriminate].
  injection G as ->. destruct (K f h v E A) as (r & R). apply accepts_scalar in R; assumption.
Qed.
