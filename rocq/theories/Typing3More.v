(** The table of classes, and the signatures of their constructors. *)
From Verif Require Import Py PyFacts Data Typing Typing3 Typing3Spec Typing3Facts.
From Verif Require TypingFacts.
Import TypingFacts.

Lemma names3 : NoDup (map d_name classes3).
Proof. apply nodupb_ok. vm_compute. reflexivity. Qed.
Lemma wf_classes3 d : In d classes3 -> wf3 classes3 d = true.
Proof.
  intro I. assert (B : forallb (wf3 classes3) classes3 = true) by (vm_compute; reflexivity). rewrite forallb_forall in B. exact (B d I).
Qed.

(** *** Signatures *)
Fixpoint heqb (a b : hint3) : bool :=
  match a, b with
  | TNone, TNone | TStr, TStr | TBool, TBool | TInt, TInt | TDatetime, TDatetime => true
  | TIs n, TIs m => str_eqb n m
  | TOr a1 a2, TOr b1 b2 | TDict a1 a2, TDict b1 b2 => heqb a1 b1 && heqb a2 b2
  | TList a1, TList b1 => heqb a1 b1
  | _, _ => false
  end.
Lemma heqb_eq a : forall b, heqb a b = true -> a = b.
Proof.
  induction a; intros [] H; cbn in H; try discriminate; try reflexivity; try (apply andb_prop in H as [H1 H2]); f_equal; auto. apply str_eqb_eq, H.
Qed.
Fixpoint sub (a b : hint3) : bool := heqb a b || match b with TOr b1 b2 => sub a b1 || sub a b2 | _ => false end.
Lemma sub_typed T a b v : sub a b = true -> Typed3 T a v -> Typed3 T b v.
Proof.
  induction b; cbn [sub]; intros H H'; apply orb_true_iff in H as [H|H]; try discriminate H; try (apply heqb_eq in H; subst; exact H'). apply orb_true_iff in H as [H|H]; cbn [Typed3]; auto.
Qed.
Definition empty_of (w : pyval) (h : hint3) : bool :=
  match w, h with VList [], TList _ => true | VDict [], TDict _ _ => true | _, _ => false end.
Definition compat (p : param3) (h : hint3) : bool :=
  match p_none p with
  | Some w => empty_of w h && match p_hint p with TOr a TNone => sub a h | a => sub a h end
              && match p_default p with None | Some VNone => true | _ => false end
  | None => sub (p_hint p) h && match p_default p with None => true | Some VNone => sub TNone h | Some (VStr _) => sub TStr h | _ => false end
  end.
Definition fits (d : decl) (ps : list param3) : bool :=
  forallb (fun fh => match find (fun p => str_eqb (p_name p) (fst fh)) ps with Some p => compat p (snd fh) | None => false end) (fields_of classes3 (depth classes3) d).
Lemma empty_typed T w h : empty_of w h = true -> Typed3 T h w.
Proof. destruct w as [| | | | | | |[|]| |[|]|]; try discriminate; destruct h; try discriminate; intros _; cbn; exists []; split; auto. Qed.
Lemma compat_typed T p h kwargs : compat p h = true -> (forall v, assoc (p_name p) kwargs = Some v -> Typed3 T (p_hint p) v) ->
  (p_default p = None -> In (p_name p) (map fst kwargs)) -> Typed3 T h (passed p kwargs).
Proof.
  unfold compat, passed. intros C F R. destruct (assoc (p_name p) kwargs) as [v|] eqn:A.
  - specialize (F v eq_refl). destruct (p_none p) as [w|].
    + apply andb_prop in C as [C _]. apply andb_prop in C as [C1 C2].
      assert (Z : v = VNone \/ Typed3 T h v).
      { destruct (p_hint p) as [| | | | | |a b| |] eqn:H; try (right; exact (sub_typed T _ _ _ C2 F)). destruct b; try (right; exact (sub_typed T _ _ _ C2 F)).
        cbn in F. destruct F as [F|F]; [right; exact (sub_typed T _ _ _ C2 F)|left; exact F]. }
      destruct Z as [->|Z]; [apply empty_typed, C1|]. destruct v; try exact Z. apply empty_typed, C1.
    + apply andb_prop in C as [C _]. destruct v; exact (sub_typed T _ _ _ C F).
  - destruct (p_default p) as [v|] eqn:D.
    + destruct (p_none p) as [w|].
      * apply andb_prop in C as [C C3]. apply andb_prop in C as [C1 _]. destruct v; try discriminate. apply empty_typed, C1.
      * apply andb_prop in C as [_ C]. destruct v; try discriminate; apply (sub_typed T _ _ _ C); cbn; eauto.
    + exfalso. specialize (R eq_refl). apply in_map_iff in R as ([k v] & K & R). cbn in K. subst k. clear -A R.
      induction kwargs as [|[k' v'] l IH]; [destruct R|]. cbn [assoc] in A. destruct (str_eqb (p_name p) k') eqn:S; [discriminate|]. destruct R as [R|R]; [|auto]. injection R as -> ->. rewrite str_eqb_refl in S. discriminate.
Qed.
Definition assessment (d : decl) : bool := existsb (fun e => str_eqb (d_name e) (d_name d)) assessments.
Lemma assessment_in d : In d classes3 -> assessment d = true -> In d assessments.
Proof.
  intros I H. apply existsb_exists in H as (e & E & N). apply str_eqb_eq in N. assert (Ie : In e classes3).
  { clear -E. unfold assessments in E. cbn [In] in E. unfold classes3. cbn [In]. decompose [or] E; subst; tauto. }
  pose proof (decl_in classes3 names3 d I) as A. pose proof (decl_in classes3 names3 e Ie) as B. rewrite N in B. congruence.
Qed.
Theorem signature3 rs d ps kwargs : In d classes3 -> ~ In d assessments -> d_init d = Some ps -> WellCalled3 ps kwargs -> FitsSignature classes3 ps kwargs ->
  exists i, new3 classes3 rs (d_name d) kwargs = Ok (VObj (d_name d) i) /\ Holds classes3 d ps kwargs i.
Proof.
  intros I NA HP W F. apply (created3 classes3 names3 wf_classes3 d ps kwargs I HP rs W). intros f h (Fd & v & (p & Ip & <- & ->) & N). apply N.
  assert (B : forallb (fun d => assessment d || match d_init d with Some ps => fits d ps | None => true end) classes3 = true) by (vm_compute; reflexivity).
  rewrite forallb_forall in B. specialize (B d I). apply orb_true_iff in B as [B|B]; [exfalso; apply NA, assessment_in; assumption|]. rewrite HP in B.
  unfold fits in B. rewrite forallb_forall in B. apply (field_in classes3 names3 wf_classes3 d I) in Fd. specialize (B _ Fd). cbn [fst snd] in B.
  destruct (find (fun q => str_eqb (p_name q) (p_name p)) ps) as [q|] eqn:Q; [|discriminate]. apply find_some in Q as [Iq Q]. apply str_eqb_eq in Q.
  assert (q = p) as ->.
  { destruct (init_wf classes3 wf_classes3 d ps I HP) as (ND & _). clear -ND Iq Ip Q. induction ps as [|x l IH]; [destruct Ip|]. cbn [map] in ND. apply NoDup_cons_iff in ND as [N1 N2].
    destruct Iq as [->|Iq], Ip as [->|Ip]; auto; exfalso; apply N1; [rewrite Q|rewrite <- Q]; apply in_map; assumption. }
  destruct W as [_ W]. apply (compat_typed classes3 p h kwargs B); [intros v A; exact (F p v Ip A)|intro D; exact (W p Ip D)].
Qed.
Lemma derives_only c x : (forall d, In d classes3 -> d_base d <> Some x) -> Derives classes3 c x -> c = x.
Proof.
  intros N H. induction H as [c|d b c I B H IH]; [reflexivity|]. specialize (IH N). subst. exfalso. exact (N d I B).
Qed.
Lemma derives_unknown c x : (forall d, In d classes3 -> d_name d <> c) -> Derives classes3 c x -> c = x.
Proof. intros N H. inversion H as [y|d b y I B K]; [reflexivity|]. exfalso. eapply N; eassumption. Qed.
Definition old : pystr := $"spdx2.RelationshipType".
Definition has_base (d : decl) : bool := match d_base d with Some b => str_eqb b old | None => false end.
Lemma no_base d : In d classes3 -> d_base d <> Some old.
Proof.
  intros I H. assert (B : forallb (fun d => negb (has_base d)) classes3 = true) by (vm_compute; reflexivity). rewrite forallb_forall in B. specialize (B d I).
  unfold has_base in B. rewrite H, str_eqb_refl in B. discriminate.
Qed.
Lemma no_name d : In d classes3 -> d_name d <> old.
Proof.
  intros I H. assert (B : forallb (fun d => negb (str_eqb (d_name d) old)) classes3 = true) by (vm_compute; reflexivity). rewrite forallb_forall in B. specialize (B d I).
  rewrite H, str_eqb_refl in B. discriminate.
Qed.
Definition takes_old (d : decl) : bool :=
  match d_init d with
  | Some ps => existsb (fun p => str_eqb (p_name p) $"relationship_type" && heqb (p_hint p) (TIs old)
                                 && match p_default p, p_none p with None, None => true | _, _ => false end) ps
  | None => false
  end && match assoc $"relationship_type" (fields_of classes3 (depth classes3) d) with Some h => heqb h (TIs $"RelationshipType") | None => false end.
Theorem assessments_fail rs d ps kwargs : In d assessments -> d_init d = Some ps -> WellCalled3 ps kwargs -> FitsSignature classes3 ps kwargs ->
  exists l, new3 classes3 rs (d_name d) kwargs = Raise (EConstructor (map (setter_message (d_name d)) l)) /\ In $"relationship_type" l.
Proof.
  intros Ia HP W F. assert (I : In d classes3) by (clear -Ia; unfold assessments in Ia; cbn [In] in Ia; unfold classes3; cbn [In]; decompose [or] Ia; subst; tauto).
  assert (B : forallb takes_old assessments = true) by (vm_compute; reflexivity). rewrite forallb_forall in B. specialize (B d Ia). unfold takes_old in B. rewrite HP in B.
  apply andb_prop in B as [B1 B2]. apply existsb_exists in B1 as (p & Ip & B1). apply andb_prop in B1 as [B1 B3]. apply andb_prop in B1 as [B1 B4].
  apply str_eqb_eq in B1. apply heqb_eq in B4. destruct (assoc _ _) as [h|] eqn:A in B2; [|discriminate]. apply heqb_eq in B2. subst h.
  apply (field_iff classes3 names3 wf_classes3 d) in A; [|exact I].
  assert (Q : IllTyped3 classes3 d ps kwargs $"relationship_type" (TIs $"RelationshipType")).
  { split; [exact A|]. exists (passed p kwargs). split; [exists p; auto|]. destruct (p_default p) eqn:D; [discriminate|]. destruct (p_none p) eqn:N; [discriminate|].
    destruct W as [_ W]. specialize (W p Ip D). apply in_map_iff in W as ([k v] & K & W). cbn in K. subst k.
    assert (As : exists v, assoc (p_name p) kwargs = Some v).
    { clear -W. induction kwargs as [|[k' v'] l IH]; [destruct W|]. cbn [assoc]. destruct (str_eqb (p_name p) k') eqn:S; [eauto|]. destruct W as [W|W]; [|auto]. injection W as -> ->. rewrite str_eqb_refl in S. discriminate. }
    destruct As as (v0 & As). pose proof (F p v0 Ip As) as Ft. rewrite B4 in Ft. cbn [Typed3] in Ft. destruct Ft as (c & fl & -> & Dr). apply derives_only in Dr; [|exact no_base].
    assert (E : passed p kwargs = VObj c fl) by (unfold passed; rewrite As; reflexivity). rewrite E. cbn [Typed3]. intros (c' & fl' & E' & Dr'). assert (c' = c) as -> by congruence.
    assert (Z : c = $"RelationshipType").
    { apply derives_unknown in Dr'; [exact Dr'|]. intros d0 I0 E0. apply (no_name d0 I0). congruence. }
    rewrite Dr in Z. discriminate Z. }
  destruct (outcome3 classes3 names3 wf_classes3 d ps kwargs I HP rs W) as [(i & _ & _ & K)|(l & E & _ & _ & _ & K)].
  - exfalso. exact (K _ (TIs $"RelationshipType") Logic.I Q).
  - exists l. split; [exact E|]. exact (K _ (TIs $"RelationshipType") Logic.I Q).
Qed.
