(** Facts about document utilities: deduplication, lookups, filters, hashing. *)
From Verif Require Import Py PyFacts Data DocUtils DocUtilsSpec.
From Coq Require Import Sorting.Permutation.
From Coq Require Sorting.Sorted.

(** ** create_list_without_duplicates *)
Section DedupList.
  Context {A : Type}.
  Variable eqb : A -> A -> bool.

  Definition dstep (acc : list A) (x : A) : list A := if existsb (eqb x) acc then acc else acc ++ [x].

  Lemma dedup_fold_prefix l acc : exists t, fold_left dstep l acc = acc ++ t.
  Proof.
    revert acc; induction l as [|x l IH]; intro acc; cbn [fold_left].
    - exists []. rewrite app_nil_r. reflexivity.
    - destruct (IH (dstep acc x)) as (t & ->). unfold dstep. destruct (existsb (eqb x) acc).
      + eauto.
      + exists (x :: t). rewrite <- app_assoc. reflexivity.
  Qed.
  Lemma dedup_fold_incl l acc x : In x (fold_left dstep l acc) -> In x acc \/ In x l.
  Proof.
    revert acc; induction l as [|y l IH]; intros acc H; cbn [fold_left] in H; auto.
    apply IH in H as [H|H]; [|right; right; auto]. unfold dstep in H. destruct (existsb (eqb y) acc); auto.
    apply in_app_or in H as [H|[->|[]]]; auto. right; left; auto.
  Qed.
  Lemma dedup_incl l x : In x (create_list_without_duplicates eqb l) -> In x l.
  Proof. intro H. apply dedup_fold_incl in H as [[]|H]; auto. Qed.
  Lemma dedup_nonempty l : l <> [] -> create_list_without_duplicates eqb l <> [].
  Proof.
    destruct l as [|x l]; [contradiction|]. intros _. unfold create_list_without_duplicates. cbn [fold_left existsb].
    destruct (dedup_fold_prefix l ([] ++ [x])) as (t & Ht). change (fold_left _ l _) with (fold_left dstep l ([] ++ [x])).
    rewrite Ht. discriminate.
  Qed.
  (** Every element is kept up to ==. *)
  Lemma dedup_fold_complete l acc x :
    (forall y, eqb y y = true) -> In x l -> exists y, In y (fold_left dstep l acc) /\ eqb x y = true.
  Proof.
    intro Hrefl. revert acc; induction l as [|z l IH]; intros acc H; [contradiction|]. cbn [fold_left].
    destruct H as [->|H]; auto. unfold dstep at 2.
    destruct (existsb (eqb x) acc) eqn:E.
    - apply existsb_exists in E as (y & Hy & Hxy). exists y. split; auto.
      destruct (dedup_fold_prefix l acc) as (t & ->). apply in_or_app; auto.
    - exists x. split; auto. destruct (dedup_fold_prefix l (acc ++ [x])) as (t & ->).
      apply in_or_app. left. apply in_or_app. right. left. auto.
  Qed.

  Hypothesis eqb_eq : forall a b, eqb a b = true <-> a = b.

  Lemma existsb_eqb_In x l : existsb (eqb x) l = true <-> In x l.
  Proof.
    rewrite existsb_exists. split.
    - intros (y & Hy & H). apply eqb_eq in H. subst. auto.
    - intro H. exists x. split; auto. apply eqb_eq; auto.
  Qed.
  Lemma existsb_eqb_notIn x l : existsb (eqb x) l = false <-> ~ In x l.
  Proof. rewrite <- existsb_eqb_In. destruct (existsb (eqb x) l); split; intro; auto; try discriminate. contradiction. Qed.

  Lemma dedup_In l x : In x (create_list_without_duplicates eqb l) <-> In x l.
  Proof.
    split; [apply dedup_incl|]. intro H. destruct (dedup_fold_complete l [] x) as (y & Hy & E); auto.
    - intro y. apply eqb_eq; auto.
    - apply eqb_eq in E. subst. exact Hy.
  Qed.
  Lemma dedup_fold_NoDup l acc : NoDup acc -> NoDup (fold_left dstep l acc).
  Proof.
    revert acc; induction l as [|x l IH]; intros acc H; cbn [fold_left]; auto.
    apply IH. unfold dstep. destruct (existsb (eqb x) acc) eqn:E; auto.
    apply existsb_eqb_notIn in E. apply NoDup_rev in H. rewrite <- (rev_involutive (acc ++ [x])). apply NoDup_rev.
    rewrite rev_app_distr. cbn. constructor; auto. rewrite <- in_rev. auto.
  Qed.
  Lemma dedup_NoDup l : NoDup (create_list_without_duplicates eqb l).
  Proof. apply dedup_fold_NoDup. constructor. Qed.
  Lemma dedup_fold_id l acc : NoDup (acc ++ l) -> fold_left dstep l acc = acc ++ l.
  Proof.
    revert acc; induction l as [|x l IH]; intros acc H; cbn [fold_left].
    - rewrite app_nil_r. reflexivity.
    - unfold dstep at 2. destruct (existsb (eqb x) acc) eqn:E.
      + apply existsb_eqb_In in E. exfalso. apply NoDup_remove_2 in H. apply H. apply in_or_app; auto.
      + rewrite IH; rewrite <- app_assoc; auto.
  Qed.
  Lemma dedup_id l : NoDup l -> create_list_without_duplicates eqb l = l.
  Proof. intro H. apply (dedup_fold_id l []). auto. Qed.
  Lemma dedup_idem l : create_list_without_duplicates eqb (create_list_without_duplicates eqb l) = create_list_without_duplicates eqb l.
  Proof. apply dedup_id, dedup_NoDup. Qed.

  (** The result keeps exactly the first occurrences, in order. *)
  Fixpoint first_occurrences_from (seen : list A) (l : list A) : list A :=
    match l with
    | [] => []
    | x :: l' => if existsb (eqb x) seen then first_occurrences_from seen l' else x :: first_occurrences_from (x :: seen) l'
    end.
  Lemma first_occ_seen seen seen' l :
    (forall x, In x seen <-> In x seen') -> first_occurrences_from seen l = first_occurrences_from seen' l.
  Proof.
    revert seen seen'; induction l as [|x l IH]; intros seen seen' H; cbn [first_occurrences_from]; auto.
    assert (E : existsb (eqb x) seen = existsb (eqb x) seen').
    { destruct (existsb (eqb x) seen') eqn:E; [apply existsb_eqb_In, H, existsb_eqb_In; auto|].
      apply existsb_eqb_notIn in E. apply existsb_eqb_notIn. rewrite H. auto. }
    rewrite E. destruct (existsb (eqb x) seen'); auto. f_equal. apply IH. intro y. cbn. rewrite H. reflexivity.
  Qed.
  Lemma dedup_fold_first l acc : fold_left dstep l acc = acc ++ first_occurrences_from acc l.
  Proof.
    revert acc; induction l as [|x l IH]; intro acc; cbn [fold_left first_occurrences_from].
    - rewrite app_nil_r. reflexivity.
    - rewrite IH. unfold dstep. destruct (existsb (eqb x) acc); auto.
      rewrite <- app_assoc. cbn. do 2 f_equal. apply first_occ_seen. intro y. rewrite in_app_iff. cbn. tauto.
  Qed.
End DedupList.

Lemma Subseq_nil {A} (l : list A) : Subseq [] l.
Proof. induction l; constructor; auto. Qed.

Lemma first_occ_Subseq {A} (eqb : A -> A -> bool) seen l : Subseq (first_occurrences_from eqb seen l) l.
Proof.
  revert seen; induction l as [|x l IH]; intro seen; cbn [first_occurrences_from]; [constructor|].
  destruct (existsb (eqb x) seen); [apply Sub_skip|apply Sub_keep]; auto.
Qed.

Lemma str_eqb_eq' : forall a b : pystr, str_eqb a b = true <-> a = b.
Proof. intros; apply str_eqb_eq. Qed.
Lemma eqb_of_eq {A} (dec : forall a b : A, {a = b} + {a <> b}) : forall a b, eqb_of dec a b = true <-> a = b.
Proof. intros a b. unfold eqb_of. destruct (dec a b); split; intro; auto; discriminate. Qed.
Lemma file_type_eqb_eq : forall a b, file_type_eqb a b = true <-> a = b.
Proof. intros a b. unfold file_type_eqb. destruct (file_type_eq_dec a b); split; intro; auto; discriminate. Qed.

(** ** Lookup by id *)
Lemma dict_update_assoc {A} k (kvs : list (pystr * A)) l :
  assoc k (dict_update l kvs) = match assoc k (rev kvs) with Some v => Some v | None => assoc k l end.
Proof.
  unfold dict_update. revert l; induction kvs as [|[k' v'] kvs IH]; intro l; cbn [fold_left rev]; auto.
  rewrite IH. cbn [fst snd].
  assert (Happ : forall (l1 l2 : list (pystr * A)), assoc k (l1 ++ l2) = match assoc k l1 with Some v => Some v | None => assoc k l2 end).
  { clear. induction l1 as [|[a b] l1 IH]; intro l2; cbn [app assoc]; auto. destruct (str_eqb k a); auto. }
  rewrite Happ. destruct (assoc k (rev kvs)); auto. cbn [assoc].
  destruct (str_eqb k k') eqn:E.
  - apply str_eqb_eq in E. subst. rewrite assoc_dict_set_same. reflexivity.
  - apply str_eqb_neq in E. rewrite assoc_dict_set_other; auto.
Qed.

Lemma get_element_assoc d id :
  get_element_from_spdx_id d id = assoc id (rev (map (fun e => (element_id e, e)) (all_elements d))).
Proof.
  unfold get_element_from_spdx_id, get_contained_spdx_elements, all_elements. cbv zeta.
  rewrite !dict_update_assoc. rewrite !map_app, !map_map, !rev_app_distr.
  assert (Happ : forall (l1 l2 : list (pystr * element)), assoc id (l1 ++ l2) = match assoc id l1 with Some v => Some v | None => assoc id l2 end).
  { clear. induction l1 as [|[a b] l1 IH]; intro l2; cbn [app assoc]; auto. destruct (str_eqb id a); auto. }
  rewrite !Happ. cbn [element_id assoc].
  destruct (assoc id (rev (map (fun x => (sn_id x, ESnippet x)) (do_snippets d)))); auto.
  destruct (assoc id (rev (map (fun x => (fi_id x, EFile x)) (do_files d)))); auto.
  destruct (assoc id (rev (map (fun x => (pk_id x, EPackage x)) (do_packages d)))); auto.
Qed.

Lemma get_element_sound d id e : get_element_from_spdx_id d id = Some e -> In e (all_elements d) /\ element_id e = id.
Proof.
  rewrite get_element_assoc. intro H. apply assoc_In in H. apply in_rev in H. apply in_map_iff in H as (x & E & Hx).
  injection E as <- <-. auto.
Qed.
Lemma get_element_none d id : get_element_from_spdx_id d id = None <-> ~ exists e, In e (all_elements d) /\ element_id e = id.
Proof.
  rewrite get_element_assoc, assoc_None, map_rev, <- in_rev, map_map. cbn [fst]. rewrite in_map_iff.
  split; intros H (e & H1 & H2); apply H; exists e; auto.
Qed.

(** ** Relationship filters: exactly the matching ones, in order (every filter is a filter on the list). *)

(** ** Hashing *)
Section Hash.
  Variable state : Type.
  Variable update : state -> list N -> state.

  (** A hash is incremental: updating with a and then b is updating with a ++ b; an empty update does nothing. *)
  Hypothesis update_app : forall s a b, update (update s a) b = update s (a ++ b).
  Hypothesis update_nil : forall s, update s [] = s.

  Lemma hash_chunks_spec fuel content s :
    List.length content < fuel -> hash_chunks state update fuel content s = Some (update s content).
  Proof.
    revert content s; induction fuel as [|k IH]; intros content s H; [lia|]. cbn [hash_chunks].
    assert (HB : N.to_nat BUFFER_SIZE > 0) by (unfold BUFFER_SIZE; lia).
    generalize dependent (N.to_nat BUFFER_SIZE). intros B HB.
    destruct content as [|c content].
    - rewrite firstn_nil. rewrite update_nil. reflexivity.
    - destruct B as [|B]; [lia|]. cbn [firstn skipn].
      rewrite IH.
      + rewrite update_app. cbn. rewrite firstn_skipn. reflexivity.
      + rewrite skipn_length. cbn in H. lia.
  Qed.
  Lemma hash_file_loop_spec content s : hash_file_loop state update content s = Some (update s content).
  Proof. apply hash_chunks_spec. lia. Qed.
End Hash.

(** ** Sorting *)
Lemma str_leb_total a b : str_leb a b = true \/ str_leb b a = true.
Proof.
  revert b; induction a as [|x a IH]; destruct b as [|y b]; cbn [str_leb]; auto.
  destruct (N.ltb_spec x y); auto. destruct (N.ltb_spec y x); auto.
  assert (x = y) by lia. subst. rewrite !N.eqb_refl. cbn. destruct (IH b) as [->| ->]; auto.
Qed.
Lemma str_leb_antisym a b : str_leb a b = true -> str_leb b a = true -> a = b.
Proof.
  revert b; induction a as [|x a IH]; destruct b as [|y b]; cbn [str_leb]; intros H1 H2; auto; try discriminate.
  apply orb_true_iff in H1, H2. rewrite !andb_true_iff, !N.ltb_lt, !N.eqb_eq in *.
  destruct H1 as [H1|[H1 H1']], H2 as [H2|[H2 H2']]; try lia. subst. f_equal. auto.
Qed.
Lemma str_leb_trans a b c : str_leb a b = true -> str_leb b c = true -> str_leb a c = true.
Proof.
  revert b c; induction a as [|x a IH]; destruct b as [|y b], c as [|z c]; cbn [str_leb]; intros H1 H2; auto; try discriminate.
  apply orb_true_iff in H1, H2. apply orb_true_iff. rewrite !andb_true_iff, !N.ltb_lt, !N.eqb_eq in *.
  destruct H1 as [H1|[H1 H1']], H2 as [H2|[H2 H2']]; try (left; lia). right. split; [lia|]. eauto.
Qed.
Definition str_le (a b : pystr) : Prop := str_leb a b = true.

Lemma insert_perm x l : Permutation (x :: l) (insert x l).
Proof.
  induction l as [|y l IH]; cbn [insert]; auto. destruct (str_leb x y); auto.
  transitivity (y :: x :: l); [constructor|]. constructor. exact IH.
Qed.
Lemma sort_perm l : Permutation l (sort l).
Proof.
  induction l as [|x l IH]; cbn [sort]; auto. transitivity (x :: sort l); auto. apply insert_perm.
Qed.
Lemma insert_sorted x l : StronglySorted str_le l -> StronglySorted str_le (insert x l).
Proof.
  induction 1 as [|y l Hs IH HF]; cbn [insert].
  - constructor; constructor.
  - destruct (str_leb x y) eqn:E.
    + constructor; [constructor; auto|]. constructor; auto. eapply Forall_impl; [|exact HF]. intros z Hz.
      eapply str_leb_trans; eauto.
    + constructor; auto. eapply Permutation_Forall; [apply insert_perm|]. constructor; auto.
      unfold str_le. destruct (str_leb_total x y) as [H|H]; [congruence|auto].
Qed.
Lemma sort_sorted l : StronglySorted str_le (sort l).
Proof. induction l as [|x l IH]; cbn [sort]; [constructor|]. apply insert_sorted; auto. Qed.

Lemma sorted_perm_eq l l' : StronglySorted str_le l -> StronglySorted str_le l' -> Permutation l l' -> l = l'.
Proof.
  revert l'; induction l as [|x l IH]; intros l' Hs Hs' Hp.
  - apply Permutation_nil in Hp. auto.
  - destruct l' as [|y l']; [symmetry in Hp; apply Permutation_nil in Hp; discriminate|].
    assert (x = y).
    { inversion Hs as [|? ? _ HF]; subst. inversion Hs' as [|? ? _ HF']; subst.
      rewrite Forall_forall in HF, HF'.
      assert (Hx : In x (y :: l')) by (eapply Permutation_in; [exact Hp|left; auto]).
      assert (Hy : In y (x :: l)) by (eapply Permutation_in; [symmetry; exact Hp|left; auto]).
      destruct Hx as [->|Hx]; auto. destruct Hy as [->|Hy]; auto. apply str_leb_antisym; [apply HF|apply HF']; auto. }
    subst y. f_equal. inversion Hs; inversion Hs'; subst. apply IH; auto. eapply Permutation_cons_inv; eauto.
Qed.
Lemma sort_perm_eq l l' : Permutation l l' -> sort l = sort l'.
Proof.
  intro H. apply sorted_perm_eq; try apply sort_sorted.
  transitivity l; [symmetry; apply sort_perm|]. transitivity l'; auto. apply sort_perm.
Qed.

(** ** First occurrences *)
Local Arguments create_list_without_duplicates : simpl never.
Lemma dedup_app {A} (eqb : A -> A -> bool) l x :
  create_list_without_duplicates eqb (l ++ [x])
  = let l' := create_list_without_duplicates eqb l in if existsb (eqb x) l' then l' else l' ++ [x].
Proof. unfold create_list_without_duplicates. rewrite fold_left_app. reflexivity. Qed.
Lemma dedup_FO {A} (eqb : A -> A -> bool) (same : A -> A -> Prop) l :
  (forall x y, eqb x y = true <-> same x y) -> FirstOccurrences same l (create_list_without_duplicates eqb l).
Proof.
  intro H. induction l as [|x l IH] using rev_ind; [constructor|]. rewrite dedup_app. cbv zeta.
  destruct (existsb (eqb x) (create_list_without_duplicates eqb l)) eqn:E.
  - apply existsb_exists in E as (y & Hy & Hxy). eapply FO_old; eauto. apply H; auto.
  - apply FO_new; auto. intros y Hy Hs. apply H in Hs.
    assert (existsb (eqb x) (create_list_without_duplicates eqb l) = true) by (apply existsb_exists; eauto). congruence.
Qed.
Lemma FO_functional {A} (same : A -> A -> Prop) l l1 l2 :
  FirstOccurrences same l l1 -> FirstOccurrences same l l2 -> l1 = l2.
Proof.
  intro H; revert l2. induction H as [|l l' x H IH Hn|l l' x y H IH Hy Hs]; intros l2 H2.
  - inversion H2 as [E|k k' z Hk Hz E|k k' z y Hk Hy Hs E]; auto; destruct k; discriminate.
  - inversion H2 as [E|k k' z Hk Hz E E'|k k' z y Hk Hy Hs E]; [destruct l; discriminate| |];
      apply app_inj_tail in E as [-> ->].
    + f_equal. auto.
    + apply IH in Hk. subst. exfalso. eapply Hn; eauto.
  - inversion H2 as [E|k k' z Hk Hz E E'|k k' z y' Hk Hy' Hs' E]; [destruct l; discriminate| |];
      apply app_inj_tail in E as [-> ->].
    + apply IH in Hk. subst. exfalso. eapply Hz; eauto.
    + auto.
Qed.
Lemma dedup_Subseq {A} (eqb : A -> A -> bool) (Heq : forall a b, eqb a b = true <-> a = b) l :
  Subseq (create_list_without_duplicates eqb l) l.
Proof.
  replace (create_list_without_duplicates eqb l) with (first_occurrences_from eqb [] l); [apply first_occ_Subseq|].
  symmetry. exact (dedup_fold_first eqb Heq l []).
Qed.

Section DedupDoc.
  Variable leq : lexpr -> lexpr -> bool.
  Let same (a b : lexpr) : Prop := leq a b = true.
  Lemma license_eqb_same a b : license_eqb leq a b = true <-> SameLicense same a b.
  Proof. destruct a, b; cbn; unfold same; split; intro; auto; try discriminate; contradiction. Qed.
  Lemma Forall2_map_r {A B} (R : A -> B -> Prop) (f : A -> B) l : (forall x, R x (f x)) -> Forall2 R l (map f l).
  Proof. intro H. induction l; constructor; auto. Qed.
  Theorem dedup_document d : DedupDocument same d (create_document_without_duplicates leq d).
  Proof.
    constructor; cbn [create_document_without_duplicates do_ci do_packages do_files do_snippets do_annotations do_relationships do_extracted];
      auto; try apply Forall2_map_r.
    - constructor; [|reflexivity]. split; apply dedup_FO; apply eqb_of_eq.
    - intro p. constructor; [|reflexivity]. repeat split; apply dedup_FO; try apply eqb_of_eq; try apply str_eqb_eq';
        apply license_eqb_same.
    - intro p. constructor; [|reflexivity]. repeat split; apply dedup_FO; try apply eqb_of_eq; try apply str_eqb_eq';
        try apply file_type_eqb_eq; apply license_eqb_same.
    - intro p. constructor; [|reflexivity]. split; apply dedup_FO; try apply str_eqb_eq'; apply license_eqb_same.
    - intro p. constructor; [|reflexivity]. apply dedup_FO, str_eqb_eq'.
  Qed.
  Hypothesis leq_equiv : forall a b, leq a b = true <-> a = b.
  Lemma license_eqb_eq' a b : license_eqb leq a b = true <-> a = b.
  Proof.
    destruct a as [x| |], b as [y| |]; cbn; split; intro H; auto; try discriminate.
    - f_equal. apply leq_equiv; auto.
    - injection H as ->. apply leq_equiv; auto.
  Qed.
  Theorem dedup_document_idem d :
    create_document_without_duplicates leq (create_document_without_duplicates leq d) = create_document_without_duplicates leq d.
  Proof.
    unfold create_document_without_duplicates. cbn. rewrite !map_map. f_equal.
    - unfold dedup_ci; cbn. rewrite !dedup_idem; auto using @eqb_of_eq.
    - apply map_ext. intro p. unfold dedup_package; cbn. unfold dd_ck, dd_lic, dd_str.
      rewrite !dedup_idem; auto using @eqb_of_eq, str_eqb_eq', license_eqb_eq'.
    - apply map_ext. intro p. unfold dedup_file; cbn. unfold dd_ck, dd_lic, dd_str.
      rewrite !dedup_idem; auto using @eqb_of_eq, str_eqb_eq', license_eqb_eq', file_type_eqb_eq.
    - apply map_ext. intro p. unfold dedup_snippet; cbn. unfold dd_ck, dd_lic, dd_str.
      rewrite !dedup_idem; auto using @eqb_of_eq, str_eqb_eq', license_eqb_eq', file_type_eqb_eq.
    - apply map_ext. intro p. unfold dedup_extracted; cbn. unfold dd_str.
      rewrite !dedup_idem; auto using @eqb_of_eq, str_eqb_eq', license_eqb_eq', file_type_eqb_eq.
  Qed.
End DedupDoc.

(** ** Filters *)
Lemma filter_Selected {A} (f : A -> bool) (P : A -> Prop) l :
  (forall x, f x = true <-> P x) -> Selected P l (filter f l).
Proof.
  intro H. induction l as [|x l IH]; cbn [filter]; [constructor|]. destruct (f x) eqn:E.
  - apply Sel_in; auto. apply H; auto.
  - apply Sel_out; auto. rewrite <- H, E. discriminate.
Qed.
Lemma filter_filter' {A} (p q : A -> bool) l : filter p (filter q l) = filter (fun x => q x && p x) l.
Proof.
  induction l as [|x l IH]; cbn [filter]; auto. destruct (q x); cbn [filter andb]; auto. destruct (p x); rewrite IH; auto.
Qed.
Lemma rel_eqb_eq a b : rel_type_eqb a b = true <-> a = b.
Proof. unfold rel_type_eqb. destruct (rel_type_eq_dec a b); split; intro; auto; discriminate. Qed.
Lemma nn_is_eq x i : nn_is x i = true <-> x = NVal i.
Proof.
  destruct x as [j| |]; cbn; [rewrite str_eqb_eq| |]; split; intro H; try discriminate; congruence.
Qed.
Lemma nn_in_eq x l : nn_in x l = true <-> exists i, x = NVal i /\ In i l.
Proof.
  destruct x as [j| |]; cbn; [rewrite str_in_In| |]; split; try discriminate.
  - eauto. - intros (i & [= ->] & H); auto. - intros (i & H & _); discriminate. - intros (i & H & _); discriminate.
Qed.
Theorem filter_target_sel rs t i :
  Selected (fun r => re_type r = t /\ re_related r = NVal i) rs (filter_by_type_and_target rs t i).
Proof. apply filter_Selected. intro r. rewrite andb_true_iff, rel_eqb_eq, nn_is_eq. reflexivity. Qed.
Theorem filter_origin_sel rs t i :
  Selected (fun r => re_type r = t /\ re_id r = i) rs (filter_by_type_and_origin rs t i).
Proof. apply filter_Selected. intro r. rewrite andb_true_iff, rel_eqb_eq, str_eqb_eq. reflexivity. Qed.
Theorem find_contains_sel d p :
  Selected (fun r => re_type r = RT_CONTAINS /\ re_id r = pk_id p /\ exists f, In f (do_files d) /\ re_related r = NVal (fi_id f))
           (do_relationships d) (find_package_contains_file_relationships d p).
Proof.
  unfold find_package_contains_file_relationships, filter_by_type_and_origin. rewrite filter_filter'.
  apply filter_Selected. intro r. rewrite !andb_true_iff, rel_eqb_eq, str_eqb_eq, nn_in_eq. split.
  - intros [[H1 H2] (i & E & Hi)]. apply in_map_iff in Hi as (f & <- & Hf). eauto 6.
  - intros (H1 & H2 & f & Hf & E). repeat split; auto. exists (fi_id f). split; auto. apply in_map; auto.
Qed.
Theorem find_contained_by_sel d p :
  Selected (fun r => re_type r = RT_CONTAINED_BY /\ re_related r = NVal (pk_id p) /\ exists f, In f (do_files d) /\ re_id r = fi_id f)
           (do_relationships d) (find_file_contained_by_package_relationships d p).
Proof.
  unfold find_file_contained_by_package_relationships, filter_by_type_and_target. rewrite filter_filter'.
  apply filter_Selected. intro r. rewrite !andb_true_iff, rel_eqb_eq, nn_is_eq, str_in_In. split.
  - intros [[H1 H2] Hi]. apply in_map_iff in Hi as (f & E & Hf). eauto 7.
  - intros (H1 & H2 & f & Hf & E). repeat split; auto. rewrite E. apply in_map; auto.
Qed.

(** ** Lookup *)
Theorem get_element_iff d id :
  (exists e, get_element_from_spdx_id d id = Some e) <-> exists e, In e (all_elements d) /\ element_id e = id.
Proof.
  destruct (get_element_from_spdx_id d id) as [e|] eqn:E.
  - split; intros _; [|eauto]. exists e. apply get_element_sound; auto.
  - apply get_element_none in E. split; intro H; [destruct H; discriminate|contradiction].
Qed.
Lemma all_elements_ids d :
  map element_id (all_elements d) = map pk_id (do_packages d) ++ map fi_id (do_files d) ++ map sn_id (do_snippets d).
Proof. unfold all_elements. rewrite !map_app, !map_map. reflexivity. Qed.
Lemma NoDup_map_inj {A B} (f : A -> B) l x y : NoDup (map f l) -> In x l -> In y l -> f x = f y -> x = y.
Proof.
  induction l as [|z l IH]; cbn [map]; intros H Hx Hy E; [contradiction|]. inversion H as [|? ? Hn Hd]; subst.
  destruct Hx as [->|Hx], Hy as [->|Hy]; auto.
  - exfalso. apply Hn. rewrite E. apply in_map; auto.
  - exfalso. apply Hn. rewrite <- E. apply in_map; auto.
Qed.
(** With distinct ids the element is the unique one with that id. *)
Theorem get_element_unique d id e :
  NoDup (map element_id (all_elements d)) -> In e (all_elements d) -> element_id e = id ->
  get_element_from_spdx_id d id = Some e.
Proof.
  intros Hn He Hid. destruct (get_element_from_spdx_id d id) as [e'|] eqn:E.
  - apply get_element_sound in E as [H1 H2]. f_equal. eapply NoDup_map_inj; eauto. congruence.
  - apply get_element_none in E. exfalso. eauto.
Qed.
Lemma get_type_sound d id t :
  get_element_type_from_spdx_id (NVal id) d = Some t -> exists e, In e (all_elements d) /\ element_id e = id /\ type_of e = t.
Proof.
  unfold get_element_type_from_spdx_id, all_elements. intro H.
  destruct (str_in id (map pk_id (do_packages d))) eqn:E1.
  { injection H as <-. apply str_in_In, in_map_iff in E1 as (p & <- & Hp). exists (EPackage p).
    split; [apply in_or_app; left; apply in_map; auto|auto]. }
  destruct (str_in id (map fi_id (do_files d))) eqn:E2.
  { injection H as <-. apply str_in_In, in_map_iff in E2 as (p & <- & Hp). exists (EFile p).
    split; [apply in_or_app; right; apply in_or_app; left; apply in_map; auto|auto]. }
  destruct (str_in id (map sn_id (do_snippets d))) eqn:E3; [|discriminate].
  injection H as <-. apply str_in_In, in_map_iff in E3 as (p & <- & Hp). exists (ESnippet p).
  split; [apply in_or_app; right; apply in_or_app; right; apply in_map; auto|auto].
Qed.
Lemma get_type_none d id :
  get_element_type_from_spdx_id (NVal id) d = None <-> ~ exists e, In e (all_elements d) /\ element_id e = id.
Proof.
  unfold get_element_type_from_spdx_id.
  assert (K : (exists e, In e (all_elements d) /\ element_id e = id) <->
              In id (map pk_id (do_packages d)) \/ In id (map fi_id (do_files d)) \/ In id (map sn_id (do_snippets d))).
  { rewrite <- !in_app_iff, <- all_elements_ids, in_map_iff. split; intros (e & H); exists e; tauto. }
  rewrite K, <- !str_in_In.
  destruct (str_in id (map pk_id (do_packages d))), (str_in id (map fi_id (do_files d))), (str_in id (map sn_id (do_snippets d)));
    (split; [intro H | intro H]); try discriminate; auto; try (exfalso; apply H; auto; fail).
  intros [H1|[H1|H1]]; discriminate.
Qed.
Theorem get_type_agrees d id :
  NoDup (map element_id (all_elements d)) ->
  get_element_type_from_spdx_id (NVal id) d = option_map type_of (get_element_from_spdx_id d id).
Proof.
  intro Hn. destruct (get_element_type_from_spdx_id (NVal id) d) as [t|] eqn:E.
  - apply get_type_sound in E as (e & He & Hid & <-). rewrite (get_element_unique d id e); auto.
  - apply get_type_none in E. apply get_element_none in E. rewrite E. reflexivity.
Qed.

(** ** Full ids *)
Theorem full_id_internal id ns refs : ~ In #":" id -> get_full_element_spdx_id id ns refs = Ok (ns ++ $"#" ++ id).
Proof. intro H. unfold get_full_element_spdx_id. apply has_char_false in H. rewrite H. reflexivity. Qed.
Lemma find_ext_uri_first ext refs1 r refs2 :
  edr_id r = ext -> ~ In ext (map edr_id refs1) -> find_ext_uri ext (refs1 ++ r :: refs2) = Some (edr_uri r).
Proof.
  intros E H. unfold find_ext_uri. induction refs1 as [|x l IH]; cbn [app find].
  - rewrite E, str_eqb_refl. reflexivity.
  - destruct (str_eqb (edr_id x) ext) eqn:Ex; [apply str_eqb_eq in Ex; exfalso; apply H; left; auto|].
    apply IH. intro K. apply H. right; auto.
Qed.
Lemma find_ext_uri_none ext refs : ~ In ext (map edr_id refs) -> find_ext_uri ext refs = None.
Proof.
  intro H. unfold find_ext_uri. induction refs as [|x l IH]; cbn [find]; auto.
  destruct (str_eqb (edr_id x) ext) eqn:Ex; [apply str_eqb_eq in Ex; exfalso; apply H; left; auto|].
  apply IH. intro K. apply H. right; auto.
Qed.
Lemma full_id_colon a b ns refs : ~ In #":" a -> ~ In #":" b ->
  get_full_element_spdx_id (a ++ $":" ++ b) ns refs
  = match find_ext_uri a refs with
    | None | Some [] => Raise (EValue ($"external id " ++ a ++ $" not found in external document references"))
    | Some uri => Ok (uri ++ $"#" ++ b) end.
Proof.
  intros Ha Hb. unfold get_full_element_spdx_id.
  assert (E : has_char #":" (a ++ $":" ++ b) = true).
  { apply has_char_In. apply in_or_app. right. left. reflexivity. }
  rewrite E. cbn [negb].
  assert (Es : split_on #":" (a ++ $":" ++ b) = [a; b]) by (apply split_two; auto).
  rewrite Es. reflexivity.
Qed.
Theorem full_id_external a b ns refs1 r refs2 :
  ~ In #":" a -> ~ In #":" b -> edr_id r = a -> ~ In a (map edr_id refs1) -> edr_uri r <> [] ->
  get_full_element_spdx_id (a ++ $":" ++ b) ns (refs1 ++ r :: refs2) = Ok (edr_uri r ++ $"#" ++ b).
Proof.
  intros Ha Hb E Hn Hu. rewrite full_id_colon; auto. rewrite find_ext_uri_first; auto. destruct (edr_uri r); [contradiction|auto].
Qed.
Theorem full_id_unknown a b ns refs :
  ~ In #":" a -> ~ In #":" b -> ~ In a (map edr_id refs) ->
  get_full_element_spdx_id (a ++ $":" ++ b) ns refs
  = Raise (EValue ($"external id " ++ a ++ $" not found in external document references")).
Proof. intros Ha Hb H. rewrite full_id_colon; auto. rewrite find_ext_uri_none; auto. Qed.
Theorem full_id_inj i j ns refs :
  ~ In #":" i -> ~ In #":" j -> get_full_element_spdx_id i ns refs = get_full_element_spdx_id j ns refs -> i = j.
Proof.
  intros Hi Hj. rewrite !full_id_internal; auto. intros [= H]. apply app_inv_head in H. injection H as H. auto.
Qed.

(** ** Verification code *)
Lemma str_leb_StrLe a b : str_leb a b = true <-> StrLe a b.
Proof.
  split.
  - revert b; induction a as [|x a IH]; destruct b as [|y b]; cbn [str_leb]; intro H; try discriminate; try apply SL_nil.
    apply orb_true_iff in H as [H|H].
    + apply SL_lt. apply N.ltb_lt; auto.
    + apply andb_true_iff in H as [H1 H2]. apply N.eqb_eq in H1. subst. apply SL_eq; auto.
  - induction 1 as [b|x a y b H|x a b H IH]; cbn [str_leb]; auto.
    + apply N.ltb_lt in H. rewrite H. auto.
    + rewrite N.eqb_refl, IH. apply orb_true_r.
Qed.
Lemma sort_sorted' l : StronglySorted StrLe (sort l).
Proof.
  generalize (sort_sorted l). induction 1 as [|x l' H IH HF]; constructor; auto.
  eapply Forall_impl; [|exact HF]. intros y Hy. apply str_leb_StrLe; auto.
Qed.
Lemma join_nil_concat l : join [] l = List.concat l.
Proof.
  induction l as [|x l IH]; cbn [join List.concat]; auto. destruct l; [cbn; rewrite app_nil_r; auto|]. cbn [app] in *. rewrite IH. reflexivity.
Qed.

Lemma Forall2_impl {A B} (P Q : A -> B -> Prop) l m : (forall x y, P x y -> Q x y) -> Forall2 P l m -> Forall2 Q l m.
Proof. intro H. induction 1; constructor; auto. Qed.

Section VerifCode.
  Variable state : Type.
  Variable init : checksum_alg -> state.
  Variable update : state -> list N -> state.
  Variable hexdigest : state -> pystr.
  Variable fs : pystr -> option (list N).
  Variable encode : pystr -> list N.
  Hypothesis update_app : forall s a b, update (update s a) b = update s (a ++ b).
  Hypothesis update_nil : forall s, update s [] = s.
  Let digest (alg : checksum_alg) (bytes : list N) : pystr := hexdigest (update (init alg) bytes).
  Notation calc_file := (calculate_file_checksum state init update hexdigest fs).
  Notation file_hash := (file_hash state init update hexdigest fs).
  Notation calc := (calculate_package_verification_code state init update hexdigest fs encode).

  Theorem file_checksum_whole name alg :
    calc_file name alg = match fs name with Some content => Ok (digest alg content) | None => Raise (EFileNotFound name) end.
  Proof.
    unfold calculate_file_checksum. destruct (fs name); auto. rewrite hash_file_loop_spec; auto.
  Qed.
  Lemma sha1_of_last f : sha1_of f = match rev (sha1_values f) with v :: _ => Some v | [] => None end.
  Proof.
    unfold sha1_of, sha1_values. generalize (fi_checksums f) as l. intro l.
    induction l as [|c l IH] using rev_ind; auto. rewrite fold_left_app, filter_app, map_app, rev_app_distr. cbn [fold_left filter].
    destruct (checksum_alg_eqb (ck_alg c) CA_SHA1); cbn [map rev app]; auto.
  Qed.
  Lemma rev_cons_snoc {A} (l : list A) x k : rev l = x :: k -> l = rev k ++ [x].
  Proof. intro H. rewrite <- (rev_involutive l), H. reflexivity. Qed.
  Lemma file_hash_spec f h : file_hash f = Ok h <-> FileHash (digest CA_SHA1) fs f h.
  Proof.
    unfold DocUtils.file_hash. rewrite file_checksum_whole, sha1_of_last. split.
    - intro H. destruct (rev (sha1_values f)) as [|v vs] eqn:E; cbn [truthy_opt] in H.
      + destruct (fs (fi_name f)) as [content|] eqn:Ef; [|discriminate]. injection H as <-. eapply FH_disk; eauto.
        left. rewrite <- (rev_involutive (sha1_values f)), E. reflexivity.
      + apply rev_cons_snoc in E. destruct v as [|c v].
        * destruct (fs (fi_name f)) as [content|] eqn:Ef; [|discriminate]. injection H as <-. eapply FH_disk; eauto.
        * injection H as <-. eapply FH_listed; eauto. discriminate.
    - intros [vs v E Hv|content E Ef].
      + rewrite E, rev_app_distr. cbn. destruct v; [contradiction|reflexivity].
      + rewrite Ef. destruct E as [->|(vs & ->)]; [reflexivity|]. rewrite rev_app_distr. reflexivity.
  Qed.
  Lemma file_hash_fail f : (exists e, file_hash f = Raise e) <-> ~ exists h, FileHash (digest CA_SHA1) fs f h.
  Proof.
    split.
    - intros (e & E) (h & H). apply file_hash_spec in H. congruence.
    - intro H. destruct (file_hash f) as [h|e] eqn:E; [|eauto]. exfalso. apply H. exists h. apply file_hash_spec; auto.
  Qed.
  Lemma map_result_Forall2 {A B} (f : A -> result B) l ys :
    map_result f l = Ok ys <-> Forall2 (fun x y => f x = Ok y) l ys.
  Proof.
    revert ys; induction l as [|x l IH]; intro ys; cbn [map_result].
    - split; intro H; [injection H as <-; constructor|inversion H; auto].
    - destruct (f x) as [y|e] eqn:E; cbn [bind].
      + destruct (map_result f l) as [zs|e] eqn:El; cbn [bind].
        * split; intro H.
          -- injection H as <-. constructor; auto. apply IH; auto.
          -- inversion H as [|? y' ? ys' H1 H2]; subst. rewrite E in H1. injection H1 as ->. apply IH in H2. congruence.
        * split; intro H; [discriminate|]. inversion H as [|? y' ? ys' H1 H2]; subst. apply IH in H2. discriminate.
      + split; intro H; [discriminate|]. inversion H; subst. congruence.
  Qed.
  Lemma map_result_fail {A B} (f : A -> result B) l : (exists e, map_result f l = Raise e) <-> exists x e, In x l /\ f x = Raise e.
  Proof.
    induction l as [|x l IH]; cbn [map_result].
    - split; [intros (e & H); discriminate|intros (x & e & [] & _)].
    - destruct (f x) as [y|e] eqn:E; cbn [bind].
      + destruct (map_result f l) as [zs|e] eqn:El; cbn [bind].
        * split; [intros (e & H); discriminate|]. intros (z & e & [->|H] & H'); [congruence|].
          exfalso. assert (K : exists e, Ok zs = Raise e) by (apply IH; eauto). destruct K; discriminate.
        * split; [|eauto]. intros _. destruct IH as [IH _]. destruct IH as (z & e' & H & H'); eauto. exists z, e'. split; [right|]; auto.
      + split; eauto. intros _. exists x, e. split; [left|]; auto.
  Qed.
  (** The code is the SHA1 of the concatenation of the sorted hashes of all files. *)
  Theorem verif_code_spec files c :
    calc files = Ok c <->
    exists hashes sorted, Forall2 (FileHash (digest CA_SHA1) fs) files hashes
      /\ Permutation hashes sorted /\ StronglySorted StrLe sorted
      /\ c = {| vc_value := digest CA_SHA1 (encode (List.concat sorted)); vc_excluded := [] |}.
  Proof.
    unfold calculate_package_verification_code. split.
    - intro H. destruct (map_result file_hash files) as [hs|e] eqn:E; [|discriminate]. cbn [bind] in H. injection H as <-.
      exists hs, (sort hs). apply map_result_Forall2 in E. split.
      { eapply Forall2_impl; [|exact E]. intros f h Hh. apply file_hash_spec; auto. }
      split; [apply sort_perm|]. split; [apply sort_sorted'|]. rewrite join_nil_concat. reflexivity.
    - intros (hs & so & HF & Hp & Hs & ->).
      assert (E : map_result file_hash files = Ok hs).
      { apply map_result_Forall2. eapply Forall2_impl; [|exact HF]. intros f h Hh. apply file_hash_spec; auto. }
      rewrite E. cbn [bind]. rewrite join_nil_concat.
      assert (Es : sort hs = so).
      { apply sorted_perm_eq.
        - apply sort_sorted.
        - clear -Hs. induction Hs as [|x l H IH HF]; constructor; auto. eapply Forall_impl; [|exact HF]. intros y Hy. apply str_leb_StrLe; auto.
        - transitivity hs; auto. symmetry. apply sort_perm. }
      rewrite Es. reflexivity.
  Qed.
  Theorem verif_code_perm files files' :
    Permutation files files' ->
    (forall c, calc files = Ok c <-> calc files' = Ok c)
    /\ ((exists e, calc files = Raise e) <-> (exists e, calc files' = Raise e)).
  Proof.
    assert (K : forall fs1 fs2 c, Permutation fs1 fs2 -> calc fs1 = Ok c -> calc fs2 = Ok c).
    { intros fs1 fs2 c Hp H. apply verif_code_spec in H as (hs & so & HF & Hp' & Hs & ->).
      destruct (Permutation_Forall2 Hp HF) as (hs' & Hp'' & HF'). apply verif_code_spec.
      exists hs', so. split; auto. split; auto. transitivity hs; auto. symmetry; auto. }
    intro Hp. split.
    - intro c. split; apply K; auto. symmetry; auto.
    - split; intros (e & H).
      + destruct (calc files') as [c|e'] eqn:E; [|eauto]. apply (K _ files) in E; [congruence|symmetry; auto].
      + destruct (calc files) as [c|e'] eqn:E; [|eauto]. apply (K _ files') in E; [congruence|auto].
  Qed.
  (** It fails exactly when some file has no SHA1 value and is not on disk. *)
  Theorem verif_code_fails files :
    (exists e, calc files = Raise e) <->
    exists f, In f files /\ fs (fi_name f) = None /\ (sha1_values f = [] \/ exists vs, sha1_values f = vs ++ [[]]).
  Proof.
    transitivity (exists e, map_result file_hash files = Raise e).
    { unfold calculate_package_verification_code. destruct (map_result file_hash files) as [hs|e]; cbn [bind];
        split; intros (e' & H); try discriminate; eauto. }
    rewrite map_result_fail. split.
    - intros (f & e & Hf & H). exists f. split; auto.
      assert (N : ~ exists h, FileHash (digest CA_SHA1) fs f h) by (apply file_hash_fail; eauto).
      destruct (rev (sha1_values f)) as [|v vs] eqn:E.
      + assert (E' : sha1_values f = []) by (rewrite <- (rev_involutive (sha1_values f)), E; reflexivity).
        split; [|auto]. destruct (fs (fi_name f)) eqn:Ef; auto. exfalso. apply N. eexists. eapply FH_disk; eauto.
      + apply rev_cons_snoc in E. destruct v as [|c v].
        * split; [|eauto]. destruct (fs (fi_name f)) eqn:Ef; auto. exfalso. apply N. eexists. eapply FH_disk; eauto.
        * exfalso. apply N. eexists. eapply FH_listed; eauto. discriminate.
    - intros (f & Hf & Hn & Hs). assert (K : exists e, file_hash f = Raise e).
      { apply file_hash_fail. intros (h & [vs v E Hv|content E Ef]); [|congruence].
        destruct Hs as [Hs|(ws & Hs)]; rewrite Hs in E.
        - destruct vs; discriminate.
        - apply app_inj_tail in E as [_ ?]. subst. contradiction. }
      destruct K as (e & K). exists f, e. auto.
  Qed.
End VerifCode.
