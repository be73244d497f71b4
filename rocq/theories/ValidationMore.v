(** Consequences of the validators deciding well-formedness, and independence of the element order. *)
From Verif Require Import Py PyFacts Rx RxFacts Data Oracles DocUtils Validation ValidationSpec MessageSpec LocatorFacts ValidationFacts DocUtilsFacts.
From Coq Require Import Sorting.Permutation.

(** ** Order independence *)
Lemma existsb_perm {A} (f : A -> bool) l l' : Permutation l l' -> existsb f l = existsb f l'.
Proof.
  intro H. destruct (existsb f l') eqn:E.
  - apply existsb_exists in E as (x & Hx & Hf). apply existsb_exists. exists x. split; auto.
    eapply Permutation_in; [symmetry; exact H|auto].
  - destruct (existsb f l) eqn:E'; auto. apply existsb_exists in E' as (x & Hx & Hf).
    assert (existsb f l' = true); [|congruence]. apply existsb_exists. exists x. split; auto. eapply Permutation_in; eauto.
Qed.
Lemma truthy_list_perm {A} (l l' : list A) : Permutation l l' -> truthy_list l = truthy_list l'.
Proof.
  intro H. destruct l, l'; auto.
  - apply Permutation_nil in H. discriminate.
  - symmetry in H. apply Permutation_nil in H. discriminate.
Qed.
Lemma filter_perm {A} (f : A -> bool) l l' : Permutation l l' -> Permutation (filter f l) (filter f l').
Proof.
  induction 1 as [|x l l' H IH|x y l|l l' l'' H1 IH1 H2 IH2]; cbn [filter]; auto.
  - destruct (f x); auto.
  - destruct (f x), (f y); auto. constructor.
  - etransitivity; eauto.
Qed.
Lemma flat_map_perm {A B} (f : A -> list B) l l' : Permutation l l' -> Permutation (flat_map f l) (flat_map f l').
Proof.
  induction 1 as [|x l l' H IH|x y l|l l' l'' H1 IH1 H2 IH2]; cbn [flat_map]; auto.
  - apply Permutation_app_head; auto.
  - rewrite !app_assoc. apply Permutation_app_tail, Permutation_app_comm.
  - etransitivity; eauto.
Qed.

(** *** Lists with the same messages, in any order *)
Section Same.
Variable O : oracles.
Notation Same l l' := (exists ms, Permutation ms l' /\ Forall2 (SameMessage O) l ms).
Lemma Forall2_same l : Forall2 (SameMessage O) l l.
Proof. induction l; constructor; auto. constructor. Qed.
Lemma same_perm l l' : Permutation l l' -> Same l l'.
Proof. intro H. exists l. split; auto. apply Forall2_same. Qed.
Lemma same_app a a' b b' : Same a a' -> Same b b' -> Same (a ++ b) (a' ++ b').
Proof.
  intros (x & P & F) (y & Q & G). exists (x ++ y). split; [apply Permutation_app; auto|]. apply Forall2_app; auto.
Qed.
Lemma same_flat_map {A} (f g : A -> list vmsg) l l' :
  (forall x, Same (f x) (g x)) -> Permutation l l' -> Same (flat_map f l) (flat_map g l').
Proof.
  intros H P. assert (K : Same (flat_map f l) (flat_map g l)).
  { clear P. induction l as [|x l IH]; [exists []; split; constructor|]. apply same_app; auto. }
  destruct K as (ms & Q & F). exists ms. split; auto. etransitivity; [exact Q|]. apply flat_map_perm. exact P.
Qed.
Lemma same_nil l l' : Same l l' -> (l = [] <-> l' = []).
Proof.
  intros (ms & P & F). split; intros ->.
  - inversion F; subst. apply Permutation_nil in P. exact P.
  - symmetry in P. apply Permutation_nil in P. subst ms. inversion F. reflexivity.
Qed.
End Same.

(** *** Duplicated ids *)
Lemma duplicated_count l : forall seen x,
  In x (duplicated_ids seen l) <-> (In x seen /\ In x l) \/ 2 <= count_occ str_dec l x.
Proof.
  induction l as [|y l IH]; intros seen x.
  - cbn. split; [tauto|]. intros [[_ []]|H]. lia.
  - cbn [duplicated_ids count_occ]. pose proof (count_occ_In str_dec l x) as HC. destruct (str_dec y x) as [->|Hn].
    + destruct (str_in x seen) eqn:E.
      * apply str_in_In in E. cbn [In]. split; [|auto]. intros _. left. split; auto.
      * rewrite IH. cbn [In]. assert (~ In x seen) by (intro K; apply str_in_In in K; congruence).
        split; [|intros [[K _]|K]; [contradiction|left; split; auto; apply HC; lia]].
        intros [[_ K]|K]; right; [apply HC in K; lia|lia].
    + destruct (str_in y seen) eqn:E.
      * cbn [In]. rewrite IH. split; [intros [K|[[K K']|K]]; [contradiction|left; auto|right; lia]|].
        intros [[K [K'|K']]|K]; [contradiction|right; left; auto|right; right; lia].
      * rewrite IH. cbn [In]. split; [intros [[[K|K] K']|K]; [contradiction|left; auto|right; lia]|].
        intros [[K [K'|K']]|K]; [contradiction|left; auto|right; lia].
Qed.
Lemma distinct_In x l : In x (distinct l) <-> In x l.
Proof.
  induction l as [|y l IH]; cbn [distinct]; [tauto|]. destruct (str_in y l) eqn:E.
  - rewrite IH. cbn [In]. split; auto. intros [->|]; auto. apply IH, IH. apply str_in_In. exact E.
  - cbn [In]. rewrite IH. tauto.
Qed.
Lemma distinct_NoDup l : NoDup (distinct l).
Proof.
  induction l as [|y l IH]; cbn [distinct]; [constructor|]. destruct (str_in y l) eqn:E; auto. constructor; auto.
  rewrite distinct_In. intro K. apply str_in_In in K. congruence.
Qed.
Lemma duplicates_sorted l l' : Permutation l l' -> sort (distinct (duplicated_ids [] l)) = sort (distinct (duplicated_ids [] l')).
Proof.
  intro H. apply sort_perm_eq, NoDup_Permutation; try apply distinct_NoDup. intro x.
  rewrite !distinct_In, !duplicated_count. rewrite (proj1 (Permutation_count_occ str_dec l l') H x). cbn [In]. tauto.
Qed.

Section WithOracles.
Variable O : oracles.
Variables d d' : document.
Notation Same l l' := (exists ms, Permutation ms l' /\ Forall2 (SameMessage O) l ms).
Hypothesis HD : SameUpToOrder d d'.

Lemma all_ids_perm : Permutation (all_ids d) (all_ids d').
Proof.
  destruct HD as [E Hp Hf Hs _ _ _]. unfold all_ids. rewrite E. constructor.
  apply Permutation_app; [apply Permutation_map; auto|]. apply Permutation_app; apply Permutation_map; auto.
Qed.
Lemma so_validate_spdx_id id cd cf : validate_spdx_id id d cd cf = validate_spdx_id id d' cd cf.
Proof.
  unfold validate_spdx_id, is_spdx_id_present_in_document, is_external_doc_ref_present_in_document, is_spdx_id_present_in_files, str_in.
  change (get_list_of_all_spdx_ids d) with (all_ids d). change (get_list_of_all_spdx_ids d') with (all_ids d').
  rewrite (existsb_perm _ _ _ all_ids_perm), (so_ci _ _ HD).
  rewrite (existsb_perm _ _ _ (Permutation_map fi_id (so_files _ _ HD))). reflexivity.
Qed.
Lemma so_license l p c : validate_license_expression O l d p c = validate_license_expression O l d' p c.
Proof.
  unfold validate_license_expression. destruct l as [[e| |]|]; auto. f_equal.
  apply flat_map_ext. intro t. unfold validate_license_token, is_external_doc_ref_present_in_document.
  rewrite (so_ci _ _ HD). unfold opt_in. rewrite (existsb_perm _ _ _ (Permutation_map el_id (so_extracted _ _ HD))).
  reflexivity.
Qed.
Lemma so_licenses l p : validate_license_expressions O l d p = validate_license_expressions O l d' p.
Proof. apply flat_map_ext. intro. apply so_license. Qed.
Lemma so_type x : get_element_type_from_spdx_id x d = get_element_type_from_spdx_id x d'.
Proof.
  unfold get_element_type_from_spdx_id. destruct x as [i| |]; auto. unfold str_in.
  rewrite (existsb_perm _ _ _ (Permutation_map pk_id (so_packages _ _ HD))).
  rewrite (existsb_perm _ _ _ (Permutation_map fi_id (so_files _ _ HD))).
  rewrite (existsb_perm _ _ _ (Permutation_map sn_id (so_snippets _ _ HD))). reflexivity.
Qed.
Lemma so_package p v : Same (validate_package_within_document O p v d) (validate_package_within_document O p v d').
Proof.
  unfold validate_package_within_document. cbv zeta.
  rewrite so_validate_spdx_id, !so_license, so_licenses, (so_ci _ _ HD).
  apply same_app; [apply same_perm; auto|]. apply same_app; [|apply same_perm; auto].
  destruct (negb (pk_files_analyzed p)); [|apply same_perm; auto].
  match goal with |- Same (when (truthy_list ?l) _) (when (truthy_list ?l') _) => assert (P : Permutation l l') end.
  { unfold filter_by_type_and_origin, filter_by_type_and_target. rewrite !filter_filter. apply Permutation_app.
    - erewrite filter_ext; [apply filter_perm, (so_relationships _ _ HD)|]. intro r. cbv beta. rewrite so_type. reflexivity.
    - erewrite filter_ext; [apply filter_perm, (so_relationships _ _ HD)|]. intro r. cbv beta. rewrite so_type. reflexivity. }
  rewrite (truthy_list_perm _ _ P).
  match goal with |- Same (when ?b _) _ => destruct b end; [|exists []; split; constructor].
  eexists. split; [apply Permutation_refl|]. constructor; [|constructor]. apply sg_listed. exact P.
Qed.
Lemma so_file f v : validate_file_within_document O f v d = validate_file_within_document O f v d'.
Proof.
  unfold validate_file_within_document. cbv zeta. rewrite so_validate_spdx_id, so_license, so_licenses, (so_ci _ _ HD). reflexivity.
Qed.
Lemma so_snippet s v : validate_snippet_within_document O s v d = validate_snippet_within_document O s v d'.
Proof.
  unfold validate_snippet_within_document. cbv zeta. rewrite !so_validate_spdx_id, so_license, so_licenses, (so_ci _ _ HD). reflexivity.
Qed.
Lemma so_annotation a : validate_annotation a d = validate_annotation a d'.
Proof. unfold validate_annotation. rewrite so_validate_spdx_id. reflexivity. Qed.
Lemma so_relationship r v : validate_relationship r v d = validate_relationship r v d'.
Proof.
  unfold validate_relationship. cbv zeta. rewrite so_validate_spdx_id. destruct (re_related r); auto. rewrite so_validate_spdx_id. reflexivity.
Qed.
Lemma duplicates_perm l l' : Permutation l l' -> truthy_list (duplicated_ids [] l) = truthy_list (duplicated_ids [] l').
Proof.
  intro H.
  assert (E : forall k, truthy_list (duplicated_ids [] k) = false <-> NoDup k).
  { intro k. rewrite truthy_list_false, duplicated_ids_spec. split; [tauto|]. intro; split; auto. }
  destruct (truthy_list (duplicated_ids [] l')) eqn:E'.
  - destruct (truthy_list (duplicated_ids [] l)) eqn:E''; auto. apply E in E''.
    assert (NoDup l') by (eapply Permutation_NoDup; eauto). apply E in H0. congruence.
  - apply E. apply E in E'. eapply Permutation_NoDup; [symmetry|]; eauto.
Qed.

Lemma list_len1_perm {A} (l l' : list A) : Permutation l l' -> Nat.eqb (List.length l) 1 = Nat.eqb (List.length l') 1.
Proof. intro H. rewrite (Permutation_length H). reflexivity. Qed.

Theorem so_messages ver : Same (validate_full_spdx_document O d ver) (validate_full_spdx_document O d' ver).
Proof.
  unfold validate_full_spdx_document.
  assert (Ev : version_messages d ver = version_messages d' ver).
  { unfold version_messages, effective_version. rewrite (so_ci _ _ HD). reflexivity. }
  assert (Ee : effective_version d ver = effective_version d' ver).
  { unfold effective_version. rewrite (so_ci _ _ HD). reflexivity. }
  rewrite Ev, Ee. destruct (version_messages d' ver); [|rewrite (so_ci _ _ HD); apply same_perm; auto]. cbv zeta.
  apply same_app; [|apply same_app; [|apply same_app; [|apply same_app; [|apply same_app;
    [|apply same_app; [|apply same_app; [|apply same_app]]]]]]].
  - rewrite (so_ci _ _ HD). apply same_perm; auto.
  - apply same_flat_map; [|apply (so_packages _ _ HD)]. intro. apply so_package.
  - apply same_perm. unfold validate_files. erewrite flat_map_ext; [apply flat_map_perm, (so_files _ _ HD)|]. intro. apply so_file.
  - apply same_perm. unfold validate_snippets. erewrite flat_map_ext; [apply flat_map_perm, (so_snippets _ _ HD)|]. intro. apply so_snippet.
  - apply same_perm. unfold validate_annotations. erewrite flat_map_ext; [apply flat_map_perm, (so_annotations _ _ HD)|]. intro. apply so_annotation.
  - apply same_perm. unfold validate_relationships. erewrite flat_map_ext; [apply flat_map_perm, (so_relationships _ _ HD)|]. intro. apply so_relationship.
  - apply same_perm. apply flat_map_perm, (so_extracted _ _ HD).
  - apply same_perm.
    rewrite (so_ci _ _ HD), (list_len1_perm _ _ (so_packages _ _ HD)), (truthy_list_perm _ _ (so_files _ _ HD)),
      (truthy_list_perm _ _ (so_snippets _ _ HD)).
    match goal with |- Permutation (when ?b _) (when ?b' _) => replace b with b'; auto end.
    f_equal. f_equal. symmetry. apply truthy_list_perm. unfold filter_by_type_and_origin, filter_by_type_and_target.
    apply Permutation_app; apply filter_perm, (so_relationships _ _ HD).
  - apply same_perm. change (get_list_of_all_spdx_ids d) with (all_ids d). change (get_list_of_all_spdx_ids d') with (all_ids d').
    rewrite (duplicates_perm _ _ all_ids_perm), (duplicates_sorted _ _ all_ids_perm), (so_ci _ _ HD). auto.
Qed.
End WithOracles.

Lemma so_valid O d d' ver : SameUpToOrder d d' ->
  (validate_full_spdx_document O d ver = [] <-> validate_full_spdx_document O d' ver = []).
Proof. intro H. apply (same_nil O). apply so_messages. exact H. Qed.
Lemma valid_unique O d ver : validate_full_spdx_document O d ver = [] -> NoDup (all_ids d).
Proof. intro H. apply validate_spec in H as (_ & _ & []). assumption. Qed.
Lemma valid_not_analyzed O d ver p :
  validate_full_spdx_document O d ver = [] -> In p (do_packages d) -> pk_files_analyzed p = false ->
  pk_verif p = None /\ pk_info p = [] /\ ~ ContainsAFile d (pk_id p).
Proof.
  intros H Hp. apply validate_spec in H as (_ & _ & W). pose proof (wf_packages _ _ _ W) as HF. rewrite Forall_forall in HF.
  apply (HF p Hp).
Qed.
Lemma resolves_file_spec id d : validate_spdx_id id d false true = [] <-> ResolvesToFile d id.
Proof. rewrite validate_spdx_id_spec. unfold ResolvesToFile. intuition discriminate. Qed.
Lemma element_id_spec id d : validate_spdx_id id d false false = [] <-> ElementId d id.
Proof. rewrite validate_spdx_id_spec. unfold ElementId. intuition discriminate. Qed.

(** ** Versions *)
Section Versions.
Variable O : oracles.

Lemma v22_23 : $"SPDX-2.3" <> $"SPDX-2.2".
Proof. discriminate. Qed.
Lemma checksum_22_iff c :
  ValidChecksum $"SPDX-2.2" c <-> ValidChecksum $"SPDX-2.3" c /\ ~ NewAlgorithm (ck_alg c).
Proof. unfold ValidChecksum. pose proof v22_23. intuition congruence. Qed.
Lemma Forall_and_iff {A} (P Q R : A -> Prop) l :
  (forall x, P x <-> Q x /\ R x) -> (Forall P l <-> Forall Q l /\ (forall x, In x l -> R x)).
Proof. intro H. rewrite !Forall_forall. firstorder. Qed.
Lemma NotIn22_22 {A} (o : option A) : NotIn22 $"SPDX-2.2" o <-> o = None.
Proof. unfold NotIn22. intuition. Qed.
Lemma NotIn22_23 {A} (o : option A) : NotIn22 $"SPDX-2.3" o.
Proof. intro H. discriminate. Qed.
Lemma Mandatory22_22 {A} (o : option A) : Mandatory22 $"SPDX-2.2" o <-> o <> None.
Proof. unfold Mandatory22. intuition. Qed.
Lemma Mandatory22_23 {A} (o : option A) : Mandatory22 $"SPDX-2.3" o.
Proof. intro H. discriminate. Qed.

Lemma package_22_iff d p :
  ValidPackage O $"SPDX-2.2" d p <->
  ValidPackage O $"SPDX-2.3" d p
  /\ ((forall c, In c (pk_checksums p) -> ~ NewAlgorithm (ck_alg c)) /\ (forall r, In r (pk_refs p) -> ~ NewRefType r)
      /\ (pk_purpose p = None /\ pk_built p = None /\ pk_release p = None /\ pk_valid_until p = None)
      /\ (pk_concluded p <> None /\ pk_declared p <> None /\ pk_copyright p <> None)).
Proof.
  assert (Hr : forall r, ValidPkgRef O $"SPDX-2.2" r <-> ValidPkgRef O $"SPDX-2.3" r /\ ~ NewRefType r).
  { intro r. unfold ValidPkgRef. pose proof v22_23. intuition congruence. }
  split.
  - intros [K1 K2 K3 K4 K5 K6 K7 K8 K9 K10 K11 K12].
    rewrite (Forall_and_iff _ _ _ _ checksum_22_iff) in K6. rewrite (Forall_and_iff _ _ _ _ Hr) in K7.
    rewrite !NotIn22_22 in K11. rewrite !Mandatory22_22 in K12.
    destruct K6, K7. split; [|tauto]. constructor; auto; auto using @NotIn22_23, @Mandatory22_23.
  - intros ([K1 K2 K3 K4 K5 K6 K7 K8 K9 K10 K11 K12] & A & B & C & D). constructor; auto.
    + rewrite (Forall_and_iff _ _ _ _ checksum_22_iff). auto.
    + rewrite (Forall_and_iff _ _ _ _ Hr). auto.
    + rewrite !NotIn22_22. auto.
    + rewrite !Mandatory22_22. auto.
Qed.
Lemma file_22_iff d f :
  ValidFile O $"SPDX-2.2" d f <->
  ValidFile O $"SPDX-2.3" d f
  /\ ((forall c, In c (fi_checksums f) -> ~ NewAlgorithm (ck_alg c))
      /\ (fi_concluded f <> None /\ fi_info f <> [] /\ fi_copyright f <> None)).
Proof.
  split.
  - intros [K1 K2 K3 K4 K5 K6 K7]. rewrite (Forall_and_iff _ _ _ _ checksum_22_iff) in K4.
    rewrite !Mandatory22_22 in K7. destruct K4, K7 as (?&?&?). split; [|auto]. constructor; auto.
    repeat split; auto using @Mandatory22_23; intro; discriminate.
  - intros ([K1 K2 K3 K4 K5 K6 K7] & A & B & C & D). constructor; auto.
    + rewrite (Forall_and_iff _ _ _ _ checksum_22_iff). auto.
    + rewrite !Mandatory22_22. auto.
Qed.
Lemma snippet_22_iff d s :
  ValidSnippet O $"SPDX-2.2" d s <->
  ValidSnippet O $"SPDX-2.3" d s /\ (sn_concluded s <> None /\ sn_copyright s <> None).
Proof.
  split.
  - intros [K1 K2 K3 K4 K5 K6 K7]. rewrite !Mandatory22_22 in K7. split; [|auto]. constructor; auto.
    auto using @Mandatory22_23.
  - intros ([K1 K2 K3 K4 K5 K6 K7] & A). constructor; auto. rewrite !Mandatory22_22. auto.
Qed.
Lemma relationship_22_iff d r :
  ValidRelationship $"SPDX-2.2" d r <->
  ValidRelationship $"SPDX-2.3" d r
  /\ (re_type r <> RT_SPECIFICATION_FOR /\ re_type r <> RT_REQUIREMENT_DESCRIPTION_FOR).
Proof. unfold ValidRelationship. pose proof v22_23. intuition congruence. Qed.
Lemma extref_22_iff r :
  ValidExtDocRef O $"SPDX-2.2" r <-> ValidExtDocRef O $"SPDX-2.3" r /\ ~ NewAlgorithm (ck_alg (edr_checksum r)).
Proof. unfold ValidExtDocRef. rewrite checksum_22_iff. tauto. Qed.
Lemma ci_22_iff c :
  ValidCreationInfo O $"SPDX-2.2" c <->
  ValidCreationInfo O $"SPDX-2.3" c /\ (forall r, In r (ci_refs c) -> ~ NewAlgorithm (ck_alg (edr_checksum r))).
Proof. unfold ValidCreationInfo. rewrite (Forall_and_iff _ _ _ _ extref_22_iff). tauto. Qed.

Lemma wf_22_iff d :
  WellFormed O $"SPDX-2.2" d <-> WellFormed O $"SPDX-2.3" d /\ UsesNo23Feature d /\ ProvidesAll22Fields d.
Proof.
  split.
  - intros [H1 H2 H3 H4 H5 H6 H7 H8 H9].
    rewrite ci_22_iff in H1. rewrite (Forall_and_iff _ _ _ _ (package_22_iff d)) in H2.
    rewrite (Forall_and_iff _ _ _ _ (file_22_iff d)) in H3. rewrite (Forall_and_iff _ _ _ _ (snippet_22_iff d)) in H4.
    rewrite (Forall_and_iff _ _ _ _ (relationship_22_iff d)) in H6.
    destruct H1 as [H1 G1], H2 as [H2 G2], H3 as [H3 G3], H4 as [H4 G4], H6 as [H6 G6].
    split; [constructor; auto|]. split; constructor; auto.
    + intros p c Hp. apply G2; auto.
    + intros f c Hf. apply G3; auto.
    + intros p r Hp. apply G2; auto.
    + intros p Hp. apply G2; auto.
    + intros p Hp. apply G2; auto.
    + intros f Hf. apply G3; auto.
  - intros ([H1 H2 H3 H4 H5 H6 H7 H8 H9] & [A1 A2 A3 A4 A5 A6] & [B1 B2 B3]). constructor; auto.
    + rewrite ci_22_iff. auto.
    + rewrite (Forall_and_iff _ _ _ _ (package_22_iff d)). split; auto. intros p Hp. repeat split; eauto; try apply B1; auto;
        try apply A5; auto.
    + rewrite (Forall_and_iff _ _ _ _ (file_22_iff d)). split; auto. intros f Hf. repeat split; eauto; try apply B2; auto.
    + rewrite (Forall_and_iff _ _ _ _ (snippet_22_iff d)). auto.
    + rewrite (Forall_and_iff _ _ _ _ (relationship_22_iff d)). auto.
Qed.
Lemma wf_with_version v w d : WellFormed O v (with_version w d) <-> WellFormed O v d.
Proof.
  split; intros [H1 H2 H3 H4 H5 H6 H7 H8 H9]; constructor; solve [assumption | exact H1 |
    eapply Forall_impl; [|exact H2]; intros x []; constructor; assumption |
    eapply Forall_impl; [|exact H3]; intros x []; constructor; assumption |
    eapply Forall_impl; [|exact H4]; intros x []; constructor; assumption ].
Qed.

Theorem valid_22_iff d :
  validate_full_spdx_document O (with_version $"SPDX-2.2" d) None = [] <->
  validate_full_spdx_document O (with_version $"SPDX-2.3" d) None = [] /\ UsesNo23Feature d /\ ProvidesAll22Fields d.
Proof.
  rewrite !validate_spec. cbn [ci_version do_ci with_version]. rewrite !wf_with_version, wf_22_iff.
  unfold SupportedVersion, VersionFits. intuition congruence.
Qed.
Lemma with_own_version d : with_version (ci_version (do_ci d)) d = d.
Proof. destruct d as [[] ? ? ? ? ? ?]. reflexivity. Qed.
Theorem valid_22_23 d :
  ci_version (do_ci d) = $"SPDX-2.2" -> validate_full_spdx_document O d None = [] ->
  validate_full_spdx_document O (with_version $"SPDX-2.3" d) None = [] /\ UsesNo23Feature d /\ ProvidesAll22Fields d.
Proof. intros Hv H. apply valid_22_iff. rewrite <- Hv, with_own_version. exact H. Qed.

(** ** Version gating *)
Theorem version_gate d ver :
  ~ (SupportedVersion (ci_version (do_ci d)) /\ VersionFits d ver) ->
  let cx := {| cx_id := Some (ci_id (do_ci d)); cx_parent := None; cx_type := VT_DOCUMENT; cx_element := VE_None |} in
  exists reason, validate_full_spdx_document O d ver = [ {| vm_text := reason; vm_ctx := cx |};
                                                         {| vm_text := CANCELLED; vm_ctx := cx |} ]
    /\ ((~ SupportedVersion (ci_version (do_ci d))
         /\ reason = $"only SPDX versions ""SPDX-2.2"" and ""SPDX-2.3"" are supported, but the document's spdx_version is: "
                     ++ ci_version (do_ci d))
        \/ (SupportedVersion (ci_version (do_ci d)) /\ exists v, ver = Some v /\ v <> ci_version (do_ci d)
            /\ reason = $"provided SPDX version " ++ v ++ $" does not match the document's SPDX version "
                        ++ ci_version (do_ci d))).
Proof.
  intros H cx. unfold validate_full_spdx_document. cbv zeta. pose proof (version_messages_spec d ver) as Hs.
  destruct (version_messages d ver) as [|m l] eqn:E; [tauto|]. clear Hs.
  unfold version_messages in E. cbv zeta in E.
  destruct (negb (str_in (ci_version (do_ci d)) [V22; V23])) eqn:E1.
  - assert (m :: l = [msg ($"only SPDX versions ""SPDX-2.2"" and ""SPDX-2.3"" are supported, but the document's spdx_version is: " ++ ci_version (do_ci d)) cx]) as ->
      by (symmetry; exact E).
    eexists. split; [reflexivity|]. left. split; [|reflexivity].
    apply negb_true_iff, str_in_false in E1. intros [K|K]; apply E1; rewrite K; cbn; auto.
  - destruct (negb (str_eqb (effective_version d ver) (ci_version (do_ci d)))) eqn:E2; [|discriminate].
    rewrite <- E. eexists. split; [reflexivity|]. right. split.
    + apply negb_false_iff, str_in_In in E1. destruct E1 as [K|[K|[]]]; [left|right]; rewrite <- K; reflexivity.
    + apply negb_true_iff in E2. unfold effective_version in *. destruct ver as [[|c v]|].
      * rewrite str_eqb_refl in E2. discriminate.
      * exists (c :: v). split; [reflexivity|]. split; [|reflexivity]. apply str_eqb_neq. exact E2.
      * rewrite str_eqb_refl in E2. discriminate.
Qed.
End Versions.

(** ** Deduplication preserves validity *)
Section DedupValid.
Variable O : oracles.
Notation leq := (o_lic_eqb O).
Notation dd := (create_document_without_duplicates leq).

Lemma ids_dd d : all_ids (dd d) = all_ids d.
Proof. unfold all_ids. cbn. rewrite !map_map. reflexivity. Qed.
Lemma ext_ids_dd d i : In i (external_ids (dd d)) <-> In i (external_ids d).
Proof.
  unfold external_ids. cbn. rewrite !in_map_iff.
  split; intros (r & E & H); exists r; (split; [auto|]).
  - apply dedup_incl in H; auto.
  - apply dedup_In; auto. apply eqb_of_eq.
Qed.
Lemma ExternalId_dd d i : ExternalId (dd d) i <-> ExternalId d i.
Proof.
  unfold ExternalId. split; intros (a & b & E & Ha & Hb & Hin); exists a, b; rewrite ext_ids_dd in *; auto.
Qed.
Lemma KnownSymbol_dd d t : KnownSymbol (dd d) t <-> KnownSymbol d t.
Proof.
  unfold KnownSymbol. cbn [create_document_without_duplicates do_extracted]. rewrite map_map. cbn [dedup_extracted el_id].
  apply or_iff_compat_l. split; intros (a & b & E & Ha & Hb & Hin); exists a, b; rewrite ext_ids_dd in *; auto.
Qed.
Lemma ValidLicense_dd d l : ValidLicense O (dd d) l <-> ValidLicense O d l.
Proof.
  unfold ValidLicense, ValidExpression. split; intros H e E; specialize (H e E); destruct H as [H1 H2]; split; auto;
    eapply Forall_impl; [|exact H1| |exact H1]; intro; apply KnownSymbol_dd.
Qed.
Lemma ValidLicenseOpt_dd d l : ValidLicenseOpt O (dd d) l <-> ValidLicenseOpt O d l.
Proof. unfold ValidLicenseOpt. split; intros H x E; apply ValidLicense_dd; auto. Qed.
Lemma fids_dd d : map fi_id (do_files (dd d)) = map fi_id (do_files d).
Proof. cbn. rewrite map_map. reflexivity. Qed.
Lemma pids_dd d : map pk_id (do_packages (dd d)) = map pk_id (do_packages d).
Proof. cbn. rewrite map_map. reflexivity. Qed.
Lemma Resolves_dd d i : Resolves (dd d) i <-> Resolves d i.
Proof. unfold Resolves. rewrite ids_dd, ExternalId_dd. reflexivity. Qed.
Lemma ElementId_dd d i : ElementId (dd d) i <-> ElementId d i.
Proof. unfold ElementId. rewrite ExternalId_dd. reflexivity. Qed.
Lemma ResolvesToFile_dd d i : ResolvesToFile (dd d) i <-> ResolvesToFile d i.
Proof. unfold ResolvesToFile. rewrite fids_dd, ExternalId_dd. reflexivity. Qed.
Lemma ContainsAFile_dd d p : ContainsAFile (dd d) p <-> ContainsAFile d p.
Proof.
  unfold ContainsAFile, IsFileId. rewrite fids_dd, pids_dd. reflexivity.
Qed.
Lemma Forall_dedup {A} (eqb : A -> A -> bool) (P : A -> Prop) l :
  Forall P l -> Forall P (create_list_without_duplicates eqb l).
Proof. rewrite !Forall_forall. intros H x Hx. apply H. eapply dedup_incl; eauto. Qed.
Lemma Forall_map' {A B} (f : A -> B) (P : B -> Prop) l : Forall P (map f l) <-> Forall (fun x => P (f x)) l.
Proof. apply Forall_map. Qed.

Lemma wf_dd v d : WellFormed O v d -> WellFormed O v (dd d).
Proof.
  intros [H1 H2 H3 H4 H5 H6 H7 H8 H9]. constructor.
  - destruct H1 as (A & B & C & D & E). cbn. repeat split; auto; try apply C; apply Forall_dedup; auto.
  - cbn [do_packages create_document_without_duplicates]. apply Forall_map'. eapply Forall_impl; [|exact H2].
    intros p [K1 K2 K3 K4 K5 K6 K7 K8 K9 K10 K11 K12]. constructor; auto; cbn.
    + apply ElementId_dd; auto.
    + intro Hf. destruct (K4 Hf) as (X & Y & Z). split; auto. split; [rewrite Y; reflexivity|]. rewrite ContainsAFile_dd; auto.
    + apply Forall_dedup; auto.
    + apply Forall_dedup; auto.
    + apply ValidLicenseOpt_dd; auto.
    + apply Forall_dedup. eapply Forall_impl; [|exact K9]. intro. apply ValidLicense_dd.
    + apply ValidLicenseOpt_dd; auto.
  - cbn [do_files create_document_without_duplicates]. apply Forall_map'. eapply Forall_impl; [|exact H3].
    intros f [K1 K2 K3 K4 K5 K6 K7]. constructor; auto; cbn.
    + apply ElementId_dd; auto.
    + destruct K3 as (c & Hc & Ec). exists c. split; auto. apply dedup_In; auto. apply eqb_of_eq.
    + apply Forall_dedup; auto.
    + apply ValidLicenseOpt_dd; auto.
    + apply Forall_dedup. eapply Forall_impl; [|exact K6]. intro. apply ValidLicense_dd.
    + destruct K7 as (X & Y & Z). repeat split; auto. intro Hv. apply dedup_nonempty; auto.
  - cbn [do_snippets create_document_without_duplicates]. apply Forall_map'. eapply Forall_impl; [|exact H4].
    intros s [K1 K2 K3 K4 K5 K6 K7]. constructor; auto; cbn.
    + apply ElementId_dd; auto.
    + apply ResolvesToFile_dd; auto.
    + apply ValidLicenseOpt_dd; auto.
    + apply Forall_dedup. eapply Forall_impl; [|exact K6]. intro. apply ValidLicense_dd.
  - cbn [do_annotations create_document_without_duplicates]. eapply Forall_impl; [|exact H5].
    intros a [X Y]. split; auto. apply Resolves_dd; auto.
  - cbn [do_relationships create_document_without_duplicates]. eapply Forall_impl; [|exact H6].
    intros r (X & Y & Z). split; [apply Resolves_dd; auto|]. split; auto. intros i E. apply Resolves_dd; auto.
  - cbn [do_extracted create_document_without_duplicates]. apply Forall_map'. eapply Forall_impl; [|exact H7].
    intros e [X Y]. split; auto. cbn. apply Forall_dedup; auto.
  - unfold DescribesSomething in *. cbn. destruct H8 as [H8|((p & Ep) & Ef & Es)]; auto. right.
    rewrite Ep, Ef, Es. split; auto. eexists. reflexivity.
  - rewrite ids_dd. auto.
Qed.

Theorem valid_dd d ver :
  validate_full_spdx_document O d ver = [] -> validate_full_spdx_document O (dd d) ver = [].
Proof.
  rewrite !validate_spec. intros (H1 & H2 & H3). split; auto. split; auto. apply wf_dd; auto.
Qed.
End DedupValid.
