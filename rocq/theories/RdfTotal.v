(** When writing a document as an RDF graph succeeds. *)
From Verif Require Import Py PyFacts Data Oracles Basics Validation Rdf RdfWriter RdfSpec RdfGraphFacts RdfWriteFacts BasicsSpec.
From Verif Require StampFacts JsonRound.

(** w succeeds, from any number of blank nodes on, if and only if P holds *)
Definition Iff (w : writer) (P : Prop) : Prop := (P -> forall n, exists r, w n = Ok r) /\ (forall n r, w n = Ok r -> P).
Lemma i_iff w P Q : Iff w P -> (P <-> Q) -> Iff w Q.
Proof. intros [H1 H2] E. split; [intro H; apply H1; tauto|]. intros n r H. apply E. exact (H2 n r H). Qed.
Lemma i_nil : Iff w_nil True.
Proof. split; [|auto]. intros _ n. eexists. reflexivity. Qed.
Lemma i_add s p o : Iff (w_add s p o) True.
Proof. split; [|auto]. intros _ n. eexists. reflexivity. Qed.
Lemma i_app a b P Q : Iff a P -> Iff b Q -> Iff (w_app a b) (P /\ Q).
Proof.
  intros [A1 A2] [B1 B2]. split.
  - intros [HP HQ] n. unfold w_app. destruct (A1 HP n) as [[x m] ->]. cbn [bind]. destruct (B1 HQ m) as [[y k] ->]. eexists. reflexivity.
  - intros n r H. unfold w_app in H. destruct (a n) as [[x m]|e] eqn:Ea; [|discriminate]. cbn [bind] in H.
    destruct (b m) as [[y k]|e] eqn:Eb; [|discriminate]. split; [exact (A2 _ _ Ea)|exact (B2 _ _ Eb)].
Qed.
Lemma i_all {A} (w : A -> writer) (P : A -> Prop) l : (forall a, Iff (w a) (P a)) -> Iff (w_all w l) (Forall P l).
Proof.
  intro H. induction l as [|a l IH]; [eapply i_iff; [apply i_nil|]; split; auto|].
  eapply i_iff; [apply (i_app _ _ _ _ (H a) IH)|]. symmetry. apply Forall_cons_iff.
Qed.
Lemma i_all_true {A} (w : A -> writer) l : (forall a, Iff (w a) True) -> Iff (w_all w l) True.
Proof. intro H. eapply i_iff; [apply i_all; exact H|]. split; [auto|]. intros _. apply Forall_forall. auto. Qed.
Lemma i_seq_nil : Iff (w_seq []) True.
Proof. exact i_nil. Qed.
Lemma i_skip a l P : Iff a True -> Iff (w_seq l) P -> Iff (w_seq (a :: l)) P.
Proof. intros H1 H2. eapply i_iff; [exact (i_app _ _ _ _ H1 H2)|]. tauto. Qed.
Lemma i_seq a l P Q : Iff a P -> Iff (w_seq l) Q -> Iff (w_seq (a :: l)) (P /\ Q).
Proof. apply i_app. Qed.
Lemma i_get {A} (r : result A) k : (forall a, Iff (k a) True) -> Iff (w_get r k) (exists a, r = Ok a).
Proof.
  intro H. split.
  - intros [a ->] n. unfold w_get. cbn [bind]. apply (proj1 (H a)). exact I.
  - intros n x E. unfold w_get in E. destruct r as [a|e]; [exists a; reflexivity|discriminate].
Qed.
Lemma i_fresh lab k P : (forall b, Iff (k b) P) -> Iff (w_fresh lab k) P.
Proof.
  intro H. split.
  - intros HP n. unfold w_fresh. apply (proj1 (H _)). exact HP.
  - intros n r E. unfold w_fresh in E. exact (proj2 (H _) _ _ E).
Qed.

(** the date can be written *)
Definition Written (d : datetime) : Prop := exists s, datetime_to_iso_string d = Ok s.
Section Total.
Variable O : oracles.
Variable lab : nat -> pystr.
Ltac i1 := match goal with
  | |- Iff w_nil _ => apply i_nil
  | |- Iff (w_seq []) _ => apply i_seq_nil
  | |- Iff (w_seq (_ :: _)) _ => apply i_skip
  | |- Iff (w_all _ _) _ => apply i_all_true; intro
  | |- Iff (w_fresh _ _) _ => apply i_fresh; intro
  | |- Iff (w_add _ _ _) _ => apply i_add
  end.
Lemma t_opt {A} (str : A -> pystr) v s p : Iff (add_optional_literal str v s p) True.
Proof. unfold add_optional_literal. destruct v; i1. Qed.
Lemma t_str v s p : Iff (add_optional_str v s p) True.
Proof. apply t_opt. Qed.
Lemma t_date v s p : Iff (add_datetime_to_graph v s p) (JsonSpec.IfSome Written v).
Proof.
  unfold add_datetime_to_graph. destruct v as [x|]; [|eapply i_iff; [apply i_nil|cbn; tauto]].
  apply i_get. intro. i1.
Qed.
Lemma t_nn v s p : Iff (add_literal_or_no_assertion_or_none v s p) True.
Proof. unfold add_literal_or_no_assertion_or_none. destruct v as [[]|]; i1. Qed.
Lemma t_na v s p : Iff (add_literal_or_no_assertion v s p) True.
Proof. unfold add_literal_or_no_assertion. destruct v as [[]|]; i1. Qed.
Lemma t_checksum x s : Iff (add_checksum_to_graph lab x s) True.
Proof. unfold add_checksum_to_graph. repeat i1. Qed.
Lemma t_expr e : forall s p ns, Iff (add_license_expression_to_graph O lab e s p ns) True.
Proof.
  induction e as [k|k x|l IH|l IH] using lexpr_all_ind; intros s p ns; cbn [add_license_expression_to_graph].
  - i1.
  - unfold add_license_exception_to_graph. destruct (on_spdx_list O x); repeat i1.
  - apply i_fresh. intro b. do 2 (apply i_skip; [i1|]). apply i_skip; [|i1]. rewrite Forall_forall in IH. clear p s.
    induction l as [|a l IHl]; [apply i_nil|]. eapply i_iff; [apply i_app; [apply IH; left; reflexivity|apply IHl; intros x Hx; apply IH; right; exact Hx]|]. tauto.
  - apply i_fresh. intro b. do 2 (apply i_skip; [i1|]). apply i_skip; [|i1]. rewrite Forall_forall in IH. clear p s.
    induction l as [|a l IHl]; [apply i_nil|]. eapply i_iff; [apply i_app; [apply IH; left; reflexivity|apply IHl; intros x Hx; apply IH; right; exact Hx]|]. tauto.
Qed.
Lemma t_license l s p ns : Iff (add_license O lab l s p ns) True.
Proof. unfold add_license. destruct l; [apply t_expr| |]; i1. Qed.
Lemma t_opt_license l s p ns : Iff (add_opt_license O lab l s p ns) True.
Proof. unfold add_opt_license. destruct l; [apply t_license|i1]. Qed.
Lemma t_licenses l s p ns : Iff (add_licenses O lab l s p ns) True.
Proof. apply i_all_true. intro. apply t_license. Qed.
Ltac i2 := match goal with
  | |- Iff (add_optional_str _ _ _) _ => apply t_str
  | |- Iff (add_optional_literal _ _ _ _) _ => apply t_opt
  | |- Iff (add_literal_or_no_assertion_or_none _ _ _) _ => apply t_nn
  | |- Iff (add_literal_or_no_assertion _ _ _) _ => apply t_na
  | |- Iff (add_checksum_to_graph _ _ _) _ => apply t_checksum
  | |- Iff (add_opt_license _ _ _ _ _ _) _ => apply t_opt_license
  | |- Iff (add_licenses _ _ _ _ _ _) _ => apply t_licenses
  | |- Iff (if ?b then _ else _) _ => destruct b
  | _ => i1
  end.
Ltac go := solve [repeat i2].
Lemma t_doc_ref r s ns : Iff (add_external_document_ref_to_graph lab r s ns) True.
Proof. unfold add_external_document_ref_to_graph. cbv zeta. go. Qed.
Ltac skips := repeat (apply i_skip; [go|]).
Ltac step := apply i_seq.
Lemma t_annotation a ns ext : Iff (add_annotation_to_graph lab a ns ext) (Written (an_date a)).
Proof.
  unfold add_annotation_to_graph. cbv zeta. apply i_fresh. intro b. skips.
  eapply i_iff; [step; [apply i_get; intro; i1|go]|]. unfold Written. tauto.
Qed.
Lemma t_file a ns ext : Iff (add_file_to_graph O lab a ns ext) True.
Proof. unfold add_file_to_graph. cbv zeta. go. Qed.
Lemma t_code v s : Iff (add_package_verification_code_to_graph lab v s) True.
Proof. unfold add_package_verification_code_to_graph. destruct v; go. Qed.
Lemma t_package_ref r s ns : Iff (add_external_package_ref_to_graph lab r s ns) True.
Proof. unfold add_external_package_ref_to_graph. go. Qed.
Lemma t_package p ns ext : Iff (add_package_to_graph O lab p ns ext)
  (JsonSpec.IfSome Written (pk_release p) /\ JsonSpec.IfSome Written (pk_built p) /\ JsonSpec.IfSome Written (pk_valid_until p)).
Proof.
  unfold add_package_to_graph. cbv zeta. skips. apply i_skip; [apply t_code|]. skips. apply i_skip; [apply i_all_true; intro; apply t_package_ref|].
  skips. apply i_skip; [destruct (pk_purpose p); go|]. 
  eapply i_iff; [step; [apply t_date|step; [apply t_date|step; [apply t_date|go]]]|]. tauto.
Qed.
Lemma t_relationship r ns ext : Iff (add_relationship_to_graph lab r ns ext) True.
Proof. unfold add_relationship_to_graph. go. Qed.
Lemma t_range r s t b : Iff (add_range_to_graph lab r s t b) (r <> None).
Proof.
  unfold add_range_to_graph. apply i_fresh. intro n. skips.
  eapply i_iff; [step; [apply i_get; intro; unfold add_pointer; go|go]|]. destruct r as [x|]; split.
  - discriminate.
  - intros _. split; [exists x; reflexivity|exact I].
  - intros [[a H] _]. discriminate.
  - congruence.
Qed.
Lemma t_snippet x ns ext : Iff (add_snippet_to_graph O lab x ns ext) (sn_lines x <> None).
Proof.
  unfold add_snippet_to_graph. cbv zeta. skips.
  eapply i_iff; [step; [apply t_range|step; [apply t_range|go]]|]. split; [tauto|]. intro H. split; [discriminate|tauto].
Qed.
Lemma t_extracted e s ns : Iff (add_extracted_licensing_info_to_graph lab e s ns) True.
Proof.
  unfold add_extracted_licensing_info_to_graph. cbv zeta. destruct (el_id e) as [[|c t]|]; go.
Qed.
Definition Writes (d : document) : Prop :=
  Written (ci_created (do_ci d)) /\ Forall (fun a => Written (an_date a)) (do_annotations d)
  /\ Forall (fun p => JsonSpec.IfSome Written (pk_release p) /\ JsonSpec.IfSome Written (pk_built p) /\ JsonSpec.IfSome Written (pk_valid_until p)) (do_packages d)
  /\ Forall (fun s => sn_lines s <> None) (do_snippets d).
Lemma t_document d : Iff (add_document_to_graph O lab d) (Writes d).
Proof.
  unfold add_document_to_graph, add_creation_info_to_graph. cbv zeta.
  eapply i_iff; [step; [skips; step; [apply i_fresh; intro b; skips; step; [apply i_get; intro; i1|go]|apply i_skip; [apply i_all_true; intro; apply t_doc_ref|i1]]|]|].
  - step; [apply i_all; intro; apply t_annotation|]. step; [apply i_all_true; intro; apply t_file|]. step; [apply i_all; intro; apply t_package|].
    step; [apply i_all_true; intro; apply t_relationship|]. step; [apply i_all; intro; apply t_snippet|]. apply i_skip; [apply i_all_true; intro; apply t_extracted|i1].
  - unfold Writes, Written. tauto.
Qed.
Lemma writes_iff d : (exists ts, write_graph O lab d = Ok ts) <-> Writes d.
Proof.
  pose proof (t_document d) as [H1 H2]. unfold write_graph. split.
  - intros [ts E]. destruct (add_document_to_graph O lab d 0) as [r|e] eqn:Ed; [|discriminate]. exact (H2 _ _ Ed).
  - intro W. destruct (H1 W 0) as [[ts n] ->]. eexists. reflexivity.
Qed.
End Total.

Lemma written_spec d : ValidDatetime d -> (Written d <-> InTime d).
Proof.
  intro V. destruct (StampFacts.Instant_total d V) as [t Ht]. split.
  - intros [s E]. exists t. split; [exact Ht|]. destruct (Z_le_gt_dec 0 t); [destruct (Z_lt_ge_dec t END_OF_TIME); [auto|]|];
      rewrite (StampFacts.stamp_overflow d t V Ht) in E by lia; discriminate.
  - intros (u & Hu & R). destruct (StampFacts.stamp_instant d u V Hu R) as (s & _ & E & _). exists s. exact E.
Qed.
Lemma all_app {A} (P : A -> Prop) l m : Forall P (l ++ m) <-> Forall P l /\ Forall P m.
Proof. apply Forall_app. Qed.
Lemma all_map {A B} (P : B -> Prop) (f : A -> B) l : Forall P (map f l) <-> Forall (fun a => P (f a)) l.
Proof. apply Forall_map. Qed.
Lemma all_flat {A B} (P : B -> Prop) (f : A -> list B) l : Forall P (flat_map f l) <-> Forall (fun a => Forall P (f a)) l.
Proof.
  induction l as [|a l IH]; cbn; [split; constructor|]. rewrite all_app, IH. split; [intros [H1 H2]; constructor; auto|].
  intro H. inversion H; auto.
Qed.
Lemma dates_all (P : datetime -> Prop) d : Forall P (dates d) <->
  P (ci_created (do_ci d)) /\ Forall (fun a => P (an_date a)) (do_annotations d)
  /\ Forall (fun p => JsonSpec.IfSome P (pk_release p) /\ JsonSpec.IfSome P (pk_built p) /\ JsonSpec.IfSome P (pk_valid_until p)) (do_packages d).
Proof.
  unfold dates. rewrite Forall_cons_iff, all_app, all_map, all_flat.
  assert (X : forall o : option datetime, Forall P match o with Some x => [x] | None => [] end <-> JsonSpec.IfSome P o).
  { intros [x|]; cbn; [|split; constructor]. split; [intro H; inversion H; auto|constructor; auto]. }
  assert (Y : forall l, Forall (fun p => Forall P (match pk_release p with Some x => [x] | None => [] end ++ match pk_built p with Some x => [x] | None => [] end
      ++ match pk_valid_until p with Some x => [x] | None => [] end)) l
    <-> Forall (fun p => JsonSpec.IfSome P (pk_release p) /\ JsonSpec.IfSome P (pk_built p) /\ JsonSpec.IfSome P (pk_valid_until p)) l).
  { intro l. split; apply Forall_impl; intros p; pose proof (X (pk_release p)); pose proof (X (pk_built p)); pose proof (X (pk_valid_until p)); rewrite !all_app; tauto. }
  rewrite Y. tauto.
Qed.
Theorem written_iff O lab d : Forall ValidDatetime (dates d) -> ((exists ts, write_graph O lab d = Ok ts) <-> Writable d).
Proof.
  intro V. rewrite writes_iff. unfold Writable.
  assert (X : Forall InTime (dates d) <-> Forall Written (dates d)).
  { rewrite Forall_forall in V. rewrite !Forall_forall. split; intros H x Hx; apply (written_spec x (V x Hx)); auto. }
  rewrite X, dates_all. unfold Writes. tauto.
Qed.
Theorem rdf_written O lab d : RdfDocument O d -> exists ts, write_graph O lab d = Ok ts.
Proof.
  intro H. apply writes_iff. assert (P : forall x, PlainDate x -> Written x) by (intros x Hx; destruct (JsonRound.plain_date_iso x Hx) as (s & _ & E & _); exists s; exact E).
  assert (Q : forall o, JsonSpec.IfSome PlainDate o -> JsonSpec.IfSome Written o) by (intros [x|]; cbn; auto).
  split; [apply P, (rc_created _ (rd_ci _ _ H))|]. split; [|split].
  - eapply Forall_impl; [|exact (rd_annotations _ _ H)]. intros a Ha. apply P, (ra_date _ _ Ha).
  - eapply Forall_impl; [|exact (rd_packages _ _ H)]. intros p Hp. split; [|split]; apply Q; apply Hp.
  - eapply Forall_impl; [|exact (rd_snippets _ _ H)]. intros s Hs. destruct (rs_lines _ _ _ Hs) as (r & -> & _). discriminate.
Qed.
