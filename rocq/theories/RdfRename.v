(** The triples written do not depend on the labels of blank nodes, up to renaming. *)
From Verif Require Import Py PyFacts Data Oracles Basics Validation Rdf RdfWriter RdfSpec RdfGraphFacts RdfWriteFacts.

Section Rename.
Variable f : pystr -> pystr.
Definition Nat (w w' : writer) : Prop :=
  forall n, w' n = match w n with Ok (ts, m) => Ok (map (rename f) ts, m) | Raise e => Raise e end.
Lemma nat_nil : Nat w_nil w_nil.
Proof. intro n. reflexivity. Qed.
Lemma nat_app a a' b b' : Nat a a' -> Nat b b' -> Nat (w_app a b) (w_app a' b').
Proof.
  intros H1 H2 n. unfold w_app. rewrite H1. destruct (a n) as [[x m]|e]; [|reflexivity]. cbn [bind]. rewrite H2.
  destruct (b m) as [[y k]|e]; [|reflexivity]. cbn [bind]. rewrite map_app. reflexivity.
Qed.
Lemma nat_all {A} (w w' : A -> writer) l : (forall a, Nat (w a) (w' a)) -> Nat (w_all w l) (w_all w' l).
Proof. intro H. induction l as [|a l IH]; [apply nat_nil|]. apply nat_app; [apply H|exact IH]. Qed.
Lemma nat_seq_nil : Nat (w_seq []) (w_seq []).
Proof. apply nat_nil. Qed.
Lemma nat_seq_cons a a' l l' : Nat a a' -> Nat (w_seq l) (w_seq l') -> Nat (w_seq (a :: l)) (w_seq (a' :: l')).
Proof. apply nat_app. Qed.
Lemma nat_add s s' p o o' : rename_node f s = s' -> rename_node f o = o' -> Nat (w_add s p o) (w_add s' p o').
Proof. intros <- <- n. reflexivity. Qed.
Lemma nat_get {A} (r : result A) k k' : (forall a, Nat (k a) (k' a)) -> Nat (w_get r k) (w_get r k').
Proof. intros H n. unfold w_get. destruct r; [|reflexivity]. cbn [bind]. apply H. Qed.
Lemma nat_fresh lab k k' : (forall n, Nat (k (NBlank (lab n))) (k' (NBlank (f (lab n))))) -> Nat (w_fresh lab k) (w_fresh (fun n => f (lab n)) k').
Proof. intros H n. unfold w_fresh. apply H. Qed.
Variable O : oracles.
Variable lab : nat -> pystr.
Notation lab' := (fun n => f (lab n)).
Ltac nat1 := match goal with
  | |- Nat w_nil _ => apply nat_nil
  | |- Nat (w_seq []) _ => apply nat_seq_nil
  | |- Nat (w_seq (_ :: _)) _ => apply nat_seq_cons
  | |- Nat (w_all _ _) _ => apply nat_all; intro
  | |- Nat (w_get _ _) _ => apply nat_get; intro
  | |- Nat (w_fresh _ _) _ => apply nat_fresh; intro
  | |- Nat (w_add _ _ _) _ => apply nat_add; [reflexivity|try reflexivity]
  end.
Lemma n_opt {A} (str : A -> pystr) v s s' p : rename_node f s = s' -> Nat (add_optional_literal str v s p) (add_optional_literal str v s' p).
Proof. intros <-. destruct v; unfold add_optional_literal, add_datetime_to_graph, add_literal_or_no_assertion_or_none, add_literal_or_no_assertion, add_license; repeat nat1. Qed.
Lemma n_str v s s' p : rename_node f s = s' -> Nat (add_optional_str v s p) (add_optional_str v s' p).
Proof. apply n_opt. Qed.
Lemma n_date v s s' p : rename_node f s = s' -> Nat (add_datetime_to_graph v s p) (add_datetime_to_graph v s' p).
Proof. intros <-. destruct v; unfold add_optional_literal, add_datetime_to_graph, add_literal_or_no_assertion_or_none, add_literal_or_no_assertion, add_license; repeat nat1. Qed.
Lemma n_nn v s s' p : rename_node f s = s' -> Nat (add_literal_or_no_assertion_or_none v s p) (add_literal_or_no_assertion_or_none v s' p).
Proof. intros <-. destruct v as [[]|]; unfold add_optional_literal, add_datetime_to_graph, add_literal_or_no_assertion_or_none, add_literal_or_no_assertion, add_license; repeat nat1. Qed.
Lemma n_na v s s' p : rename_node f s = s' -> Nat (add_literal_or_no_assertion v s p) (add_literal_or_no_assertion v s' p).
Proof. intros <-. destruct v as [[]|]; unfold add_optional_literal, add_datetime_to_graph, add_literal_or_no_assertion_or_none, add_literal_or_no_assertion, add_license; repeat nat1. Qed.
Lemma n_checksum x s s' : rename_node f s = s' -> Nat (add_checksum_to_graph lab x s) (add_checksum_to_graph lab' x s').
Proof. intros <-. unfold add_checksum_to_graph. repeat nat1. Qed.
Lemma symbol_same k ns : rename_node f (license_symbol_node O k ns) = license_symbol_node O k ns.
Proof. unfold license_symbol_node. destruct (on_spdx_list O k); reflexivity. Qed.
Lemma n_expr e : forall s s' p ns, rename_node f s = s' ->
  Nat (add_license_expression_to_graph O lab e s p ns) (add_license_expression_to_graph O lab' e s' p ns).
Proof.
  induction e as [k|k x|l IH|l IH] using lexpr_all_ind; intros s s' p ns <-; cbn [add_license_expression_to_graph].
  - apply nat_add; [reflexivity|apply symbol_same].
  - repeat nat1; [apply symbol_same|]. unfold add_license_exception_to_graph. destruct (on_spdx_list O x); repeat nat1.
  - apply nat_fresh. intro n. do 2 (apply nat_seq_cons; [apply nat_add; reflexivity|]). apply nat_seq_cons; [|apply nat_seq_nil].
    rewrite Forall_forall in IH. clear p s. induction l as [|a l IHl]; [apply nat_nil|]. apply nat_app.
    + apply IH; [left|]; reflexivity.
    + apply IHl. intros x Hx. apply IH. right. exact Hx.
  - apply nat_fresh. intro n. do 2 (apply nat_seq_cons; [apply nat_add; reflexivity|]). apply nat_seq_cons; [|apply nat_seq_nil].
    rewrite Forall_forall in IH. clear p s. induction l as [|a l IHl]; [apply nat_nil|]. apply nat_app.
    + apply IH; [left|]; reflexivity.
    + apply IHl. intros x Hx. apply IH. right. exact Hx.
Qed.
Lemma n_license l s s' p ns : rename_node f s = s' -> Nat (add_license O lab l s p ns) (add_license O lab' l s' p ns).
Proof. intros <-. destruct l; [apply n_expr; reflexivity| |]; unfold add_optional_literal, add_datetime_to_graph, add_literal_or_no_assertion_or_none, add_literal_or_no_assertion, add_license; repeat nat1. Qed.
Lemma n_opt_license l s s' p ns : rename_node f s = s' -> Nat (add_opt_license O lab l s p ns) (add_opt_license O lab' l s' p ns).
Proof. intros <-. destruct l; [apply n_license; reflexivity|apply nat_nil]. Qed.
Lemma n_licenses l s s' p ns : rename_node f s = s' -> Nat (add_licenses O lab l s p ns) (add_licenses O lab' l s' p ns).
Proof. intros <-. apply nat_all. intro a. apply n_license. reflexivity. Qed.
Ltac nat2 := match goal with
  | |- Nat (add_optional_str _ _ _) _ => apply n_str; reflexivity
  | |- Nat (add_optional_literal _ _ _ _) _ => apply n_opt; reflexivity
  | |- Nat (add_datetime_to_graph _ _ _) _ => apply n_date; reflexivity
  | |- Nat (add_literal_or_no_assertion_or_none _ _ _) _ => apply n_nn; reflexivity
  | |- Nat (add_literal_or_no_assertion _ _ _) _ => apply n_na; reflexivity
  | |- Nat (add_checksum_to_graph _ _ _) _ => apply n_checksum; reflexivity
  | |- Nat (add_opt_license _ _ _ _ _ _) _ => apply n_opt_license; reflexivity
  | |- Nat (add_licenses _ _ _ _ _ _) _ => apply n_licenses; reflexivity
  | _ => nat1
  end.
Lemma n_doc_ref r s ns : Nat (add_external_document_ref_to_graph lab r (NUri s) ns) (add_external_document_ref_to_graph lab' r (NUri s) ns).
Proof. unfold add_external_document_ref_to_graph. repeat nat2. Qed.
Lemma n_annotation a ns ext : Nat (add_annotation_to_graph lab a ns ext) (add_annotation_to_graph lab' a ns ext).
Proof. unfold add_annotation_to_graph. repeat nat2. Qed.
Lemma n_file a ns ext : Nat (add_file_to_graph O lab a ns ext) (add_file_to_graph O lab' a ns ext).
Proof. unfold add_file_to_graph. repeat nat2. Qed.
Lemma n_code v s : Nat (add_package_verification_code_to_graph lab v (NUri s)) (add_package_verification_code_to_graph lab' v (NUri s)).
Proof. destruct v; cbn [add_package_verification_code_to_graph]; repeat nat2. Qed.
Lemma n_package_ref r s ns : Nat (add_external_package_ref_to_graph lab r (NUri s) ns) (add_external_package_ref_to_graph lab' r (NUri s) ns).
Proof.
  unfold add_external_package_ref_to_graph. repeat nat2.
  - unfold reference_type_node. destruct (str_in (er_type r) (category_types (er_category r))); reflexivity.
  - destruct (truthy_opt (er_comment r)); repeat nat2.
Qed.
Ltac nat3 := match goal with
  | |- Nat (add_package_verification_code_to_graph _ _ _) _ => apply n_code
  | |- Nat (add_external_package_ref_to_graph _ _ _ _) _ => apply n_package_ref
  | _ => nat2
  end.
Lemma n_package p ns ext : Nat (add_package_to_graph O lab p ns ext) (add_package_to_graph O lab' p ns ext).
Proof.
  unfold add_package_to_graph. repeat nat3. destruct (pk_purpose p); repeat nat2.
Qed.
Lemma n_relationship r ns ext : Nat (add_relationship_to_graph lab r ns ext) (add_relationship_to_graph lab' r ns ext).
Proof.
  unfold add_relationship_to_graph. repeat nat2.
  - destruct (re_related r); reflexivity.
  - destruct (truthy_opt (re_comment r)); repeat nat2.
Qed.
Lemma n_range r s t b : Nat (add_range_to_graph lab r (NUri s) (NUri t) b) (add_range_to_graph lab' r (NUri s) (NUri t) b).
Proof. unfold add_range_to_graph, add_pointer. repeat nat2. Qed.
Ltac nat3 ::= match goal with
  | |- Nat (add_range_to_graph _ _ _ _ _) _ => apply n_range
  | _ => nat2
  end.
Lemma n_snippet x ns ext : Nat (add_snippet_to_graph O lab x ns ext) (add_snippet_to_graph O lab' x ns ext).
Proof. unfold add_snippet_to_graph. repeat nat3. Qed.
Lemma n_extracted e s ns : Nat (add_extracted_licensing_info_to_graph lab e (NUri s) ns) (add_extracted_licensing_info_to_graph lab' e (NUri s) ns).
Proof.
  unfold add_extracted_licensing_info_to_graph. destruct (el_id e) as [[|c t]|]; repeat nat2.
Qed.
Ltac nat3 ::= match goal with
  | |- Nat (add_external_document_ref_to_graph _ _ _ _) _ => apply n_doc_ref
  | |- Nat (add_annotation_to_graph _ _ _ _) _ => apply n_annotation
  | |- Nat (add_file_to_graph _ _ _ _ _) _ => apply n_file
  | |- Nat (add_package_to_graph _ _ _ _ _) _ => apply n_package
  | |- Nat (add_relationship_to_graph _ _ _ _) _ => apply n_relationship
  | |- Nat (add_snippet_to_graph _ _ _ _ _) _ => apply n_snippet
  | |- Nat (add_extracted_licensing_info_to_graph _ _ _ _) _ => apply n_extracted
  | _ => nat2
  end.
Theorem document_rename d : Nat (add_document_to_graph O lab d) (add_document_to_graph O lab' d).
Proof.
  unfold add_document_to_graph, add_creation_info_to_graph, doc_node_of. cbv zeta.
  repeat nat3.
Qed.
End Rename.
