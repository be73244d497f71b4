(** The nodes of license expressions in a written graph. *)
From Verif Require Import Py PyFacts Data Oracles Basics BasicsFacts JsonErrors JsonRead Rdf RdfWriter RdfSpec RdfReadSpec RdfWriteFacts.

Section Depict.
Variable O : oracles.
Variable lab : nat -> pystr.
Variable ns : pystr.
Lemma forall_impl_in {A} (P Q : A -> Prop) l : Forall (fun a => P a -> Q a) l -> Forall P l -> Forall Q l.
Proof. induction 1 as [|a l H _ IH]; intro F; inversion F; subst; constructor; auto. Qed.
Lemma depicts_more G G' : (forall t, In t G -> In t G') -> forall e v, Depicts O ns G v e -> Depicts O ns G' v e.
Proof.
  intros I e. induction e as [k|k x|l IH|l IH] using lexpr_all_ind; intros v H; inversion H; subst.
  - constructor. assumption.
  - eapply De_with; eauto. match goal with X : ExceptionNode _ _ _ _ |- _ => destruct X as [X|(N & B & X)]; [left; exact X|right; auto] end.
  - apply De_and; auto. match goal with F : Forall _ l |- _ => revert F; apply forall_impl_in end. eapply Forall_impl; [|exact IH]. cbv beta. intros a Ha (m & M & D). eauto.
  - apply De_or; auto. match goal with F : Forall _ l |- _ => revert F; apply forall_impl_in end. eapply Forall_impl; [|exact IH]. cbv beta. intros a Ha (m & M & D). eauto.
Qed.
Lemma app_written a b n ts k : w_app a b n = Ok (ts, k) -> exists x y j, a n = Ok (x, j) /\ b j = Ok (y, k) /\ ts = x ++ y.
Proof. unfold w_app. intro H. apply bind_ok in H as ([x j] & H1 & H). apply bind_ok in H as ([y k'] & H2 & H). injection H as <- <-. eauto 6. Qed.
Lemma listed_iff key : on_spdx_list O key = true <-> Listed O key.
Proof. unfold on_spdx_list, Listed. destruct (o_invalid_symbols O (LSym key)); cbn; split; try discriminate; auto. Qed.
Lemma license_node key : LicenseNode O ns (license_symbol_node O key ns) key.
Proof.
  unfold license_symbol_node. destruct (on_spdx_list O key) eqn:E; [left|right]; (split; [|reflexivity]).
  - apply listed_iff. exact E.
  - intro H. apply listed_iff in H. congruence.
Qed.
Lemma members_written (f : lexpr -> writer) G0 m : forall l n ts k, w_all f l n = Ok (ts, k) ->
  Forall (fun e => forall n ts k, f e n = Ok (ts, k) -> exists v, In (m, term "member", v) ts /\ Depicts O ns ts v e) l ->
  (forall t, In t ts -> In t G0) -> Forall (fun e => exists v, In (m, term "member", v) G0 /\ Depicts O ns G0 v e) l.
Proof.
  induction l as [|e l IH]; intros n ts k H F I; [constructor|]. cbn [w_all fold_right] in H. apply app_written in H as (x & y & j & H1 & H2 & ->). inversion F as [|? ? F1 F2]; subst.
  constructor.
  - destruct (F1 _ _ _ H1) as (v & V & D). exists v. split; [apply I, in_or_app; auto|]. revert D. apply depicts_more. intros t Ht. apply I, in_or_app. auto.
  - eapply IH; [exact H2|exact F2|]. intros t Ht. apply I, in_or_app. auto.
Qed.
Lemma expression_depicted e : forall par p n ts k, add_license_expression_to_graph O lab e par p ns n = Ok (ts, k) ->
  exists v, In (par, p, v) ts /\ Depicts O ns ts v e.
Proof.
  assert (S1 : forall (l : list lexpr) (class : string) par p n ts k,
    Forall (fun e => forall par p n ts k, add_license_expression_to_graph O lab e par p ns n = Ok (ts, k) -> exists v, In (par, p, v) ts /\ Depicts O ns ts v e) l ->
    w_fresh lab (fun m => w_seq [w_add m RDF_type (NUri (spdx class)); w_add par p m; w_all (fun a => add_license_expression_to_graph O lab a m (spdx "member") ns) l]) n = Ok (ts, k) ->
    exists v, In (par, p, v) ts /\ In (v, is_a, NUri (term class)) ts /\ Forall (fun e => exists m, In (v, term "member", m) ts /\ Depicts O ns ts m e) l).
  { intros l class par p n ts k IH H. unfold w_fresh in H. exists (NBlank (lab n)). unfold w_seq at 1 in H. cbn [w_all fold_right] in H.
    apply app_written in H as (x1 & y1 & j1 & H1 & H & ->). apply app_written in H as (x2 & y2 & j2 & H2 & H & ->). apply app_written in H as (x3 & y3 & j3 & H3 & H4 & ->).
    injection H1 as <- <-. injection H2 as <- <-. split; [right; left; reflexivity|]. split; [left; reflexivity|].
    eapply members_written; [exact H3| |].
    - eapply Forall_impl; [|exact IH]. cbv beta. intros a Ha n' ts' k' W. exact (Ha _ _ _ _ _ W).
    - intros t Ht. apply in_or_app; right; apply in_or_app; right; apply in_or_app; left. exact Ht. }
  induction e as [key|key exc|l IH|l IH] using lexpr_all_ind; intros par p n ts k H; cbn [add_license_expression_to_graph] in H.
  - injection H as <- <-. eexists. split; [left; reflexivity|]. constructor. apply license_node.
  - unfold w_fresh in H. unfold w_seq in H. cbn [w_all fold_right] in H.
    apply app_written in H as (x1 & y1 & j1 & H1 & H & ->). apply app_written in H as (x2 & y2 & j2 & H2 & H & ->). apply app_written in H as (x3 & y3 & j3 & H3 & H & ->).
    apply app_written in H as (x4 & y4 & j4 & H4 & H5 & ->). injection H1 as <- <-. injection H2 as <- <-. injection H3 as <- <-.
    exists (NBlank (lab n)). split; [right; left; reflexivity|].
    assert (X : exists x, In (NBlank (lab n), term "licenseException", x) x4 /\ In (x, is_a, NUri (term "LicenseException")) x4 /\ ExceptionNode O x4 x exc).
    { unfold add_license_exception_to_graph in H4. destruct (on_spdx_list O exc) eqn:E.
      - unfold w_seq in H4. cbn [w_all fold_right] in H4. unfold w_app, w_add, w_nil in H4. cbn [bind app] in H4. injection H4 as <- <-.
        eexists. split; [left; reflexivity|]. split; [right; left; reflexivity|]. left. split; [apply listed_iff; exact E|reflexivity].
      - unfold w_fresh, w_seq in H4. cbn [w_all fold_right] in H4. unfold w_app, w_add, w_nil in H4. cbn [bind app] in H4. injection H4 as <- <-.
        eexists. split; [right; left; reflexivity|]. split; [right; right; left; reflexivity|]. right. split; [intro L1; apply listed_iff in L1; congruence|].
        split; [eauto|]. left. reflexivity. }
    destruct X as (x & X1 & X2 & X3).
    assert (I : forall t, In t x4 -> In t ([(NBlank (lab n), RDF_type, NUri (spdx "WithExceptionOperator"))] ++ [(par, p, NBlank (lab n))] ++ [(NBlank (lab n), spdx "member", license_symbol_node O key ns)] ++ x4 ++ y4)).
    { intros t Ht. do 3 (apply in_or_app; right). apply in_or_app; left. exact Ht. }
    eapply De_with; [left; reflexivity|right; right; left; reflexivity|apply license_node|apply I; exact X1|apply I; exact X2|].
    destruct X3 as [X3|(N & B & X3)]; [left; exact X3|right]. split; [exact N|]. split; [exact B|]. apply I. exact X3.
  - destruct (S1 l "ConjunctiveLicenseSet"%string _ _ _ _ _ IH H) as (v & V & T & F). exists v. split; [exact V|]. apply De_and; assumption.
  - destruct (S1 l "DisjunctiveLicenseSet"%string _ _ _ _ _ IH H) as (v & V & T & F). exists v. split; [exact V|]. apply De_or; assumption.
Qed.
End Depict.
