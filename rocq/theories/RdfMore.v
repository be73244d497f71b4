(** Reading back single ids and license expressions. *)
From Verif Require Import Py PyFacts Data Oracles Basics Validation ValidationSpec Rdf RdfWriter RdfParser RdfSpec RdfGraphFacts RdfWriteFacts RdfElemFacts
  RdfReadFacts RdfRename.
From Verif Require RdfTotal LocatorFacts.

(** ** Ids *)
Lemma internal_back L bound ns ext id : RdfId id -> r_fragment L (ns ++ $"#" ++ id) = Ok id ->
  parse_spdx_id L bound (Some (NUri (add_namespace_to_spdx_id id ns ext))) ns = Ok (Some id).
Proof.
  intros H E. rewrite add_namespace_internal by exact H. unfold parse_spdx_id. rewrite uri_truthy by apply hash_nonempty.
  cbn [negb node_str]. rewrite app_assoc, startswith_app, <- app_assoc. cbn [fragment_of]. rewrite E. reflexivity.
Qed.
Lemma external_back L bound ns refs r b : ~ In #"#" ns -> Forall (RdfDocRef ns) refs -> NoDup (map edr_id refs) -> In r refs -> RdfId b ->
  r_normalize L bound (edr_uri r ++ $"#" ++ b) = edr_id r ++ $":" ++ b ->
  parse_spdx_id L bound (Some (NUri (add_namespace_to_spdx_id (edr_id r ++ $":" ++ b) ns (external_doc_ref_to_namespace refs)))) ns
  = Ok (Some (edr_id r ++ $":" ++ b)).
Proof.
  intros Hn Hrefs Hd Hr Hb E. pose proof Hrefs as Hrefs'. rewrite Forall_forall in Hrefs'. specialize (Hrefs' r Hr).
  rewrite (add_namespace_external r b); [|apply (docref_not _ (rx_id _ _ Hrefs'))|exact Hb|apply (ext_assoc refs Hd r Hr)].
  unfold parse_spdx_id. rewrite uri_truthy by apply hash_nonempty. cbn [negb node_str]. rewrite startswith_false.
  - rewrite (proj2 (has_char_In _ _) (in_hash (edr_uri r) b)), E. reflexivity.
  - intros t Et. rewrite <- app_assoc in Et. apply hash_inj in Et; [|exact (rx_hash _ _ Hrefs')|exact Hn]. destruct Et as [Et _].
    exact (rx_other _ _ Hrefs' Et).
Qed.
Lemma unlisted_back L bound ns ext id : id <> [] -> ~ In #"#" id -> ~ InternalId id ->
  (forall a b, id = a ++ $":" ++ b -> ~ In #":" a -> assoc a ext = None) ->
  parse_spdx_id L bound (Some (NUri (add_namespace_to_spdx_id id ns ext))) ns = Ok (Some id).
Proof.
  intros H1 H2 H3 H4. replace (add_namespace_to_spdx_id id ns ext) with id.
  - unfold parse_spdx_id. rewrite uri_truthy by exact H1. cbn [negb node_str]. rewrite startswith_false.
    + rewrite (proj2 (has_char_false _ _) H2). cbn [py_text node_str]. destruct id; [congruence|reflexivity].
    + intros t E. apply H2. rewrite E, <- app_assoc. apply in_hash.
  - unfold add_namespace_to_spdx_id. destruct (has_char #":" id) eqn:C.
    + apply has_char_In in C. destruct (split_on #":" id) as [|a [|b l]] eqn:E; try reflexivity.
      rewrite (H4 a (join $":" (b :: l))); [reflexivity| |].
      * pose proof (PyFacts.join_split #":" id) as J. rewrite E in J. symmetry. exact J.
      * pose proof (PyFacts.split_on_parts #":" id) as J. rewrite E in J. inversion J. assumption.
    + destruct (is_valid_internal_spdx_id id) eqn:V; [|reflexivity]. exfalso. apply H3. apply LocatorFacts.internal_id_spec. exact V.
Qed.

(** ** License expressions *)
Theorem expression_back O L lab ns e x p n : LicenseGrammar O -> RdfNamespace ns -> RdfLibrary L ns -> Dnf O e ->
  In p [spdx "licenseConcluded"; spdx "licenseDeclared"; spdx "licenseInfoFromFiles"; spdx "licenseInfoInFile"; spdx "licenseInfoInSnippet"] ->
  forall ts n', add_license_expression_to_graph O lab e (NUri (ns ++ $"#" ++ x)) p ns n = Ok (ts, n') ->
  forall g, SameGraph lab ts g ->
  exists v e', objects g (NUri (ns ++ $"#" ++ x)) p = [v] /\ parse_license O L g ns v = Ok (Some e') /\ SameExpr e e'.
Proof.
  intros HG HN HL HD Hp ts n' E g (ND & f & HLab & HE).
  assert (Sp : forall o, special (NUri (ns ++ $"#" ++ x), p, o) = false).
  { intro o. repeat destruct Hp as [<-|Hp]; try reflexivity. destruct Hp. }
  pose proof (writes_expr O (fun n => f (lab n)) (proj1 HLab) ns e (dnf_wf O e HD) (NUri (ns ++ $"#" ++ x)) p Sp n) as W.
  destruct W as (ts' & m & E' & _ & _ & _ & _ & K); [apply hash_good, in_hash|].
  pose proof (n_expr f O lab e (NUri (ns ++ $"#" ++ x)) _ p ns eq_refl n) as R. cbn [rename_node] in R. rewrite E, E' in R.
  assert (ts' = map (rename f) ts) by congruence. subst ts'.
  pose proof (reads_same g (map (rename f) ts) ND HE) as HR.
  destruct (K (objects (map (rename f) ts))) as (v & Ev & Av); [intros k q _; reflexivity|].
  destruct (license_expr O HG L (fun n => f (lab n)) HLab ns HN HL g (objects (map (rename f) ts)) HR e v HD Av) as (e' & P1 & P2).
  exists v, e'. split; [exact (reads_one _ _ _ _ _ HR Ev)|]. split; assumption.
Qed.
Lemma expression_written O lab e : forall par p ns n, exists ts n', add_license_expression_to_graph O lab e par p ns n = Ok (ts, n').
Proof.
  intros par p ns. pose proof (RdfTotal.t_expr O lab e par p ns) as [H _]. intro n. destruct (H I n) as [[ts n'] E]. eauto.
Qed.

Lemma holds_and v l : Holds v (LAnd l) <-> Forall (Holds v) l.
Proof. induction l as [|a l IH]; cbn; [split; constructor|]. rewrite Forall_cons_iff, <- IH. reflexivity. Qed.
Lemma holds_or v l : Holds v (LOr l) <-> Exists (Holds v) l.
Proof. induction l as [|a l IH]; cbn; [split; [intros []|intro H; inversion H]|]. rewrite Exists_cons, <- IH. reflexivity. Qed.
Theorem same_holds v e : forall e', SameExpr e e' -> (Holds v e <-> Holds v e').
Proof.
  induction e as [k|k x|l IH|l IH] using lexpr_all_ind; intros e' S0; inversion S0 as [| |l0 l' m F P|l0 l' m F P]; subst; try reflexivity.
  - rewrite !holds_and.
    assert (Q : Forall (Holds v) l' <-> Forall (Holds v) m).
    { split; [apply Permutation_Forall; exact P|apply Permutation_Forall; symmetry; exact P]. }
    rewrite <- Q. clear P Q S0. revert IH. induction F as [|a b l l' H F IHF]; intro IH; [split; constructor|].
    inversion IH; subst. rewrite !Forall_cons_iff. rewrite IHF by assumption. rewrite (H2 b H). reflexivity.
  - rewrite !holds_or.
    assert (Q : Exists (Holds v) l' <-> Exists (Holds v) m).
    { split; [apply Permutation_Exists; exact P|apply Permutation_Exists; symmetry; exact P]. }
    rewrite <- Q. clear P Q S0. revert IH. induction F as [|a b l l' H F IHF]; intro IH; [split; intro X; inversion X|].
    inversion IH; subst. rewrite !Exists_cons. rewrite IHF by assumption. rewrite (H2 b H). reflexivity.
Qed.
