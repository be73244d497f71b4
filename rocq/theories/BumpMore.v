(** End points of converted relationships, and checks on concrete payloads. *)
From Verif Require Import Py Data Oracles DocUtils Payload Bump BumpSpec PyFacts DocUtilsFacts BumpFacts BumpMerge BumpGroups BumpRels BumpDoc BumpPhases BumpFinal Samples.

(** the ids that a relationship of SPDX 2 mentions *)
Definition ends (r : relationship) : list pystr := re_id r :: match re_related r with NVal b => [b] | _ => [] end.

Lemma bump_ends r ns i x t : bump_relationship r ns i = Some x -> In t (r3_from x :: r3_to x) -> exists e, In e (ends r) /\ t = here ns e.
Proof.
  unfold bump_relationship, ends. destruct (relationship_mapping (re_type r)) as [p|]; [|destruct (determine_completeness_and_to (re_related r)); discriminate].
  destruct (re_related r) as [b| |]; cbn [determine_completeness_and_to].
  - destruct (rp_swap p); intro E; injection E as <-; cbn [r3_from r3_to map].
    + destruct (rp_dependency p); intros [<-|[<-|[]]]; eexists; (split; [|reflexivity]); cbn; auto.
    + destruct (rp_dependency p); intros [<-|[<-|[]]]; eexists; (split; [|reflexivity]); cbn; auto.
  - destruct (rp_swap p); intro E; [discriminate|]; injection E as <-; cbn [r3_from r3_to map].
    destruct (rp_dependency p); intros [<-|[]]; eexists; (split; [|reflexivity]); cbn; auto.
  - destruct (rp_swap p); intro E; [discriminate|]; injection E as <-; cbn [r3_from r3_to map].
    destruct (rp_dependency p); intros [<-|[]]; eexists; (split; [|reflexivity]); cbn; auto.
Qed.
Lemma converted_in ns rs : forall c x, In x (converted_from ns c rs) -> exists r i, In r rs /\ bump_relationship r ns i = Some x.
Proof.
  induction rs as [|r rs IH]; intros c x H; [destruct H|]. cbn [converted_from] in H. apply in_app_iff in H as [H|H].
  - destruct (bump_relationship r ns c) as [y|] eqn:E; [|destruct H]. destruct H as [<-|[]]. exists r, c. split; [left; reflexivity|exact E].
  - destruct (IH _ _ H) as (r' & i & Hr & E). exists r', i. split; [right; exact Hr|exact E].
Qed.
Lemma converted_nth ns rs c j r : nth_error rs j = Some r -> forall x, bump_relationship r ns (c + j) = Some x -> In x (converted_from ns c rs).
Proof.
  revert c j. induction rs as [|r' rs IH]; intros c [|j] E x Hx; cbn in E; try discriminate; cbn [converted_from]; apply in_app_iff.
  - injection E as ->. left. rewrite Nat.add_0_r in Hx. rewrite Hx. left; reflexivity.
  - right. apply (IH (S c) j E). replace (S c + j) with (c + S j) by lia. exact Hx.
Qed.

Section Ends.
  Variables (d : document) (st : bstate) (doc : nat).
  Hypothesis H : bump_spdx_document d = Ok (st, doc).
  Let ns := ci_namespace (do_ci d).

  Lemma doc_id_there : exists e, get_element st (document_id d) = Ok e.
  Proof.
    phases H. apply keys_get; [exact (ph_wfE _ _ _ _ _ _ _ _ _ _ _ Ph)|]. rewrite (ph_keysE _ _ _ _ _ _ _ _ _ _ _ Ph).
    apply (steps_keys _ _ _ _ (ph_annotations _ _ _ _ _ _ _ _ _ _ _ Ph)). left. rewrite (ph_rels _ _ _ _ _ _ _ _ _ _ _ Ph). apply relationships_keys.
    apply (steps_keys _ _ _ _ (ph_elements _ _ _ _ _ _ _ _ _ _ _ Ph)). left. apply assoc_keys. eexists. exact (ph_docmap _ _ _ _ _ _ _ _ _ _ _ Ph).
  Qed.
  Lemma id_there i : In i (ci_id (do_ci d) :: element_ids d) -> ~ In #":" i -> exists e, get_element st (here ns i) = Ok e.
  Proof.
    intros [<-|Hi] Nc; [exact doc_id_there|]. destruct (ids_there _ _ _ H) as (ids & F & G).
    destruct (Forall2_in_l _ _ _ _ F Hi) as (full & Hf & E). rewrite full_id_internal in E by exact Nc. injection E as E. rewrite <- E in Hf.
    exact (G _ Hf).
  Qed.
  Lemma end_points_there :
    (forall r e, In r (do_relationships d) -> In e (ends r) -> In e (ci_id (do_ci d) :: element_ids d) /\ ~ In #":" e) ->
    forall i m t, get_element st i = Ok (E3Relationship m) -> In t (r3_from m :: r3_to m) -> exists e, get_element st t = Ok e.
  Proof.
    intros He i m t G Ht. destruct (doc_nothing_invented _ _ _ H _ _ G) as [(x & Hx & Sx) Ts].
    assert (Y : exists y, In y (converted d) /\ In t (r3_from y :: r3_to y)).
    { destruct Ht as [<-|Ht]; [exists x; split; [exact Hx|left; exact (proj1 Sx)]|].
      destruct (Ts t Ht) as (y & Hy & _ & Hty). exists y. split; [exact Hy|right; exact Hty]. }
    destruct Y as (y & Hy & Hty). destruct (converted_in _ _ _ _ Hy) as (r & j & Hr & E).
    destruct (bump_ends _ _ _ _ _ E Hty) as (e & Hin & ->). destruct (He r e Hr Hin) as [H1 H2]. exact (id_there e H1 H2).
  Qed.
End Ends.

Lemma internal_convertible d : (forall i, In i (element_ids d) -> ~ In #":" i) ->
  (forall p, In p (do_packages d) -> pk_homepage p <> Some NNone /\ pk_homepage p <> Some NNoAssertion) ->
  exists st doc, bump_spdx_document d = Ok (st, doc).
Proof.
  intros Hi Hh. apply bump_ok. split; [|exact Hh]. intros i Hin. eexists. apply full_id_internal. exact (Hi i Hin).
Qed.

(** * Concrete payloads *)
Definition bumped (d : document) : bstate := match bump_spdx_document d with Ok (st, _) => st | Raise _ => {| b_objs := []; b_cis := []; b_map := [] |} end.
Definition bumped_doc (d : document) : nat := match bump_spdx_document d with Ok (_, n) => n | Raise _ => 0 end.
Lemma bumped_is d : (match bump_spdx_document d with Ok _ => true | Raise _ => false end) = true -> bump_spdx_document d = Ok (bumped d, bumped_doc d).
Proof. unfold bumped, bumped_doc. destruct (bump_spdx_document d) as [[st n]|e]; [reflexivity|discriminate]. Qed.
Definition all_elements (st : bstate) (f : pystr -> element3 -> bool) : bool :=
  forallb (fun kv => match nth_error (b_objs st) (snd kv) with Some e => f (fst kv) e | None => true end) (b_map st).
Lemma all_elements_get st f i e : all_elements st f = true -> get_element st i = Ok e -> f i e = true.
Proof.
  unfold all_elements, get_element. intros A G. destruct (assoc i (b_map st)) as [a|] eqn:E; [|discriminate].
  apply PyFacts.assoc_In in E. rewrite forallb_forall in A. specialize (A _ E). cbn [fst snd] in A. destruct (nth_error (b_objs st) a); [congruence|discriminate].
Qed.

Definition plain_package (id : pystr) : package :=
  let p := sample_package id in
  {| pk_id := id; pk_name := pk_name p; pk_download := pk_download p; pk_version := pk_version p;
     pk_file_name := pk_file_name p; pk_supplier := pk_supplier p; pk_originator := pk_originator p;
     pk_files_analyzed := pk_files_analyzed p; pk_verif := pk_verif p; pk_checksums := pk_checksums p;
     pk_homepage := Some (NVal $"https://example.com"); pk_source_info := pk_source_info p;
     pk_concluded := pk_concluded p; pk_info := pk_info p; pk_declared := pk_declared p; pk_lic_comment := None;
     pk_copyright := pk_copyright p; pk_summary := None; pk_description := pk_description p; pk_comment := None;
     pk_refs := pk_refs p; pk_attribution := pk_attribution p; pk_purpose := Some PP_LIBRARY; pk_release := None; pk_built := None; pk_valid_until := None |}.
(** a document with two packages, two files, a snippet and the given relationships *)
Definition plain_document (rs : list relationship) : document :=
  let d := sample_document $"SPDX-2.3" in
  {| do_ci := do_ci d; do_packages := [plain_package $"SPDXRef-Package-A"; plain_package $"SPDXRef-Package-B"];
     do_files := do_files d; do_snippets := do_snippets d; do_annotations := do_annotations d; do_relationships := rs;
     do_extracted := do_extracted d |}.
Definition rel_why (a : pystr) (t : rel_type) (b : pystr) : relationship :=
  {| re_id := a; re_type := t; re_related := NVal b; re_comment := Some $"why" |}.
Definition rel_no (a : pystr) (t : rel_type) (b : nn pystr) : relationship :=
  {| re_id := a; re_type := t; re_related := b; re_comment := None |}.
Definition sample_ns : pystr := $"https://example.com/doc".
