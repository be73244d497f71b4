(** The sample document is one that survives the tag-value form. *)
From Verif Require Import Py PyFacts Data Oracles Basics BasicsSpec JsonSpec Samples TvWriter TvSpec.
From Verif Require ActorFacts.

Definition line_ok (s : pystr) : bool := negb (has_char LF s) && negb (has_char CR s) && str_eqb (strip s) s && negb (special s).
Lemma line_by_test s : line_ok s = true -> Line s.
Proof.
  unfold line_ok. rewrite !andb_true_iff, !negb_true_iff. intros [[[A B] C] D]. apply has_char_false in A, B. apply str_eqb_eq in C. repeat split; auto.
Qed.
Lemma text_by_test s : line_ok s = true -> Text s.
Proof. intro H. left. apply line_by_test. exact H. Qed.
Definition unspaced_ok (s : pystr) : bool := match s with [] => false | _ => forallb (fun c => negb (is_space c)) s end.
Lemma unspaced_by_test s : unspaced_ok s = true -> Unspaced s.
Proof.
  unfold unspaced_ok. destruct s as [|x s]; [discriminate|]. intro H. split; [discriminate|]. intros c Hc. rewrite forallb_forall in H. apply H in Hc.
  destruct (is_space c); [discriminate|reflexivity].
Qed.
Definition hex_ok (s : pystr) : bool := match s with [] => false | _ => forallb hex s end.
Lemma hex_by_test s : hex_ok s = true -> Hex s.
Proof. unfold hex_ok. destruct s; [discriminate|]. intro H. split; [discriminate|exact H]. Qed.
Lemma actor_by_test a : parse_actor (actor_str a) = Ok a -> has_char CR (actor_str a) = false -> TvActor a.
Proof.
  intros H C. apply (proj1 (ActorFacts.actor_round_trip a)) in H. split; [exact H|]. apply has_char_false in C. unfold actor_str in C.
  split; [intro K; apply C; rewrite !in_app_iff; auto|]. destruct (ac_email a) as [e|]; [|exact I]. cbn. intro K. apply C. rewrite !in_app_iff. right. right. right. right.
  destruct e; [destruct K|]. cbn [truthy_opt]. rewrite !in_app_iff. auto.
Qed.
Lemma date_ok : PlainDate sample_date.
Proof.
  split; [|split; reflexivity]. constructor; cbn; try lia. exists 28%Z. split; [|lia]. right. right. right. split; [reflexivity|]. split; [|reflexivity].
  intros [[k K] _]. lia.
Qed.
Lemma license_by_test e : o_lic_parse sample_oracles (o_lic_str sample_oracles e) = Ok e -> line_ok (o_lic_str sample_oracles e) = true ->
  unspaced_ok (firstn 1 (o_lic_str sample_oracles e)) = true -> TvLicense sample_oracles (NVal e).
Proof. intros A B C. split; [exact A|]. split; [apply line_by_test; exact B|]. intro K. rewrite K in C. discriminate. Qed.
Ltac tests :=
  match goal with
  | |- Forall _ (_ :: _) => apply Forall_cons
  | |- Forall _ [] => apply Forall_nil
  | |- IfSome _ (Some _) => cbn [IfSome]
  | |- IfSome _ None => exact I
  | |- IfSome _ (er_comment _) => cbn [er_comment]
  | |- True => exact I
  | |- _ /\ _ => split
  | |- Line _ => apply line_by_test; vm_compute; reflexivity
  | |- Text _ => apply text_by_test; vm_compute; reflexivity
  | |- TvLine _ => first [exact I | cbn [TvLine]]
  | |- TvText _ => first [exact I | cbn [TvText]]
  | |- TvLicense _ (NVal _) => apply license_by_test; vm_compute; reflexivity
  | |- TvLicense _ _ => exact I
  | |- TvActorNA (AVal _) => cbn [TvActorNA]
  | |- TvActorNA _ => exact I
  | |- TvActor _ => apply actor_by_test; vm_compute; reflexivity
  | |- TvChecksum _ => unfold TvChecksum
  | |- Hex _ => apply hex_by_test; vm_compute; reflexivity
  | |- Unspaced _ => apply unspaced_by_test; vm_compute; reflexivity
  | |- PlainDate _ => apply date_ok
  | |- TvExtRef _ => constructor
  | |- TvDocRef _ => constructor
  | |- TvVerif _ => unfold TvVerif
  | |- _ <> _ => discriminate
  | |- _ = _ => vm_compute; reflexivity
  end.
Lemma sample_package_tv id : Line id /\ special id = false -> TvPackage sample_oracles (sample_package id).
Proof.
  intro H. constructor; unfold sample_package; cbn [pk_id pk_name pk_download pk_version pk_file_name pk_supplier pk_originator pk_verif pk_checksums pk_homepage
    pk_source_info pk_concluded pk_info pk_declared pk_lic_comment pk_copyright pk_summary pk_description pk_comment pk_refs pk_attribution pk_release pk_built pk_valid_until];
    [exact H|..]; repeat tests.
  cbn [vc_excluded]. repeat split.
  - eexists; eexists; split; reflexivity.
  - intro K. apply has_char_In in K. discriminate K.
  - intro K. apply has_char_In in K. discriminate K.
  - intro K. apply has_char_In in K. discriminate K.
Qed.
Lemma sample_file_tv id : Line id /\ special id = false -> TvFile sample_oracles (sample_file id).
Proof.
  intro H. constructor; unfold sample_file; cbn [fi_name fi_id fi_checksums fi_concluded fi_info fi_lic_comment fi_copyright fi_comment fi_notice fi_contributors fi_attribution];
    repeat first [exact H | tests].
Qed.
Lemma sample_snippet_tv id f : Line id -> Line f -> TvSnippet sample_oracles (sample_snippet id f).
Proof.
  intros H K. constructor; unfold sample_snippet; cbn [sn_id sn_file sn_bytes sn_lines sn_concluded sn_info sn_lic_comment sn_copyright sn_comment sn_name sn_attribution fst snd IfSome];
    try lia; repeat first [exact H | exact K | tests].
Qed.
Lemma sample_rel_tv a t b : unspaced_ok a && negb (special a) && unspaced_ok b && negb (str_in b [$"NONE"; $"NOASSERTION"]) = true -> TvRelationship (rel a t b).
Proof.
  rewrite !andb_true_iff, !negb_true_iff. intros [[[A B] C] D]. constructor; cbn.
  - split; [apply unspaced_by_test; exact A|exact B].
  - apply str_in_false in D. split; [apply unspaced_by_test; exact C|]. split; intros ->; apply D; cbn [In]; auto.
  - exact I.
Qed.
Lemma sample_tv : TvDocument sample_oracles (sample_document $"SPDX-2.3").
Proof.
  constructor; cbn [sample_document do_ci do_packages do_files do_snippets do_annotations do_relationships do_extracted].
  - constructor; unfold sample_ci; cbn [ci_version ci_data_license ci_id ci_name ci_namespace ci_doc_comment ci_refs ci_creators ci_created ci_creator_comment]; repeat tests.
  - repeat apply Forall_cons; try apply Forall_nil; apply sample_package_tv; split; tests.
  - repeat apply Forall_cons; try apply Forall_nil; apply sample_file_tv; split; tests.
  - repeat apply Forall_cons; try apply Forall_nil; apply sample_snippet_tv; tests.
  - repeat apply Forall_cons; try apply Forall_nil; constructor; unfold sample_annotation; cbn [an_id an_annotator an_date an_comment]; repeat tests.
  - repeat apply Forall_cons; try apply Forall_nil; apply sample_rel_tv; vm_compute; reflexivity.
  - apply Forall_cons; [|apply Forall_nil]. constructor; unfold sample_extracted; cbn [el_id el_text el_name el_xrefs el_comment IfSome]; repeat tests.
    eexists. split; [reflexivity|]. tests.
  - repeat constructor; cbn; intuition discriminate.
Qed.
