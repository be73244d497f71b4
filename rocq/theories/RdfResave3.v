(** Documents read from RDF, saved as tag-value files; conversions. *)
From Verif Require Import Py PyFacts Data Oracles Basics BasicsSpec JsonSpec Rdf RdfParser RdfReadSpec ResaveSpec TvResaveSpec RdfResaveSpec RdfResave.
From Verif Require Resave TvResave TvResave2 TvResave3 RdfResave2 RdfSpec ValidationFacts RdfIff5 RdfFinal RdfTotal JsonShape TvDocFacts FilesFacts.
From Verif Require Import ValidationSpec TvSpec.

Section Read.
Context (O : oracles) (L : rdf_library) (g : graph) (d : document) (HD : DocumentIn O L g d).
Context (W : WellFormed O (ci_version (do_ci d)) d) (F : TvFit O d).
Local Notation G := (g_triples g).
Local Notation bound := (prefixes g d).
Local Notation ns := (ci_namespace (do_ci d)).
Let K : TvKept O d := tf_kept _ _ F.

Lemma one_line i : In i (mentioned_ids d) -> ~ In LF i.
Proof. exact (tf_ids _ _ F i). Qed.
Lemma mentioned i : In i (RdfSpec.ids_in d) -> ~ In LF i.
Proof. intro H. apply one_line. apply in_or_app. left. exact H. Qed.
Lemma element_in_ids i : In i (element_ids d) -> In i (RdfSpec.ids_in d).
Proof. unfold element_ids, RdfSpec.ids_in. rewrite !in_app_iff. intro H. right. rewrite !in_app_iff. tauto. Qed.
Lemma element_tv i : In i (element_ids d) -> ElementId d i -> Line i /\ special i = false.
Proof.
  intros Hi H. destruct (TvResave2.element_line d i H) as [A B]; [apply mentioned, element_in_ids; exact Hi|]. split; [exact (TvResave2.unspaced_line _ A B)|exact B].
Qed.
Lemma free_text o : In o (free_texts d) -> IfSome Text o.
Proof.
  destruct o as [s|]; [|intros; exact I]. intro H. assert (Dc : {In LF s} + {~ In LF s}) by (apply in_dec, N.eq_dec). destruct Dc as [Hl|Hl].
  - right. right. split; [exact Hl|]. exact (tf_texts _ _ F s (or_introl H) Hl).
  - destruct (kept_texts _ _ K s (or_introl H) Hl) as [T|T]; [left; exact T|right; left; exact T].
Qed.
Lemma copyright_tv o : In (word_text o) (copyright_texts d) -> IfSome TvText o.
Proof.
  destruct o as [[s| |]|]; try (intros; exact I). cbn [word_text]. intro H. destruct (kept_copyrights _ _ K s H) as [N1 N2]. split; [|split; assumption].
  assert (Dc : {In LF s} + {~ In LF s}) by (apply in_dec, N.eq_dec). destruct Dc as [Hl|Hl].
  - right. right. split; [exact Hl|]. exact (tf_texts _ _ F s (or_intror H) Hl).
  - destruct (kept_texts _ _ K s (or_intror H) Hl) as [T|T]; [left; exact T|right; left; exact T].
Qed.
Lemma line_tv o : In o (line_texts d) -> IfSome Line o.
Proof. destruct o as [s|]; [|intros; exact I]. exact (tf_lines _ _ F s). Qed.
Lemma line_some s : In (Some s) (line_texts d) -> Line s.
Proof. exact (tf_lines _ _ F s). Qed.
Lemma opt_license (o : option license) : (forall e, o = Some (NVal e) -> LicenseOf d e) -> IfSome (TvLicense O) o.
Proof. destruct o as [[e| |]|]; try (intros; exact I). intro H. exact (kept_licenses _ _ K e (H e eq_refl)). Qed.
Lemma list_license (l : list license) : (forall e, In (NVal e) l -> LicenseOf d e) -> Forall (TvLicense O) l.
Proof. intro H. apply Forall_forall. intros [e| |] Hi; try exact I. exact (kept_licenses _ _ K e (H e Hi)). Qed.
Lemma actor_tv a : ReadableActor a -> ActorOf d a -> TvActor a.
Proof. intros H Ha. split; [exact H|exact (tf_actors _ _ F a Ha)]. Qed.
Lemma at_digest s p x P : At L G TextIs s p x -> modulo_final_LF P x -> P x.
Proof. intros H V. destruct (at_in _ _ _ _ _ _ H) as (n & ->). apply (TvResave2.modulo_strip _ _ V). apply TvResave2.strip_twice. Qed.
Lemma checksums_tv s p l v : EachAt G (ChecksumIn L G) s p l -> Forall (ValidChecksum v) l -> incl l (checksums_of d) -> Forall TvChecksum l.
Proof.
  intros H V Hi. rewrite Forall_forall in *. intros c Hc. destruct (each_in _ _ _ _ _ _ H Hc) as (n & [_ X]). destruct (V c Hc) as [_ Vc].
  destruct (at_digest _ _ _ _ X Vc) as [D _]. split; [exact (kept_digests _ _ K c (Hi c Hc))|exact (TvResave2.hexes _ D)].
Qed.
Lemma supplier_tv s p o q : MaybeAt L G (WordNA L SaysActor) s p o -> In q (do_packages d) ->
  (forall a, o = Some (AVal a) -> pk_supplier q = Some (AVal a) \/ pk_originator q = Some (AVal a)) -> IfSome TvActorNA o.
Proof.
  intros H Hq Ho. assert (OA : forall a, o = Some (AVal a) -> ActorOf d a) by (intros a Ea; right; left; exists q; split; [exact Hq|exact (Ho a Ea)]).
  pose proof (maybe_actor _ _ _ _ _ H (fun a Ea => kept_actors _ _ K a (OA a Ea))) as R. destruct o as [[a|]|]; try exact I.
  split; [apply actor_tv; [exact R|exact (OA a eq_refl)]|]. exact (tf_no_tools _ _ F q a Hq (Ho a eq_refl)).
Qed.

Lemma tv_package p : In p (do_packages d) -> TvPackage O p.
Proof.
  intro Hp. destruct (says_package _ _ _ _ HD p Hp) as (s & X). pose proof (wf_packages _ _ _ W) as WP. rewrite Forall_forall in WP. specialize (WP p Hp).
  assert (FL : forall e, (pk_concluded p = Some (NVal e) \/ pk_declared p = Some (NVal e) \/ In (NVal e) (pk_info p)) -> LicenseOf d e) by (intros e He; left; exists p; auto).
  assert (LT : forall o, In o [word_text (Some (pk_download p)); word_text (pk_homepage p)] -> In o (location_texts d)) by (intros o Ho; apply in_flat_map; exists p; auto).
  assert (LN : forall o, In o [Some (pk_name p); pk_version p; pk_file_name p] -> In o (line_texts d)).
  { intros o Ho. unfold line_texts. rewrite !in_app_iff. right. left. apply in_flat_map. exists p. auto. }
  assert (FT : forall o, _ -> In o (free_texts d)) by exact (fun o => TvResave2.free_package d p o Hp).
  constructor; try (apply free_text, FT; cbn [In app]; tauto); try (apply line_tv, LN; cbn [In]; tauto);
    try (eapply maybe_if; [eapply (gp_release _ _ _ _ _ _ _ X) || eapply (gp_built _ _ _ _ _ _ _ X) || eapply (gp_valid _ _ _ _ _ _ _ X)|exact date_plain]).
  - apply element_tv; [|exact (vp_id _ _ _ _ WP)]. apply in_or_app. left. apply in_map. exact Hp.
  - apply line_some, LN. left. reflexivity.
  - specialize (LT (word_text (Some (pk_download p)))). destruct (pk_download p) as [u| |] eqn:E; try exact I. apply (kept_locations _ _ K). apply LT. left. reflexivity.
  - apply (supplier_tv _ _ _ p (gp_supplier _ _ _ _ _ _ _ X) Hp). auto.
  - apply (supplier_tv _ _ _ p (gp_originator _ _ _ _ _ _ _ X) Hp). auto.
  - destruct (pk_verif p) as [v|] eqn:E; [|exact I]. pose proof (gp_verif _ _ _ _ _ _ _ X) as Y. rewrite E in Y. destruct (maybe_in _ _ _ _ _ _ Y) as (n & [Z _]).
    destruct (vp_verif _ _ _ _ WP v E) as [_ V]. destruct (at_digest _ _ _ _ Z V) as [D C]. cbn in C. split; [split; [|exact (TvResave2.hexes _ D)]|].
    { intro Q. rewrite Q in C. discriminate C. }
    split; [exact C|]. pose proof (tf_excluded _ _ F p v) as T. destruct (kept_codes _ _ K p v Hp E) as [->|(c & t & Ex & Hs)]; [exact I|]. rewrite Ex in *. split; [eauto|].
    exact (T (c :: t) Hp E (or_introl eq_refl)).
  - apply (checksums_tv _ _ _ _ (gp_checksums _ _ _ _ _ _ _ X) (vp_checksums _ _ _ _ WP)). intros c Hc. apply in_or_app. left. apply in_flat_map. exists p. auto.
  - specialize (LT (word_text (pk_homepage p))). destruct (pk_homepage p) as [[u| |]|] eqn:E; try exact I. apply (kept_locations _ _ K). apply LT. right. left. reflexivity.
  - apply opt_license. auto.
  - apply list_license. auto.
  - apply opt_license. auto.
  - apply copyright_tv. apply in_or_app. left. apply (in_map (fun p => word_text (pk_copyright p)) _ p Hp).
  - apply Forall_forall. intros r Hr. destruct (kept_refs _ _ K p r Hp Hr) as (K1 & K2 & K3). constructor; auto. split; [|exact K3].
    apply free_text, FT. apply in_or_app. right. apply in_or_app. left. apply in_map. exact Hr.
  - apply Forall_forall. intros t Ht. apply (free_text (Some t)), FT. apply in_or_app. right. apply in_or_app. right. apply in_map. exact Ht.
Qed.
Lemma tv_file p : In p (do_files d) -> TvFile O p.
Proof.
  intro Hp. destruct (says_file _ _ _ _ HD p Hp) as (s & X). pose proof (wf_files _ _ _ W) as WP. rewrite Forall_forall in WP. specialize (WP p Hp).
  assert (FL : forall e, (fi_concluded p = Some (NVal e) \/ In (NVal e) (fi_info p)) -> LicenseOf d e) by (intros e He; right; left; exists p; auto).
  assert (LN : forall o, In o (Some (fi_name p) :: map Some (fi_contributors p)) -> In o (line_texts d)).
  { intros o Ho. unfold line_texts. rewrite !in_app_iff. right. right. left. apply in_flat_map. exists p. auto. }
  assert (FT : forall o, _ -> In o (free_texts d)) by exact (fun o => TvResave2.free_file d p o Hp).
  constructor; try (apply free_text, FT; cbn [In app]; tauto).
  - apply line_some, LN. left. reflexivity.
  - apply element_tv; [|exact (vf_id _ _ _ _ WP)]. apply in_or_app. right. apply in_or_app. left. apply in_map. exact Hp.
  - destruct (vf_sha1 _ _ _ _ WP) as (c & Hc & _). intro Q. rewrite Q in Hc. destruct Hc.
  - apply (checksums_tv _ _ _ _ (gf_checksums _ _ _ _ _ _ _ X) (vf_checksums _ _ _ _ WP)). intros c Hc. apply in_or_app. right. apply in_flat_map. exists p. auto.
  - apply opt_license. auto.
  - apply list_license. auto.
  - apply copyright_tv. apply in_or_app. right. apply in_or_app. left. apply (in_map (fun p => word_text (fi_copyright p)) _ p Hp).
  - apply Forall_forall. intros t Ht. apply line_some, LN. right. apply in_map. exact Ht.
  - apply Forall_forall. intros t Ht. apply (free_text (Some t)), FT. apply in_or_app. right. apply in_map. exact Ht.
Qed.
Lemma range_nat r : ValidRange r -> (0 <= fst r /\ 0 <= snd r)%Z.
Proof. intros [A B]. lia. Qed.
Lemma tv_snippet p : In p (do_snippets d) -> TvSnippet O p.
Proof.
  intro Hp. pose proof (wf_snippets _ _ _ W) as WP. rewrite Forall_forall in WP. specialize (WP p Hp).
  assert (FL : forall e, (sn_concluded p = Some (NVal e) \/ In (NVal e) (sn_info p)) -> LicenseOf d e) by (intros e He; right; right; exists p; auto).
  assert (FT : forall o, _ -> In o (free_texts d)) by exact (fun o => TvResave2.free_snippet d p o Hp).
  constructor; try (apply free_text, FT; cbn [In app]; tauto).
  - apply element_tv; [|exact (vs_id _ _ _ _ WP)]. apply in_or_app. right. apply in_or_app. right. apply in_map. exact Hp.
  - assert (N : ~ In LF (sn_file p)). { apply one_line. apply in_or_app. right. apply in_or_app. left. apply in_map. exact Hp. }
    destruct (vs_file _ _ _ _ WP) as [[H _]|H]; [destruct (TvResave2.internal_line _ H N)|destruct (TvResave2.external_line _ _ H N)]; apply TvResave2.unspaced_line; assumption.
  - exact (range_nat _ (vs_bytes _ _ _ _ WP)).
  - pose proof (vs_lines _ _ _ _ WP) as V. destruct (sn_lines p) as [r|]; [exact (range_nat _ (V r eq_refl))|exact I].
  - apply opt_license. auto.
  - apply list_license. auto.
  - apply copyright_tv. apply in_or_app. right. apply in_or_app. right. apply (in_map (fun p => word_text (sn_copyright p)) _ p Hp).
  - apply line_tv. unfold line_texts. rewrite !in_app_iff. right. right. right. left. apply in_map. exact Hp.
  - apply Forall_forall. intros t Ht. apply (free_text (Some t)), FT. apply in_or_app. right. apply in_map. exact Ht.
Qed.
Lemma tv_annotation p : In p (do_annotations d) -> TvAnnotation p.
Proof.
  intro Hp. destruct (annotation_plain _ _ _ _ HD p (kept_actors _ _ K) Hp) as [A1 A2]. pose proof (wf_annotations _ _ _ W) as WP. rewrite Forall_forall in WP. destruct (WP p Hp) as [_ V]. constructor.
  - destruct (TvResave2.resolves_line _ _ V) as [A B]; [|exact (TvResave2.unspaced_line _ A B)]. apply one_line. do 2 (apply in_or_app; right). apply in_or_app. left. apply in_map. exact Hp.
  - apply (actor_tv _ A1). right. right. eauto.
  - exact A2.
  - exact (free_text (Some (an_comment p)) (TvResave2.free_annotation d p Hp)).
Qed.
Lemma tv_relationship p : In p (do_relationships d) -> TvRelationship p.
Proof.
  intro Hp. pose proof (wf_relationships _ _ _ W) as WP. rewrite Forall_forall in WP. destruct (WP p Hp) as (V1 & V2 & _).
  assert (N : forall i, In i (re_id p :: match re_related p with NVal i => [i] | _ => [] end) -> ~ In LF i).
  { intros i Hi. apply one_line. do 3 (apply in_or_app; right). apply in_flat_map. exists p. split; [exact Hp|exact Hi]. }
  constructor.
  - apply (TvResave2.resolves_line _ _ V1). apply N. left. reflexivity.
  - destruct (re_related p) as [i| |]; try exact I. pose proof (V2 i eq_refl) as R. destruct (Resave.resolves_plain _ _ R) as [P1 P2]. split; [|split; assumption].
    apply (TvResave2.resolves_line _ _ R). apply N. right. left. reflexivity.
  - exact (free_text _ (TvResave2.free_relationship d p Hp)).
Qed.
Lemma special_licenseref t : special ($"LicenseRef-" ++ t) = false.
Proof. lazy. reflexivity. Qed.
Lemma tv_extracted p : In p (do_extracted d) -> TvExtracted p.
Proof.
  intro Hp. destruct (says_extracted _ _ _ _ HD p Hp) as (s & X). pose proof (wf_extracted _ _ _ W) as WP. rewrite Forall_forall in WP. destruct (WP p Hp) as (V1 & _).
  assert (LN : forall o, In o (name_text (el_name p) :: map Some (el_xrefs p)) -> In o (line_texts d)).
  { intros o Ho. unfold line_texts. rewrite !in_app_iff. do 4 right. apply in_flat_map. exists p. auto. }
  constructor; try (apply free_text, (TvResave2.free_extracted d p _ Hp); cbn [In]; tauto).
  - assert (E : exists i, el_id p = Some i).
    { destruct (ge_id _ _ _ _ _ X) as (o & _ & Y). destruct o as [[|c t]|]; [|eauto|]; destruct Y as [(_ & u & x & _ & _ & Y)|(_ & x & _ & Y)]; eauto. }
    destruct E as (i & E). exists i. split; [exact E|]. destruct i as [|c t]; [split; [intros []|]; split; [intros []|]; split; [reflexivity|left; reflexivity]|].
    destruct (V1 _ E ltac:(discriminate)) as [V _]. assert (N : ~ In LF (c :: t)).
    { apply mentioned. unfold RdfSpec.ids_in. right. rewrite !in_app_iff. do 4 right. apply in_flat_map. exists p. split; [exact Hp|]. rewrite E. left. reflexivity. }
    pose proof (TvResave2.modulo_line _ _ V N) as V'. apply TvResave2.unspaced_line.
    + apply (TvResave2.prefixed_unspaced _ _ _ V'); [|reflexivity]. intros x Hx. apply RdfWriteFacts.id_char_not. exact Hx.
    + destruct V' as (u & -> & _). apply special_licenseref.
  - specialize (LN (name_text (el_name p)) (or_introl eq_refl)). destruct (el_name p) as [[n|]|]; try exact I. exact (line_some _ LN).
  - apply Forall_forall. intros t Ht. apply line_some, LN. right. apply in_map. exact Ht.
Qed.
Lemma tv_creation : TvCreationInfo (do_ci d).
Proof.
  destruct (creators_readable _ _ _ _ HD (kept_actors _ _ K)) as [C1 C2]. pose proof (created_plain _ _ _ _ HD) as C3. destruct (wf_ci _ _ _ W) as (V1 & V2 & _ & _ & V5).
  assert (LN : forall o, In o [Some (ci_version (do_ci d)); Some (ci_name (do_ci d)); Some (ci_namespace (do_ci d))] -> In o (line_texts d)).
  { intros o Ho. unfold line_texts. rewrite in_app_iff. left. exact Ho. }
  constructor; try assumption; try (apply line_some, LN; cbn [In]; tauto).
  - rewrite V2. apply TvResave2.unspaced_line; [split; [discriminate|]|vm_compute; reflexivity]. intros c Hc.
    assert (B : forallb (fun c => negb (is_space c)) $"CC0-1.0" = true) by reflexivity. rewrite forallb_forall in B. apply negb_true_iff, B. exact Hc.
  - rewrite V1. apply TvResave2.unspaced_line; [split; [discriminate|]|vm_compute; reflexivity]. intros c Hc.
    assert (B : forallb (fun c => negb (is_space c)) $"SPDXRef-DOCUMENT" = true) by reflexivity. rewrite forallb_forall in B. apply negb_true_iff, B. exact Hc.
  - apply free_text. right. left. reflexivity.
  - destruct HD as [(doc & [_ _ _ _ _ _ _ (l & _ & X6)]) _ _ _ _ _ _]. rewrite Forall_forall in *. intros r Hr. destruct (V5 r Hr) as (I1 & _ & _ & I3).
    destruct (RdfResave2.docrefs_in _ _ _ _ _ _ _ X6 Hr) as (n & _ & Y2). destruct (at_in _ _ _ _ _ _ Y2) as (m & [_ Y]). pose proof (at_digest _ _ _ _ Y I3) as D.
    rewrite (tf_refs _ _ F r Hr) in D. destruct D as [D1 D2]. cbn in D2. constructor.
    + apply (TvResave2.docref_line _ I1). apply mentioned. unfold RdfSpec.ids_in. right. rewrite in_app_iff. left. apply in_map. exact Hr.
    + exact (kept_uris _ _ K r Hr).
    + exact (tf_refs _ _ F r Hr).
    + split; [|exact D2]. split; [|exact (TvResave2.hexes _ D1)]. intro Q. rewrite Q in D2. discriminate D2.
  - rewrite Forall_forall in *. intros a Ha. apply (actor_tv _ (C2 a Ha)). left. exact Ha.
  - apply free_text. left. reflexivity.
Qed.
Lemma rdf_tv : TvDocument O d.
Proof.
  constructor; try (apply Forall_forall; intros x Hx).
  - exact tv_creation.
  - exact (tv_package x Hx).
  - exact (tv_file x Hx).
  - exact (tv_snippet x Hx).
  - exact (tv_annotation x Hx).
  - exact (tv_relationship x Hx).
  - exact (tv_extracted x Hx).
  - exact (TvResave2.all_distinct O d W).
Qed.
End Read.
