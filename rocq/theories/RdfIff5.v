(** What the RDF reader reads is what the graph says: creation information and documents. *)
From Verif Require Import Py PyRe PyFacts Data Oracles Basics BasicsFacts ActorFacts Json Construct JsonParse JsonErrors JsonRead Rdf RdfParser RdfReadSpec RdfIff RdfIff2 RdfIff3 RdfIff4.

Section Reading.
Variable O : oracles.
Variable L : rdf_library.
Hypothesis Fo : Foreign O L.

Section Graph.
Variable G : list triple.
Lemma doc_ref_iff bound ns n r : parse_external_document_ref L G bound ns n = Ok r <->
  Identifies L bound ns n (edr_id r) /\ At L G TextIs n (term "spdxDocument") (edr_uri r) /\ At L G (ChecksumIn L G) n (term "checksum") (edr_checksum r).
Proof.
  unfold parse_external_document_ref. cbv zeta. split.
  - intro H. id_step H. inv_step H. inv_step H. apply construct_ok in H. ap_inv H. apply c_req_iff in E, E0, E1. subst. cbn [edr_id edr_uri edr_checksum].
    assert (l = []) by (eapply some_literal; eassumption). assert (l0 = []) by (eapply some_literal; eassumption). subst.
    split; [apply (id_iff L); assumption|]. split; [apply text_field; assumption|]. apply (literal_iff L G _ _ _ _ _ (checksum_iff L G) (noisy_checksum L G)). assumption.
  - intros (I & U & S1). destruct r as [i u s]. cbn [edr_id edr_uri edr_checksum] in *. apply (id_iff L) in I. apply text_field in U.
    apply (literal_iff L G _ _ _ _ _ (checksum_iff L G) (noisy_checksum L G)) in S1. go_step. go_step. go_step. apply construct_ok. ap_go; apply c_req_iff; reflexivity.
Qed.
Lemma doc_refs_iff ns l : forall bound rs, parse_external_document_refs L G bound ns l = Ok rs <-> DocRefs L G ns bound l rs.
Proof.
  induction l as [|n l IH]; intros bound rs; cbn [parse_external_document_refs]; split.
  - intro H. injection H as <-. constructor.
  - intro H. inversion H. reflexivity.
  - intro H. apply bind_ok in H as (r & H1 & H). apply bind_ok in H as (q & H2 & H). injection H as <-. apply doc_ref_iff in H1 as (A & B & C). apply IH in H2. constructor; assumption.
  - intro H. inversion H as [|? ? ? r q A B C D]; subst. apply bind_ok. exists r. split; [apply doc_ref_iff; auto|]. apply bind_ok. exists q. split; [apply IH; exact D|reflexivity].
Qed.
Lemma namespace_iff ns id doc : parse_namespace_and_spdx_id L G = Ok (ns, Some id, doc) <->
  Subjects is_a (NUri (term "SpdxDocument")) G [doc] /\ Truthy L doc /\ In #"#" (node_str doc) /\ r_defrag L (node_str doc) = Ok (ns, id) /\ ns <> [] /\ id <> [].
Proof.
  unfold parse_namespace_and_spdx_id, Truthy. rewrite subjects_iff. change (NUri (term "SpdxDocument")) with (NUri (spdx "SpdxDocument")). change is_a with RDF_type. split.
  - destruct (subjects G RDF_type (NUri (spdx "SpdxDocument"))) as [|n [|n' l]]; cbn [only_value]; try discriminate.
    destruct (node_truthy L n) eqn:T; [|discriminate]. destruct (has_char #"#" (node_str n)) eqn:C; [|discriminate]. cbn [negb]. intro H.
    apply bind_ok in H as ([a b] & D & H). lazy beta iota in H. destruct a as [|a0 a]; [discriminate|]. destruct b as [|b0 b]; [discriminate|].
    injection H as <- <- <-. repeat split; auto; try discriminate. clear - C. destruct (in_dec N.eq_dec #"#" (node_str n)) as [|X]; [assumption|]. apply has_char_not in X. congruence.
  - intros (-> & T & I & D & N1 & N2). cbn [only_value]. rewrite T. destruct (has_char #"#" (node_str doc)) eqn:C; [|apply has_char_not in C; destruct (C I)]. cbn [negb].
    rewrite D. cbn [bind]. destruct ns as [|a0 a]; [destruct (N1 eq_refl)|]. destruct id as [|b0 b]; [destruct (N2 eq_refl)|]. reflexivity.
Qed.
Lemma creator_iff n a : creator_of L n = Ok a <-> exists s, Plain L n s /\ parse_actor s = Ok a.
Proof.
  unfold creator_of, Plain. split.
  - destruct (py_text L n) as [s|]; [|discriminate]. eauto.
  - intros (s & E & H). rewrite E. exact H.
Qed.
Lemma unprefixed_field s p o : parse_literal L (fun n => Ok (remove_prefix (node_str n) LICENSE_NAMESPACE)) G s p = Ok ([], o) <-> MaybeAt L G (Unprefixed license_list) s p o.
Proof.
  apply literal_iff.
  - intros n a. rewrite <- (unprefixed_iff license_list n a). change LICENSE_NAMESPACE with license_list. split; [intro H; injection H as H; exact H|]. intros <-. reflexivity.
  - intros n e H. discriminate.
Qed.
End Graph.

Lemma creation_iff g c : parse_creation_info L g = Ok c <-> exists doc, CreationIn L (g_triples g) (g_bound g) doc c.
Proof.
  unfold parse_creation_info. cbv zeta. set (G := g_triples g). split.
  - intro H. apply bind_ok in H as ([[ns id] doc] & D & H). lazy beta iota in H. do 4 inv_step H.
    destruct (any_value (subjects G RDF_type (NUri (spdx "CreationInfo")))) as [b|] eqn:B; [|discriminate]. destruct (node_truthy L b) eqn:T; [|discriminate]. cbn [negb] in H.
    do 3 inv_step H. apply bind_ok in H as (creators & CR & H). apply bind_ok in H as (refs & RF & H). apply named_ok in H as [N H]. nils.
    match goal with N : match creators with [] => _ | _ => _ end = [] |- _ => assert (NC : creators <> []) by (intros ->; discriminate N); clear N end.
    apply construct_ok in H. ap_inv H. cok.
    repeat match goal with K : c_req _ _ _ = COk _ |- _ => apply c_req_iff in K; subst end.
    exists doc. apply namespace_iff in D as (D1 & D2).
    split; cbn [ci_version ci_id ci_name ci_namespace ci_creators ci_created ci_creator_comment ci_data_license ci_refs ci_list_version ci_doc_comment].
    all: try (apply text_field; assumption).
    + exact D1.
    + exact D2.
    + apply unprefixed_field. assumption.
    + assert (X : exists bs, subjects G RDF_type (NUri (spdx "CreationInfo")) = b :: bs).
      { rewrite any_hd in B. destruct (subjects G RDF_type (NUri (spdx "CreationInfo"))) as [|x bs]; [discriminate|]. injection B as ->. eauto. }
      destruct X as (bs & X). exists b, bs. split; [apply subjects_iff; exact X|]. split; [exact T|]. split; [apply date_field; assumption|].
      split; [apply (each_at G _ _ _ _ _ creator_iff); exact CR|]. split; [exact NC|]. split; [|apply text_field; assumption].
      apply (literal_iff L G _ _ _ _ _ version_iff noisy_version). assumption.
    + eexists. split; [apply objects_iff; reflexivity|]. apply doc_refs_iff. exact RF.
  - intros (doc & K). destruct c as [x1 x2 x3 x4 x5 x6 x7 x8 x9 x10 x11]. destruct K.
    cbn [ci_version ci_id ci_name ci_namespace ci_creators ci_created ci_creator_comment ci_data_license ci_refs ci_list_version ci_doc_comment] in *.
    fold G in gc_only, gc_version, gc_license, gc_name, gc_doc_comment, gc_info, gc_refs.
    pose proof (proj2 (namespace_iff G _ _ _) (conj gc_only gc_doc)) as D. apply text_field in gc_version, gc_name, gc_doc_comment. apply unprefixed_field in gc_license.
    destruct gc_info as (b & bs & S1 & T & F1 & F2 & NC & F3 & F4). apply subjects_iff in S1. change (NUri (term "CreationInfo")) with (NUri (spdx "CreationInfo")) in S1. change is_a with RDF_type in S1.
    apply date_field in F1. apply (each_at G _ _ _ _ _ creator_iff) in F2. apply (literal_iff L G _ _ _ _ _ version_iff noisy_version) in F3. apply text_field in F4.
    destruct gc_refs as (l & Ob & RF). apply objects_iff in Ob. apply doc_refs_iff in RF. rewrite <- Ob in RF.
    do 5 go_step. rewrite S1. cbn [any_value]. unfold Truthy in T. rewrite T. cbn [negb].
    do 5 go_step. apply named_ok. split; [|apply construct_ok; ap_go; try reflexivity; apply c_req_iff; reflexivity]. destruct (x5) as [|]; [destruct (NC eq_refl)|reflexivity].
Qed.

Lemma added_iff more : forall l l', fold_left add_relationship more l = l' <-> Added l more l'.
Proof.
  induction more as [|r more IH]; intros l l'; cbn [fold_left]; split.
  - intros <-. constructor.
  - intro H. inversion H. reflexivity.
  - unfold add_relationship at 2. destruct (in_dec relationship_eq_dec r l) as [I|I]; intro H; apply IH in H; [apply Added_known|apply Added_new]; assumption.
  - unfold add_relationship at 2. intro H. destruct (in_dec relationship_eq_dec r l) as [I|I]; inversion H; subst; try contradiction; apply IH; assumption.
Qed.
Lemma all_of {A} G class (f : node -> result A) (R : node -> A -> Prop) r : (forall n a, f n = Ok a <-> R n a) -> (forall n, Noisy (f n)) ->
  each_try f (subjects G RDF_type (NUri (spdx class))) = Ok ([], r) <-> AllOf G class R r.
Proof.
  intros H1 H2. rewrite (each_try_iff f R _ _ H1 H2). unfold AllOf. split.
  - intro F. eexists. split; [apply subjects_iff; reflexivity|exact F].
  - intros (l & E & F). apply subjects_iff in E. change is_a with RDF_type in E. change (term class) with (spdx class) in E. rewrite E. exact F.
Qed.
Lemma all_links {A} G p (f : node * node -> result A) (R : node * node -> A -> Prop) r : (forall n a, f n = Ok a <-> R n a) -> (forall n, Noisy (f n)) ->
  each_try f (pairs G (spdx p)) = Ok ([], r) <-> AllLinks G p R r.
Proof.
  intros H1 H2. rewrite (each_try_iff f R _ _ H1 H2). unfold AllLinks. split.
  - intro F. eexists. split; [apply links_iff; reflexivity|exact F].
  - intros (l & E & F). apply links_iff in E. change (term p) with (spdx p) in E. rewrite E. exact F.
Qed.
Lemma raise_if_ok {A} m (k : unit -> result A) a : bind (raise_if m) k = Ok a <-> m = [] /\ k tt = Ok a.
Proof. destruct m; cbn; split; [auto|intros [_ H]; exact H|discriminate|intros [H _]; discriminate]. Qed.
Lemma document_iff g d : translate_graph_to_document O L g = Ok d <-> DocumentIn O L g d.
Proof.
  unfold translate_graph_to_document. cbv zeta. split.
  - intro H. apply bind_ok in H as (ci & C & H). do 8 inv_step H. apply raise_if_ok in H as [N H]. nils.
    injection H as <-.
    match goal with F : each_try (parse_package O L _ _ _) _ = _ |- _ => rename F into K1 end.
    match goal with F : each_try (parse_file O L _ _ _) _ = _ |- _ => rename F into K2 end.
    match goal with F : each_try (parse_snippet O L _ _ _) _ = _ |- _ => rename F into K3 end.
    match goal with F : each_try (parse_annotation L _ _ _) _ = _ |- _ => rename F into K4 end.
    match goal with F : each_try (parse_relationship L _ _ _) _ = _ |- _ => rename F into K5 end.
    match goal with F : each_try (parse_implicit_relationship L _ _ RT_CONTAINS) _ = _ |- _ => rename F into K6 end.
    match goal with F : each_try (parse_implicit_relationship L _ _ RT_DESCRIBES) _ = _ |- _ => rename F into K7 end.
    match goal with F : each_try (fun x => parse_extracted_licensing_info L _ _ (snd x)) _ = _ |- _ => rename F into K8 end.
    split; cbn [do_ci do_packages do_files do_snippets do_annotations do_relationships do_extracted]; unfold prefixes; cbn [do_ci].
    + apply creation_iff. exact C.
    + eapply (all_of (g_triples g) "Package"); [apply (package_iff O L Fo)|apply (noisy_package O L Fo)|exact K1].
    + eapply (all_of (g_triples g) "File"); [apply (file_iff O L Fo)|apply (noisy_file O L Fo)|exact K2].
    + eapply (all_of (g_triples g) "Snippet"); [apply (snippet_iff O L Fo)|apply (noisy_snippet O L Fo)|exact K3].
    + eapply (all_links (g_triples g) "annotation"); [apply (annotation_iff L)|apply (noisy_annotation O L Fo)|exact K4].
    + do 3 eexists. split; [eapply (all_links (g_triples g) "relationship"); [apply (relationship_iff O L Fo)|apply (noisy_relationship O L Fo)|exact K5]|].
      split; [eapply (all_links (g_triples g) "hasFile"); [apply (implied_iff L)|apply (noisy_implied O L Fo)|exact K6]|].
      split; [eapply (all_links (g_triples g) "describesPackage"); [apply (implied_iff L)|apply (noisy_implied O L Fo)|exact K7]|].
      apply added_iff. reflexivity.
    + eapply (all_links (g_triples g) "hasExtractedLicensingInfo"); [intros; apply (extracted_iff L)|intro; apply (noisy_extracted O L Fo)|exact K8].
  - intros [C P F S1 An (rs & cs & ds & R1 & R2 & R3 & R4) Ex]. destruct d as [ci ps fs ss ans rels exs].
    unfold prefixes in *. cbn [do_ci do_packages do_files do_snippets do_annotations do_relationships do_extracted] in *. apply creation_iff in C. apply added_iff in R4.
    apply bind_ok. exists ci. split; [exact C|].
    apply bind_ok. exists ([], ps). split; [eapply (all_of (g_triples g) "Package"); [apply (package_iff O L Fo)|apply (noisy_package O L Fo)|exact P]|]. lazy beta iota.
    apply bind_ok. exists ([], fs). split; [eapply (all_of (g_triples g) "File"); [apply (file_iff O L Fo)|apply (noisy_file O L Fo)|exact F]|]. lazy beta iota.
    apply bind_ok. exists ([], ss). split; [eapply (all_of (g_triples g) "Snippet"); [apply (snippet_iff O L Fo)|apply (noisy_snippet O L Fo)|exact S1]|]. lazy beta iota.
    apply bind_ok. exists ([], ans). split; [eapply (all_links (g_triples g) "annotation"); [apply (annotation_iff L)|apply (noisy_annotation O L Fo)|exact An]|]. lazy beta iota.
    apply bind_ok. exists ([], rs). split; [eapply (all_links (g_triples g) "relationship"); [apply (relationship_iff O L Fo)|apply (noisy_relationship O L Fo)|exact R1]|]. lazy beta iota.
    apply bind_ok. exists ([], cs). split; [eapply (all_links (g_triples g) "hasFile"); [apply (implied_iff L)|apply (noisy_implied O L Fo)|exact R2]|]. lazy beta iota.
    apply bind_ok. exists ([], ds). split; [eapply (all_links (g_triples g) "describesPackage"); [apply (implied_iff L)|apply (noisy_implied O L Fo)|exact R3]|]. lazy beta iota.
    apply bind_ok. exists ([], exs). split; [eapply (all_links (g_triples g) "hasExtractedLicensingInfo"); [intros; apply (extracted_iff L)|intro; apply (noisy_extracted O L Fo)|exact Ex]|]. lazy beta iota.
    apply raise_if_ok. split; [reflexivity|]. rewrite <- R4. reflexivity.
Qed.
End Reading.
