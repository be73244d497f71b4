(** Documents read from RDF, saved as RDF. *)
From Verif Require Import Py PyFacts Data Oracles Basics BasicsSpec JsonSpec Rdf RdfParser RdfReadSpec ResaveSpec TvResaveSpec RdfResaveSpec RdfResave.
From Verif Require Resave DocUtils DocUtilsFacts ValidationSpec RdfSpec TvResave2 RdfWriteFacts.
From Verif Require Import RdfSpec.

Section Read.
Context (O : oracles) (L : rdf_library) (g : graph) (d : document) (HD : DocumentIn O L g d).
Context (W : ValidationSpec.WellFormed O (ci_version (do_ci d)) d) (K : RdfKept O d).
Local Notation G := (g_triples g).
Local Notation bound := (prefixes g d).
Local Notation ns := (ci_namespace (do_ci d)).

(** ** Texts *)
Lemma filled s : In (Some s) (single_texts d) -> s <> [].
Proof. exact (proj1 (rk_blank _ _ K) s). Qed.
Lemma text_clean n s : TextIs n s -> In (Some s) (single_texts d) -> Clean s.
Proof. intros H Hi. split; [exact (filled _ Hi)|exact (text_trimmed _ _ H)]. Qed.
Lemma at_clean s p x : At L G TextIs s p x -> In (Some x) (single_texts d) -> Clean x.
Proof. intros H Hi. destruct (at_in _ _ _ _ _ _ H) as (n & X). exact (text_clean _ _ X Hi). Qed.
Lemma maybe_clean s p o : MaybeAt L G TextIs s p o -> In o (single_texts d) -> IfSome Clean o.
Proof. destruct o as [x|]; [exact (at_clean s p x)|intros; exact Logic.I]. Qed.
Lemma word_clean n x : Word L TextIs n x -> In (word_text (Some x)) (single_texts d) -> (forall s, x = NVal s -> ~ Reserved s) -> CleanNN x.
Proof. destruct x as [s| |]; try (intros; exact Logic.I). intros (_ & _ & H) Hi N. split; [exact (text_clean _ _ H Hi)|exact (N s eq_refl)]. Qed.
Lemma copyright_clean s p o : MaybeAt L G (Word L TextIs) s p o -> In (word_text o) (single_texts d) -> In (word_text o) (copyright_texts d) -> IfSome CleanNN o.
Proof.
  destruct o as [x|]; [|intros; exact Logic.I]. intros H Hi Hc. destruct (maybe_in _ _ _ _ _ _ H) as (n & X). apply (word_clean _ _ X Hi). intros t ->.
  destruct (rk_words _ _ K) as [HC _]. destruct (HC t Hc) as [A B]. intros [E|E]; contradiction.
Qed.

(** ** Places of texts *)
Lemma in_packages p o : In p (do_packages d) ->
  In o ([Some (pk_name p); word_text (Some (pk_download p)); pk_version p; pk_file_name p;
         match pk_verif p with Some v => Some (vc_value v) | None => None end; word_text (pk_homepage p);
         pk_source_info p; pk_lic_comment p; word_text (pk_copyright p); pk_summary p; pk_description p; pk_comment p]
        ++ map (fun c => Some (ck_value c)) (pk_checksums p) ++ flat_map (fun r => [Some (er_locator r); er_comment r]) (pk_refs p)) -> In o (single_texts d).
Proof. intros Hp Ho. unfold single_texts. rewrite !in_app_iff. right. right. left. apply in_flat_map. exists p. split; [exact Hp|exact Ho]. Qed.
Lemma in_files p o : In p (do_files d) ->
  In o ([Some (fi_name p); fi_lic_comment p; word_text (fi_copyright p); fi_comment p; fi_notice p] ++ map (fun c => Some (ck_value c)) (fi_checksums p)) -> In o (single_texts d).
Proof. intros Hp Ho. unfold single_texts. rewrite !in_app_iff. right. right. right. left. apply in_flat_map. exists p. split; [exact Hp|exact Ho]. Qed.
Lemma in_snippets p o : In p (do_snippets d) -> In o [sn_lic_comment p; word_text (sn_copyright p); sn_comment p; sn_name p] -> In o (single_texts d).
Proof. intros Hp Ho. unfold single_texts. rewrite !in_app_iff. do 4 right. left. apply in_flat_map. exists p. split; [exact Hp|exact Ho]. Qed.
Lemma in_annotations p : In p (do_annotations d) -> In (Some (an_comment p)) (single_texts d).
Proof. intros Hp. unfold single_texts. rewrite !in_app_iff. do 5 right. left. apply (in_map (fun a => Some (an_comment a)) _ _ Hp). Qed.
Lemma in_relationships p : In p (do_relationships d) -> In (re_comment p) (single_texts d).
Proof. intros Hp. unfold single_texts. rewrite !in_app_iff. do 6 right. left. apply (in_map re_comment _ _ Hp). Qed.
Lemma in_extracted p o : In p (do_extracted d) -> In o [el_text p; name_text (el_name p); el_comment p] -> In o (single_texts d).
Proof. intros Hp Ho. unfold single_texts. rewrite !in_app_iff. do 7 right. apply in_flat_map. exists p. split; [exact Hp|exact Ho]. Qed.
Lemma in_refs p o : In p (ci_refs (do_ci d)) -> In o [Some (edr_uri p); Some (ck_value (edr_checksum p))] -> In o (single_texts d).
Proof. intros Hp Ho. unfold single_texts. rewrite !in_app_iff. right. left. apply in_flat_map. exists p. split; [exact Hp|exact Ho]. Qed.

(** ** Ids *)
Lemma one_line i : In i (mentioned_ids d) -> ~ In LF i.
Proof. exact (rk_ids _ _ K i). Qed.
Lemma mentioned i : In i (ids_in d) -> In i (mentioned_ids d).
Proof. intro H. apply in_or_app. left. exact H. Qed.
Lemma internal_rdf i : ValidationSpec.InternalId i -> ~ In LF i -> RdfId i.
Proof. exact (TvResave2.modulo_line _ i). Qed.
Lemma element_in_ids i : In i (element_ids d) -> In i (ids_in d).
Proof. unfold element_ids, ids_in. rewrite !in_app_iff. intro H. right. rewrite !in_app_iff. tauto. Qed.
Lemma element_rdf i : In i (element_ids d) -> ValidationSpec.ElementId d i -> RdfId i.
Proof.
  intros Hi [H|H]; [|destruct (rk_own _ _ K i Hi H)]. apply (internal_rdf _ H). apply one_line, mentioned, element_in_ids. exact Hi.
Qed.
Lemma external_rdf i : ValidationSpec.ExternalId d i -> ~ In LF i -> RdfRef (ci_refs (do_ci d)) i.
Proof.
  intros (a & b & -> & Ha & Hb & Hr) N. right. unfold ValidationSpec.external_ids in Hr. apply in_map_iff in Hr as (r & <- & Hr). exists r, b. split; [exact Hr|].
  split; [|reflexivity]. apply (internal_rdf _ Hb). intro X. apply N. rewrite !in_app_iff. auto.
Qed.
Lemma resolves_rdf i : ValidationSpec.Resolves d i -> ~ In LF i -> RdfRef (ci_refs (do_ci d)) i.
Proof. intros [[H _]|H] N; [left; exact (internal_rdf _ H N)|exact (external_rdf _ H N)]. Qed.

(** ** Licenses *)
Lemma opt_dnf (o : option license) : (forall e, o = Some (NVal e) -> LicenseOf d e) -> IfSome (DnfLicense O) o.
Proof. destruct o as [[e| |]|]; try (intros; exact Logic.I). intro H. exact (rk_licenses _ _ K e (H e eq_refl)). Qed.
Lemma list_dnf (l : list license) : (forall e, In (NVal e) l -> LicenseOf d e) -> Forall (DnfLicense O) l.
Proof. intro H. apply Forall_forall. intros [e| |] Hi; try exact Logic.I. exact (rk_licenses _ _ K e (H e Hi)). Qed.

(** ** Parts *)
Lemma checksum_clean s p l : EachAt G (ChecksumIn L G) s p l -> incl (map (fun c => Some (ck_value c)) l) (single_texts d) -> Forall (fun c => Clean (ck_value c)) l.
Proof.
  intros H Hi. apply Forall_forall. intros c Hc. destruct (each_in _ _ _ _ _ _ H Hc) as (n & [_ X]). apply (at_clean _ _ _ X). apply Hi.
  apply (in_map (fun c => Some (ck_value c)) _ _ Hc).
Qed.
Lemma location_free s : ValidationSpec.DownloadLocation s -> ~ Reserved s.
Proof. intros H [E|E]; apply TvResave.location_plain in H as [A B]; contradiction. Qed.

(** elements with shorter lists *)
Definition shorter_package (p : package) ck info refs attr : package :=
  {| pk_id := pk_id p; pk_name := pk_name p; pk_download := pk_download p; pk_version := pk_version p;
     pk_file_name := pk_file_name p; pk_supplier := pk_supplier p; pk_originator := pk_originator p;
     pk_files_analyzed := pk_files_analyzed p; pk_verif := pk_verif p; pk_checksums := ck;
     pk_homepage := pk_homepage p; pk_source_info := pk_source_info p; pk_concluded := pk_concluded p;
     pk_info := info; pk_declared := pk_declared p; pk_lic_comment := pk_lic_comment p;
     pk_copyright := pk_copyright p; pk_summary := pk_summary p; pk_description := pk_description p;
     pk_comment := pk_comment p; pk_refs := refs;
     pk_attribution := attr; pk_purpose := pk_purpose p; pk_release := pk_release p;
     pk_built := pk_built p; pk_valid_until := pk_valid_until p |}.
Definition shorter_file (f : file) ck types info contributors attr : file :=
  {| fi_name := fi_name f; fi_id := fi_id f; fi_checksums := ck; fi_types := types;
     fi_concluded := fi_concluded f; fi_info := info; fi_lic_comment := fi_lic_comment f;
     fi_copyright := fi_copyright f; fi_comment := fi_comment f; fi_notice := fi_notice f;
     fi_contributors := contributors; fi_attribution := attr |}.
Definition shorter_snippet (s : snippet) info attr : snippet :=
  {| sn_id := sn_id s; sn_file := sn_file s; sn_bytes := sn_bytes s; sn_lines := sn_lines s;
     sn_concluded := sn_concluded s; sn_info := info; sn_lic_comment := sn_lic_comment s;
     sn_copyright := sn_copyright s; sn_comment := sn_comment s; sn_name := sn_name s; sn_attribution := attr |}.
Definition shorter_extracted (e : extracted) xrefs : extracted :=
  {| el_id := el_id e; el_text := el_text e; el_name := el_name e; el_xrefs := xrefs; el_comment := el_comment e |}.
Definition shorter_creation (c : creation_info) creators : creation_info :=
  {| ci_version := ci_version c; ci_id := ci_id c; ci_name := ci_name c; ci_namespace := ci_namespace c;
     ci_creators := creators; ci_created := ci_created c; ci_creator_comment := ci_creator_comment c;
     ci_data_license := ci_data_license c; ci_refs := ci_refs c;
     ci_list_version := ci_list_version c; ci_doc_comment := ci_doc_comment c |}.

Lemma rdf_package p ck info refs attr : In p (do_packages d) -> incl ck (pk_checksums p) -> incl info (pk_info p) -> incl refs (pk_refs p) -> NoDup info -> NoDup attr ->
  RdfPackage O (shorter_package p ck info refs attr).
Proof.
  intros Hp I1 I2 I3 R1 R2. destruct (says_package _ _ _ _ HD p Hp) as (s & X). pose proof (ValidationSpec.wf_packages _ _ _ W) as WP. rewrite Forall_forall in WP. specialize (WP p Hp).
  assert (IT : forall o, _ -> In o (single_texts d)) by exact (fun o => in_packages p o Hp).
  constructor; try assumption;
    try (eapply maybe_clean; [eapply (gp_version _ _ _ _ _ _ _ X) || eapply (gp_file_name _ _ _ _ _ _ _ X) || eapply (gp_source_info _ _ _ _ _ _ _ X)
      || eapply (gp_lic_comment _ _ _ _ _ _ _ X) || eapply (gp_summary _ _ _ _ _ _ _ X) || eapply (gp_description _ _ _ _ _ _ _ X) || eapply (gp_comment _ _ _ _ _ _ _ X)|apply IT; cbn [In app]; tauto]);
    try (eapply maybe_if; [eapply (gp_release _ _ _ _ _ _ _ X) || eapply (gp_built _ _ _ _ _ _ _ X) || eapply (gp_valid _ _ _ _ _ _ _ X)|exact date_plain]).
  - apply (element_rdf (pk_id p)); [|exact (ValidationSpec.vp_id _ _ _ _ WP)]. apply in_or_app. left. apply in_map. exact Hp.
  - apply (at_clean _ _ _ (gp_name _ _ _ _ _ _ _ X)). apply IT. left. reflexivity.
  - destruct (at_in _ _ _ _ _ _ (gp_download _ _ _ _ _ _ _ X)) as (n & Y). apply (word_clean _ _ Y); [apply IT; right; left; reflexivity|].
    intros u E. exact (location_free _ (ValidationSpec.vp_download _ _ _ _ WP u E)).
  - apply (maybe_actor _ _ _ _ _ (gp_supplier _ _ _ _ _ _ _ X)). intros a Ea. apply (rk_actors _ _ K). right. left. exists p. tauto.
  - apply (maybe_actor _ _ _ _ _ (gp_originator _ _ _ _ _ _ _ X)). intros a Ea. apply (rk_actors _ _ K). right. left. exists p. tauto.
  - cbn [shorter_package pk_verif]. destruct (pk_verif p) as [v|] eqn:E; [|exact Logic.I]. pose proof (gp_verif _ _ _ _ _ _ _ X) as Y. rewrite E in Y. destruct (maybe_in _ _ _ _ _ _ Y) as (n & [Z _]). constructor.
    + apply (at_clean _ _ _ Z). apply IT. rewrite ?E. cbn [In app]. tauto.
    + exact (rk_excluded _ _ K p v Hp E).
  - apply (incl_Forall I1). apply (checksum_clean _ _ _ (gp_checksums _ _ _ _ _ _ _ X)). intros o Ho. apply IT. rewrite !in_app_iff. tauto.
  - pose proof (gp_homepage _ _ _ _ _ _ _ X) as Y. cbn [shorter_package pk_homepage]. destruct (pk_homepage p) as [[h| |]|] eqn:E; try exact Logic.I; try contradiction Y. exists h. split; [reflexivity|].
    apply (at_clean _ _ _ Y). apply IT. rewrite ?E. cbn [word_text In app]. tauto.
  - apply opt_dnf. intros e Ee. left. exists p. tauto.
  - split; [|exact R1]. apply list_dnf. intros e Ee. apply I2 in Ee. left. exists p. tauto.
  - apply opt_dnf. intros e Ee. left. exists p. tauto.
  - apply (copyright_clean _ _ _ (gp_copyright _ _ _ _ _ _ _ X)); [apply IT; cbn [In app]; tauto|]. apply in_or_app. left. apply (in_map (fun p => word_text (pk_copyright p)) _ p Hp).
  - apply Forall_forall. intros r Hr. apply I3 in Hr. destruct (each_in _ _ _ _ _ _ (gp_refs _ _ _ _ _ _ _ X) Hr) as (n & Y).
    assert (IR : forall o, In o [Some (er_locator r); er_comment r] -> In o (single_texts d)).
    { intros o Ho. apply IT. rewrite !in_app_iff. right. right. apply in_flat_map. exists r. split; [exact Hr|exact Ho]. }
    constructor.
    + apply (at_clean _ _ _ (gr_locator _ _ _ _ _ Y)). apply IR. left. reflexivity.
    + apply (maybe_clean _ _ _ (gr_comment _ _ _ _ _ Y)). apply IR. right. left. reflexivity.
    + exact (rk_types _ _ K p r Hp Hr).
Qed.
Lemma rdf_file p ck types info contributors attr : In p (do_files d) -> incl ck (fi_checksums p) -> incl info (fi_info p) -> NoDup types -> NoDup info -> NoDup contributors -> NoDup attr ->
  RdfFile O (shorter_file p ck types info contributors attr).
Proof.
  intros Hp I1 I2 R1 R2 R3 R4. destruct (says_file _ _ _ _ HD p Hp) as (s & X). pose proof (ValidationSpec.wf_files _ _ _ W) as WP. rewrite Forall_forall in WP. specialize (WP p Hp).
  assert (IT : forall o, _ -> In o (single_texts d)) by exact (fun o => in_files p o Hp).
  constructor; try assumption;
    try (eapply maybe_clean; [eapply (gf_lic_comment _ _ _ _ _ _ _ X) || eapply (gf_comment _ _ _ _ _ _ _ X) || eapply (gf_notice _ _ _ _ _ _ _ X)|apply IT; cbn [In app]; tauto]).
  - apply (at_clean _ _ _ (gf_name _ _ _ _ _ _ _ X)). apply IT. left. reflexivity.
  - apply (element_rdf (fi_id p)); [|exact (ValidationSpec.vf_id _ _ _ _ WP)]. apply in_or_app. right. apply in_or_app. left. apply in_map. exact Hp.
  - apply (incl_Forall I1). apply (checksum_clean _ _ _ (gf_checksums _ _ _ _ _ _ _ X)). intros o Ho. apply IT. rewrite !in_app_iff. tauto.
  - apply opt_dnf. intros e Ee. right. left. exists p. tauto.
  - split; [|exact R2]. apply list_dnf. intros e Ee. apply I2 in Ee. right. left. exists p. tauto.
  - apply (copyright_clean _ _ _ (gf_copyright _ _ _ _ _ _ _ X)); [apply IT; cbn [In app]; tauto|]. apply in_or_app. right. apply in_or_app. left. apply (in_map (fun p => word_text (fi_copyright p)) _ p Hp).
Qed.
Lemma valid_nonzero r : ValidationSpec.ValidRange r -> NonZero r.
Proof. intros [A B]. split; lia. Qed.
Lemma rdf_snippet p info attr : In p (do_snippets d) -> incl info (sn_info p) -> NoDup info -> NoDup attr -> RdfSnippet O (ci_refs (do_ci d)) (shorter_snippet p info attr).
Proof.
  intros Hp I2 R1 R2. destruct (says_snippet _ _ _ _ HD p Hp) as (s & X). pose proof (ValidationSpec.wf_snippets _ _ _ W) as WP. rewrite Forall_forall in WP. specialize (WP p Hp).
  assert (IT : forall o, _ -> In o (single_texts d)) by exact (fun o => in_snippets p o Hp).
  constructor; try assumption;
    try (eapply maybe_clean; [eapply (gn_lic_comment _ _ _ _ _ _ _ X) || eapply (gn_comment _ _ _ _ _ _ _ X) || eapply (gn_name _ _ _ _ _ _ _ X)|apply IT; cbn [In app]; tauto]).
  - apply (element_rdf (sn_id p)); [|exact (ValidationSpec.vs_id _ _ _ _ WP)]. apply in_or_app. right. apply in_or_app. right. apply in_map. exact Hp.
  - assert (N : ~ In LF (sn_file p)). { apply one_line. apply in_or_app. right. apply in_or_app. left. apply in_map. exact Hp. }
    destruct (ValidationSpec.vs_file _ _ _ _ WP) as [[H _]|H]; [left; exact (internal_rdf _ H N)|exact (external_rdf _ H N)].
  - exact (valid_nonzero _ (ValidationSpec.vs_bytes _ _ _ _ WP)).
  - cbn [shorter_snippet sn_lines]. pose proof (rk_lines _ _ K p Hp) as Y. pose proof (ValidationSpec.vs_lines _ _ _ _ WP) as V. destruct (sn_lines p) as [r|]; [|contradiction]. exists r. split; [reflexivity|exact (valid_nonzero _ (V r eq_refl))].
  - apply opt_dnf. intros e Ee. right. right. exists p. tauto.
  - split; [|exact R1]. apply list_dnf. intros e Ee. apply I2 in Ee. right. right. exists p. tauto.
  - apply (copyright_clean _ _ _ (gn_copyright _ _ _ _ _ _ _ X)); [apply IT; cbn [In app]; tauto|]. apply in_or_app. right. apply in_or_app. right. apply (in_map (fun p => word_text (sn_copyright p)) _ p Hp).
Qed.
Lemma rdf_annotation p : In p (do_annotations d) -> RdfAnnotation (ci_refs (do_ci d)) p.
Proof.
  intro Hp. destruct (says_annotation _ _ _ _ HD p Hp) as (s & X). destruct (annotation_plain _ _ _ _ HD p (rk_actors _ _ K) Hp). constructor; try assumption.
  - pose proof (ValidationSpec.wf_annotations _ _ _ W) as WP. rewrite Forall_forall in WP. apply resolves_rdf; [exact (proj2 (WP p Hp))|]. apply one_line.
    do 2 (apply in_or_app; right). apply in_or_app. left. apply in_map. exact Hp.
  - apply (at_clean _ _ _ (ga_comment _ _ _ _ _ _ X)). exact (in_annotations p Hp).
Qed.
Lemma rdf_relationship p : In p (do_relationships d) -> RdfRelationship (ci_refs (do_ci d)) p.
Proof.
  intro Hp. pose proof (ValidationSpec.wf_relationships _ _ _ W) as WP. rewrite Forall_forall in WP. destruct (WP p Hp) as (V1 & V2 & _).
  assert (N : forall i, In i (re_id p :: match re_related p with NVal i => [i] | _ => [] end) -> ~ In LF i).
  { intros i Hi. apply one_line. do 3 (apply in_or_app; right). apply in_flat_map. exists p. split; [exact Hp|exact Hi]. }
  constructor.
  - apply (resolves_rdf _ V1). apply N. left. reflexivity.
  - destruct (re_related p) as [i| |]; try exact Logic.I. apply (resolves_rdf _ (V2 i eq_refl)). apply N. right. left. reflexivity.
  - destruct (says_relationship _ _ _ _ HD p Hp) as [(s & X)|X]; [|rewrite X; exact Logic.I]. apply (maybe_clean _ _ _ (gl_comment _ _ _ _ _ _ X)). exact (in_relationships p Hp).
Qed.
Lemma extracted_id p : In p (do_extracted d) -> exists i, el_id p = Some i /\ ValidationSpec.Prefixed $"LicenseRef-" ValidationSpec.IdChar i.
Proof.
  intro Hp. destruct (says_extracted _ _ _ _ HD p Hp) as (s & X). pose proof (ValidationSpec.wf_extracted _ _ _ W) as WP. rewrite Forall_forall in WP. destruct (WP p Hp) as (V1 & _).
  assert (E : exists i, el_id p = Some i).
  { destruct (ge_id _ _ _ _ _ X) as (o & _ & Y). destruct o as [[|c t]|]; [|eauto|]; destruct Y as [(_ & u & x & _ & _ & Y)|(_ & x & _ & Y)]; eauto. }
  destruct E as (i & E). exists i. split; [exact E|]. assert (Ni : i <> []) by (intros ->; exact (proj2 (rk_blank _ _ K) p Hp E)). destruct (V1 i E Ni) as [V _].
  apply (TvResave2.modulo_line _ i V). apply one_line, mentioned. unfold ids_in. right. rewrite !in_app_iff. do 4 right. apply in_flat_map. exists p. split; [exact Hp|]. rewrite E. left. reflexivity.
Qed.
Lemma rdf_extracted p xrefs : In p (do_extracted d) -> NoDup xrefs -> RdfExtracted (shorter_extracted p xrefs).
Proof.
  intros Hp R1. destruct (says_extracted _ _ _ _ HD p Hp) as (s & X). assert (IT : forall o, _ -> In o (single_texts d)) by exact (fun o => in_extracted p o Hp). constructor.
  - destruct (extracted_id p Hp) as (i & E & V). exists i. split; [exact E|].
    destruct (TvResave2.prefixed_unspaced _ _ _ V) as [A B]; [intros c Hc; apply RdfWriteFacts.id_char_not; exact Hc|reflexivity|]. split; [exact A|]. split; [apply Forall_forall; exact B|].
    destruct V as (t & -> & _ & F). intro Hi. apply in_app_or in Hi as [Hi|Hi].
    + revert Hi. apply has_char_false. reflexivity.
    + rewrite Forall_forall in F. pose proof (RdfWriteFacts.id_char_not _ (F _ Hi)) as Z. intuition congruence.
  - apply (maybe_clean _ _ _ (ge_text _ _ _ _ _ X)). apply IT. left. reflexivity.
  - pose proof (ge_name _ _ _ _ _ X) as Y. cbn [shorter_extracted el_name]. destruct (el_name p) as [[n|]|] eqn:E; try exact Logic.I. destruct (maybe_in _ _ _ _ _ _ Y) as (m & _ & _ & Z). split.
    + apply (text_clean _ _ Z). apply IT. rewrite ?E. right. left. reflexivity.
    + intros [ -> | -> ]; [exact (rk_names _ _ K p Hp E)|]. destruct (rk_words _ _ K) as [_ HN]. exact (HN p Hp E).
  - exact R1.
  - apply (maybe_clean _ _ _ (ge_comment _ _ _ _ _ X)). apply IT. cbn [In]. tauto.
Qed.
Lemma docrefs_in n0 b l rs r : DocRefs L G n0 b l rs -> In r rs -> exists n, At L G TextIs n (term "spdxDocument") (edr_uri r) /\ At L G (ChecksumIn L G) n (term "checksum") (edr_checksum r).
Proof. intro H. induction H; intro Hr; [contradiction|]. destruct Hr as [<-|Hr]; eauto. Qed.
Lemma docref_id r : In r (ci_refs (do_ci d)) -> ValidationSpec.Prefixed $"DocumentRef-" ValidationSpec.DocRefChar (edr_id r).
Proof.
  intro Hr. destruct (ValidationSpec.wf_ci _ _ _ W) as (_ & _ & _ & _ & V). rewrite Forall_forall in V. destruct (V r Hr) as [V1 _]. apply (TvResave2.modulo_line _ _ V1).
  apply one_line, mentioned. unfold ids_in. right. rewrite in_app_iff. left. apply in_map. exact Hr.
Qed.
Lemma rdf_creation creators : incl creators (ci_creators (do_ci d)) -> creators <> [] -> NoDup creators -> RdfCreationInfo (shorter_creation (do_ci d) creators).
Proof.
  intros I1 N1 R1.
  destruct (creators_readable _ _ _ _ HD (rk_actors _ _ K)) as [C1 C2]. pose proof (created_plain _ _ _ _ HD) as C3.
  destruct HD as [(doc & [_ _ X1 X2 X3 X4 (b & bs & _ & _ & _ & _ & _ & _ & X5) (l & _ & X6)]) _ _ _ _ _ _].
  assert (IT : forall o, In o [Some (ci_version (do_ci d)); Some (ci_name (do_ci d)); ci_creator_comment (do_ci d); ci_doc_comment (do_ci d)] -> In o (single_texts d)).
  { intros o Ho. unfold single_texts. rewrite in_app_iff. left. exact Ho. }
  constructor; try assumption.
  - apply (at_clean _ _ _ X1). apply IT. cbn [In]. tauto.
  - cbn [shorter_creation ci_id]. destruct (ValidationSpec.wf_ci _ _ _ W) as (-> & _). exists $"DOCUMENT". split; [reflexivity|]. split; [discriminate|].
    apply Forall_forall. intros c Hc. left. left. cbn in Hc. repeat (destruct Hc as [<-|Hc]; [lia|]). destruct Hc.
  - apply (at_clean _ _ _ X3). apply IT. cbn [In]. tauto.
  - exact (rk_namespace _ _ K).
  - split; [exact N1|]. split; [exact R1|exact (incl_Forall I1 C2)].
  - apply (maybe_clean _ _ _ X5). apply IT. cbn [In]. tauto.
  - split; [|exact (proj1 (rk_distinct _ _ K))]. apply Forall_forall. intros r Hr. destruct (docrefs_in _ _ _ _ _ X6 Hr) as (n & Y1 & Y2). destruct (rk_refs _ _ K r Hr). constructor; try assumption.
    + exact (docref_id r Hr).
    + apply (at_clean _ _ _ Y1). apply (in_refs r _ Hr). cbn [In]. tauto.
    + destruct (at_in _ _ _ _ _ _ Y2) as (m & [_ Y]). apply (at_clean _ _ _ Y). apply (in_refs r _ Hr). cbn [In]. tauto.
  - apply (maybe_clean _ _ _ X4). apply IT. cbn [In]. tauto.
Qed.
Lemma begin_differs (p q : pystr) i j (P Q : char -> Prop) : ValidationSpec.Prefixed p P i -> ValidationSpec.Prefixed q Q j -> hd_error p <> hd_error q -> p <> [] -> q <> [] -> i <> j.
Proof. intros (t & -> & _) (u & -> & _) H Hp Hq E. destruct p, q; try contradiction. injection E as -> _. apply H. reflexivity. Qed.
Lemma nodup_parts {A} (a b c : list A) : NoDup a -> NoDup b -> NoDup c -> (forall x, In x a -> In x b -> False) -> (forall x, In x a -> In x c -> False) -> (forall x, In x b -> In x c -> False) ->
  NoDup (a ++ b ++ c).
Proof.
  intros Ha Hb Hc H1 H2 H3. assert (T : forall l m : list A, NoDup l -> NoDup m -> (forall x, In x l -> In x m -> False) -> NoDup (l ++ m)).
  { induction l as [|x l IH]; intros m Hl Hm H; [exact Hm|]. inversion Hl; subst. cbn. constructor.
    - rewrite in_app_iff. intros [Q|Q]; [contradiction|]. exact (H x (or_introl eq_refl) Q).
    - apply IH; auto. intros y Hy. apply H. right. exact Hy. }
  apply T; auto. intros x Hx Hy. apply in_app_or in Hy as [Hy|Hy]; eauto.
Qed.
Lemma rdf_distinct : NoDup (ids_in d).
Proof.
  set (ids := ci_id (do_ci d) :: element_ids d). set (docs := map edr_id (ci_refs (do_ci d))). set (lics := flat_map (fun e => match el_id e with Some i => [i] | None => [] end) (do_extracted d)).
  assert (P : Permutation (ids ++ docs ++ lics) (ids_in d)).
  { unfold ids_in, ids. cbn [app]. constructor. fold docs lics. unfold element_ids. rewrite (app_assoc _ docs lics). rewrite (Permutation_app_comm _ docs). rewrite <- !app_assoc. reflexivity. }
  refine (Permutation_NoDup P _).
  assert (I1 : forall i, In i ids -> RdfId i).
  { intros i [<-|Hi].
    - destruct (ValidationSpec.wf_ci _ _ _ W) as (-> & _). apply (internal_rdf $"SPDXRef-DOCUMENT"); [left; exists $"DOCUMENT"; split; [reflexivity|]; split; [discriminate|]|vm_compute; intuition discriminate].
      apply Forall_forall. intros c Hc. left. left. cbn in Hc. repeat (destruct Hc as [<-|Hc]; [lia|]). destruct Hc.
    - pose proof Hi as Hi'. unfold element_ids in Hi'. rewrite !in_app_iff in Hi'. destruct Hi' as [H|[H|H]]; apply in_map_iff in H as (x & <- & Hx).
      + apply (rp_id _ _ (rdf_package x [] [] [] [] Hx (incl_nil_l _) (incl_nil_l _) (incl_nil_l _) (NoDup_nil _) (NoDup_nil _))).
      + apply (rf_id _ _ (rdf_file x [] [] [] [] [] Hx (incl_nil_l _) (incl_nil_l _) (NoDup_nil _) (NoDup_nil _) (NoDup_nil _) (NoDup_nil _))).
      + apply (rs_id _ _ _ (rdf_snippet x [] [] Hx (incl_nil_l _) (NoDup_nil _) (NoDup_nil _))). }
  assert (I2 : forall i, In i docs -> ValidationSpec.Prefixed $"DocumentRef-" ValidationSpec.DocRefChar i).
  { intros i Hi. apply in_map_iff in Hi as (r & <- & Hr). exact (docref_id r Hr). }
  assert (I3 : forall i, In i lics -> ValidationSpec.Prefixed $"LicenseRef-" ValidationSpec.IdChar i).
  { intros i Hi. apply in_flat_map in Hi as (e & He & Hi). destruct (extracted_id e He) as (j & E & V). rewrite E in Hi. destruct Hi as [<-|[]]. exact V. }
  apply nodup_parts.
  - pose proof (ValidationSpec.wf_distinct _ _ _ W) as N. refine (Permutation_NoDup _ N). unfold ids, ValidationSpec.all_ids, element_ids. constructor. rewrite !app_assoc. apply Permutation_app_tail, Permutation_app_comm.
  - exact (proj1 (rk_distinct _ _ K)).
  - assert (E : map Some lics = map el_id (do_extracted d)).
    { assert (T : forall e, In e (do_extracted d) -> exists i, el_id e = Some i) by (intros e He; destruct (extracted_id e He) as (i & E & _); eauto). unfold lics. clear - T.
      induction (do_extracted d) as [|e l IH]; [reflexivity|]. cbn. destruct (T e (or_introl eq_refl)) as (i & ->). cbn. f_equal. apply IH. intros x Hx. apply T. right. exact Hx. }
    pose proof (proj2 (rk_distinct _ _ K)) as N. rewrite <- E in N. clear - N. exact (NoDup_map_inv _ _ N).
  - intros x H1 H2. exact (begin_differs _ _ _ _ _ _ (I1 x H1) (I2 x H2) ltac:(discriminate) ltac:(discriminate) ltac:(discriminate) eq_refl).
  - intros x H1 H2. exact (begin_differs _ _ _ _ _ _ (I1 x H1) (I3 x H2) ltac:(discriminate) ltac:(discriminate) ltac:(discriminate) eq_refl).
  - intros x H1 H2. exact (begin_differs _ _ _ _ _ _ (I2 x H1) (I3 x H2) ltac:(discriminate) ltac:(discriminate) ltac:(discriminate) eq_refl).
Qed.
Theorem rdf_rdf : Repetitionless d -> RdfDocument O d.
Proof.
  intro R. constructor; try (apply Forall_forall; intros p Hp).
  - assert (T : RdfCreationInfo (shorter_creation (do_ci d) (ci_creators (do_ci d)))).
    { apply rdf_creation; [apply incl_refl|exact (proj1 (creators_readable _ _ _ _ HD (rk_actors _ _ K)))|exact (rep_creators _ R)]. }
    destruct (do_ci d). exact T.
  - destruct (rep_packages _ R p Hp) as [R1 R2]. pose proof (rdf_package p (pk_checksums p) (pk_info p) (pk_refs p) (pk_attribution p) Hp (incl_refl _) (incl_refl _) (incl_refl _) R1 R2) as T. destruct p. exact T.
  - destruct (rep_files _ R p Hp) as (R1 & R2 & R3 & R4).
    pose proof (rdf_file p (fi_checksums p) (fi_types p) (fi_info p) (fi_contributors p) (fi_attribution p) Hp (incl_refl _) (incl_refl _) R1 R2 R3 R4) as T. destruct p. exact T.
  - destruct (rep_snippets _ R p Hp) as (R1 & R2). pose proof (rdf_snippet p (sn_info p) (sn_attribution p) Hp (incl_refl _) R1 R2) as T. destruct p. exact T.
  - exact (rdf_annotation p Hp).
  - exact (rdf_relationship p Hp).
  - pose proof (rdf_extracted p (el_xrefs p) Hp (rep_extracted _ R p Hp)) as T. destruct p. exact T.
  - exact rdf_distinct.
Qed.

(** ** Without duplicates *)
Lemma dedup_nodup {A} (eqb : A -> A -> bool) l : (forall x, eqb x x = true) -> NoDup (DocUtils.create_list_without_duplicates eqb l).
Proof.
  intro H. induction l as [|x l IH] using rev_ind; [constructor|]. rewrite DocUtilsFacts.dedup_app. cbv zeta.
  destruct (existsb (eqb x) (DocUtils.create_list_without_duplicates eqb l)) eqn:E; [exact IH|]. refine (Permutation_NoDup (Permutation_cons_append _ _) _). constructor; [|exact IH].
  intro Hx. assert (T : existsb (eqb x) (DocUtils.create_list_without_duplicates eqb l) = true) by (apply existsb_exists; eauto). congruence.
Qed.
Lemma dedup_same {A} (eqb : A -> A -> bool) l : (forall x y, eqb x y = true <-> x = y) -> NoDup l -> DocUtils.create_list_without_duplicates eqb l = l.
Proof.
  intros H. induction l as [|x l IH] using rev_ind; [reflexivity|]. intro N. apply (Permutation_NoDup (Permutation_sym (Permutation_cons_append l x))) in N. inversion N; subst.
  rewrite DocUtilsFacts.dedup_app. cbv zeta. rewrite IH by assumption. destruct (existsb (eqb x) l) eqn:E; [|reflexivity]. apply existsb_exists in E as (y & Hy & E). apply H in E. subst. contradiction.
Qed.
Lemma map_Forall {A B} (f : A -> B) (P : B -> Prop) l : (forall x, In x l -> P (f x)) -> Forall P (map f l).
Proof. intro H. apply Forall_forall. intros y Hy. apply in_map_iff in Hy as (x & <- & Hx). auto. Qed.
Theorem rdf_dedup leq : (forall e, leq e e = true) -> RdfDocument O (DocUtils.create_document_without_duplicates leq d).
Proof.
  intro HR. pose proof (fun A dec => DocUtilsFacts.eqb_of_eq (A := A) dec) as EQ. assert (SR : forall s : pystr, str_eqb s s = true) by exact str_eqb_refl.
  assert (LR : forall l, DocUtils.license_eqb leq l l = true) by (intros [e| |]; cbn; auto).
  assert (ER : ci_refs (do_ci (DocUtils.create_document_without_duplicates leq d)) = ci_refs (do_ci d)).
  { cbn. apply dedup_same; [exact (EQ _ _)|]. exact (NoDup_map_inv _ _ (proj1 (rk_distinct _ _ K))). }
  constructor; rewrite ?ER; cbn [DocUtils.create_document_without_duplicates do_ci do_packages do_files do_snippets do_annotations do_relationships do_extracted];
    try (apply map_Forall; intros p Hp).
  - assert (E : DocUtils.dedup_ci (do_ci d) = shorter_creation (do_ci d) (DocUtils.create_list_without_duplicates (eqb_of actor_eq_dec) (ci_creators (do_ci d)))).
    { cbn in ER. unfold DocUtils.dedup_ci, shorter_creation. rewrite ER. reflexivity. }
    rewrite E. apply rdf_creation; [exact (DocUtilsFacts.dedup_incl _ _)| |apply dedup_nodup; intro x; apply EQ; reflexivity].
    apply DocUtilsFacts.dedup_nonempty. exact (proj1 (creators_readable _ _ _ _ HD (rk_actors _ _ K))).
  - apply rdf_package; try exact (DocUtilsFacts.dedup_incl _ _); try exact Hp; apply dedup_nodup; assumption.
  - apply rdf_file; try exact (DocUtilsFacts.dedup_incl _ _); try exact Hp; apply dedup_nodup; try assumption. intro x. apply DocUtilsFacts.file_type_eqb_eq. reflexivity.
  - apply rdf_snippet; try exact (DocUtilsFacts.dedup_incl _ _); try exact Hp; apply dedup_nodup; assumption.
  - apply Forall_forall. exact rdf_annotation.
  - apply Forall_forall. exact rdf_relationship.
  - apply rdf_extracted; try exact Hp. apply dedup_nodup; assumption.
  - assert (E : ids_in (DocUtils.create_document_without_duplicates leq d) = ids_in d).
    { unfold ids_in. rewrite ER. cbn [DocUtils.create_document_without_duplicates do_ci do_packages do_files do_snippets do_extracted DocUtils.dedup_ci ci_id]. rewrite !map_map.
      assert (EF : flat_map (fun e => match el_id e with Some i => [i] | None => [] end) (map DocUtils.dedup_extracted (do_extracted d)) = flat_map (fun e => match el_id e with Some i => [i] | None => [] end) (do_extracted d)).
      { induction (do_extracted d) as [|e l IH]; [reflexivity|]. cbn. rewrite IH. reflexivity. }
      rewrite EF. reflexivity. }
    rewrite E. exact rdf_distinct.
Qed.
End Read.
