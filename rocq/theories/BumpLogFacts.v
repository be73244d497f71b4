(** Facts about what the conversion to SPDX 3 reports and keeps. *)
From Verif Require Import Py Data Oracles DocUtils Payload Bump BumpFacts BumpDoc BumpLog BumpLogSpec PyFacts Cli3.

(** * The report *)
Definition Prefix (a b : list pystr) : Prop := exists r, b = a ++ r.
Lemma prefix_refl a : Prefix a a. Proof. exists []. symmetry. apply app_nil_r. Qed.
Lemma prefix_nil a : Prefix [] a. Proof. exists a. reflexivity. Qed.
Lemma prefix_app a b c : Prefix b c -> Prefix (a ++ b) (a ++ c). Proof. intros [r ->]. exists r. apply app_assoc. Qed.

Lemma no_rule f i : print_missing_conversion f rule i = not_converted f ($"conversion rule " ++ i).
Proof. reflexivity. Qed.
Lemma no_implementation f i : print_missing_conversion f implementation i = not_converted f ($"implementation " ++ i).
Proof. reflexivity. Qed.
Lemma copyright_log_is v : copyright_log v = copyright_report v.
Proof. destruct v as [[| |]|]; reflexivity. Qed.
Lemma assoc_defined t : assoc t external_ref_type_map = None <-> ~ In t defined_types.
Proof.
  change defined_types with (map fst external_ref_type_map). induction external_ref_type_map as [|[k v] l IH]; [cbn; tauto|]. cbn [assoc map fst In].
  destruct (str_eqb t k) eqn:E.
  - apply str_eqb_eq in E. subst. split; [discriminate|]. intro H. exfalso. apply H. left. reflexivity.
  - rewrite IH. assert (k <> t) by (intros ->; rewrite str_eqb_refl in E; discriminate). tauto.
Qed.
Lemma refs_log_is b refs : refs_log b refs = List.concat (map ref_report refs).
Proof.
  unfold refs_log. rewrite flat_map_concat_map. f_equal. apply map_ext. intro r. unfold ref_report. destruct (in_dec char_list_eq_dec (er_type r) defined_types) as [I|I].
  - destruct (b && is_purl r); [reflexivity|]. destruct (assoc (er_type r) external_ref_type_map) eqn:A; [reflexivity|]. apply assoc_defined in A. contradiction.
  - assert (P : is_purl r = false).
    { unfold is_purl. destruct (str_eqb (er_type r) $"purl") eqn:E; [|reflexivity]. apply str_eqb_eq in E. exfalso. apply I. rewrite E. vm_compute. tauto. }
    rewrite P, andb_false_r. apply assoc_defined in I. rewrite I, no_rule. reflexivity.
Qed.
Lemma package_log_ok p ns refs i : get_full_element_spdx_id (pk_id p) ns refs = Ok i -> package_log p ns refs = package_report p.
Proof.
  intro G. unfold package_log, package_report. rewrite G, bump_checksums, copyright_log_is, refs_log_is, !no_rule, no_implementation. reflexivity.
Qed.
Lemma file_log_ok f ns refs i : get_full_element_spdx_id (fi_id f) ns refs = Ok i -> file_log f ns refs = file_report f.
Proof. intro G. unfold file_log, file_report. rewrite G, bump_checksums, copyright_log_is, !no_rule. reflexivity. Qed.
Lemma snippet_log_ok s ns refs i : get_full_element_spdx_id (sn_id s) ns refs = Ok i -> snippet_log s ns refs = snippet_report s.
Proof. intro G. unfold snippet_log, snippet_report. rewrite G, copyright_log_is, !no_rule. reflexivity. Qed.
Lemma relationship_log_is r : relationship_log r = relationship_report r.
Proof.
  unfold relationship_log, relationship_report. destruct (re_type r), (re_related r); cbn [relationship_mapping plain swapped dependency rp_swap determine_completeness_and_to snd];
    rewrite ?no_rule; reflexivity.
Qed.
Lemma annotation_log_is a : annotation_log a = annotation_report a.
Proof. unfold annotation_log, annotation_report. destruct (ac_type (an_annotator a)); reflexivity. Qed.
Lemma document_refs l : exists m, map_result bump_external_document_ref l = Ok m.
Proof.
  induction l as [|r l [m IH]]; [exists []; reflexivity|]. cbn [map_result]. unfold bump_external_document_ref at 1. rewrite bump_checksum_is. cbn [bind]. rewrite IH. eexists. reflexivity.
Qed.
Lemma creation_log_is c : creation_log c = creation_report c.
Proof.
  unfold creation_log, creation_report. destruct (document_refs (ci_refs c)) as [m ->]. rewrite !no_rule.
  match goal with |- _ ++ _ ++ ?a = _ ++ ?b => enough (H : a = b) by (rewrite H; reflexivity) end.
  assert (A : existsb (fun a => is_agent (ac_type a)) (ci_creators c) = true <-> In AT_PERSON (map ac_type (ci_creators c)) \/ In AT_ORGANIZATION (map ac_type (ci_creators c))).
  { rewrite existsb_exists, !in_map_iff. split.
    - intros (a & I & T). destruct (ac_type a) eqn:E; try discriminate T; eauto.
    - intros [(a & E & I)|(a & E & I)]; exists a; rewrite E; auto. }
  destruct (existsb (fun a => is_agent (ac_type a)) (ci_creators c)) eqn:X.
  - destruct (in_dec actor_type_eq_dec AT_PERSON _); [reflexivity|]. destruct (in_dec actor_type_eq_dec AT_ORGANIZATION _); [reflexivity|]. tauto.
  - destruct (in_dec actor_type_eq_dec AT_PERSON _); [destruct A as [_ A]; discriminate A; tauto|].
    destruct (in_dec actor_type_eq_dec AT_ORGANIZATION _); [destruct A as [_ A]; discriminate A; tauto|]. reflexivity.
Qed.

Lemma each_log_ok {A} (f : A -> bstate -> result bstate) lines rep k l : (forall x st st', f x st = Ok st' -> lines x = rep x) ->
  forall st st', each f l st = Ok st' -> each_log f lines l st k = List.concat (map rep l) ++ k st'.
Proof.
  intro H. induction l as [|x l IH]; intros st st' E; cbn [each each_log map List.concat] in *; [injection E as ->; reflexivity|].
  apply bind_inv in E as (st1 & E1 & E2). rewrite E1, (H _ _ _ E1), (IH _ _ E2). apply app_assoc.
Qed.
Lemma each_log_prefix {A} (f : A -> bstate -> result bstate) lines rep k rest l : (forall x st st', f x st = Ok st' -> lines x = rep x) ->
  (forall x, Prefix (lines x) (rep x)) -> (forall st, Prefix (k st) rest) -> forall st, Prefix (each_log f lines l st k) (List.concat (map rep l) ++ rest).
Proof.
  intros H P K. induction l as [|x l IH]; intro st; cbn [each_log map List.concat]; [apply K|]. destruct (f x st) as [st'|e] eqn:E.
  - rewrite (H _ _ _ E), <- app_assoc. apply prefix_app, IH.
  - destruct (P x) as [r ->]. rewrite app_nil_r. exists (r ++ List.concat (map rep l) ++ rest). rewrite <- !app_assoc. reflexivity.
Qed.
Lemma package_ok p ns refs doc st st' : bump_package p ns refs doc st = Ok st' -> package_log p ns refs = package_report p.
Proof. unfold bump_package. intro B. apply bind_inv in B as (i & G & _). exact (package_log_ok _ _ _ _ G). Qed.
Lemma file_ok p ns refs doc st st' : bump_file p ns refs doc st = Ok st' -> file_log p ns refs = file_report p.
Proof. unfold bump_file. intro B. apply bind_inv in B as (i & G & _). exact (file_log_ok _ _ _ _ G). Qed.
Lemma snippet_ok p ns refs doc st st' : bump_snippet p ns refs doc st = Ok st' -> snippet_log p ns refs = snippet_report p.
Proof. unfold bump_snippet. intro B. apply bind_inv in B as (i & G & _). exact (snippet_log_ok _ _ _ _ G). Qed.
Lemma package_prefix p ns refs : Prefix (package_log p ns refs) (package_report p).
Proof.
  destruct (get_full_element_spdx_id (pk_id p) ns refs) as [i|e] eqn:G; [rewrite (package_log_ok _ _ _ _ G); apply prefix_refl|].
  unfold package_log. rewrite G. apply prefix_nil.
Qed.
Lemma file_prefix p ns refs : Prefix (file_log p ns refs) (file_report p).
Proof.
  destruct (get_full_element_spdx_id (fi_id p) ns refs) as [i|e] eqn:G; [rewrite (file_log_ok _ _ _ _ G); apply prefix_refl|].
  unfold file_log. rewrite G. apply prefix_nil.
Qed.
Lemma snippet_prefix p ns refs : Prefix (snippet_log p ns refs) (snippet_report p).
Proof.
  destruct (get_full_element_spdx_id (sn_id p) ns refs) as [i|e] eqn:G; [rewrite (snippet_log_ok _ _ _ _ G); apply prefix_refl|].
  unfold snippet_log. rewrite G. apply prefix_nil.
Qed.
Lemma relationships_log_is l : flat_map relationship_log l = List.concat (map relationship_report l).
Proof. rewrite flat_map_concat_map. f_equal. apply map_ext, relationship_log_is. Qed.
Lemma annotations_ok ci ns l : forall n st st', bump_annotations l ci ns n st = Ok st' -> annotations_log l ci ns n st = List.concat (map annotation_report l).
Proof.
  induction l as [|a l IH]; intros n st st' B; [reflexivity|]. cbn [bump_annotations annotations_log map List.concat] in *. apply bind_inv in B as (st1 & B1 & B2).
  rewrite B1, annotation_log_is, (IH _ _ _ B2). reflexivity.
Qed.
Lemma annotations_prefix ci ns l : forall n st, Prefix (annotations_log l ci ns n st) (List.concat (map annotation_report l)).
Proof.
  induction l as [|a l IH]; intros n st; [apply prefix_refl|]. cbn [annotations_log map List.concat]. rewrite annotation_log_is. apply prefix_app.
  destruct (bump_annotation a ci ns n st); [apply IH|apply prefix_nil].
Qed.
Lemma log_prefix d : Prefix (conversion_log d) (report d).
Proof.
  unfold conversion_log, report. cbv zeta. rewrite creation_log_is. apply prefix_app.
  destruct (bump_creation_info (do_ci d) {| b_objs := []; b_cis := []; b_map := [] |}) as [[st doc]|e]; [|apply prefix_nil].
  apply each_log_prefix; [intros; eapply package_ok; eassumption|intro; apply package_prefix|]. intro st1.
  apply each_log_prefix; [intros; eapply file_ok; eassumption|intro; apply file_prefix|]. intro st2.
  apply each_log_prefix; [intros; eapply snippet_ok; eassumption|intro; apply snippet_prefix|]. intro st3.
  rewrite relationships_log_is. apply prefix_app, annotations_prefix.
Qed.
Lemma log_ok d st doc : bump_spdx_document d = Ok (st, doc) -> conversion_log d = report d.
Proof.
  intro B. unfold bump_spdx_document in B. unfold conversion_log, report. cbv zeta in B |- *. apply bind_inv in B as ([st0 doc0] & B0 & B). rewrite creation_log_is, B0. f_equal.
  cbv beta iota in B. apply bind_inv in B as (st1 & B1 & B). apply bind_inv in B as (st2 & B2 & B). apply bind_inv in B as (st3 & B3 & B). apply bind_inv in B as (st4 & B4 & _).
  rewrite (each_log_ok _ _ package_report _ _ (fun x s s' => package_ok x _ _ _ s s') _ _ B1). f_equal.
  rewrite (each_log_ok _ _ file_report _ _ (fun x s s' => file_ok x _ _ _ s s') _ _ B2). f_equal.
  rewrite (each_log_ok _ _ snippet_report _ _ (fun x s s' => snippet_ok x _ _ _ s s') _ _ B3). f_equal.
  rewrite relationships_log_is. f_equal. exact (annotations_ok _ _ _ _ _ _ B4).
Qed.

(** * What is lost is reported *)
Lemma reports_alone f w : Reports (not_converted f w) f.
Proof. exists [], [], w. rewrite app_nil_r. reflexivity. Qed.
Lemma in_concat {A B} (g : A -> list B) l x y : In x l -> In y (g x) -> In y (List.concat (map g l)).
Proof. intros H1 H2. apply List.in_concat. exists (g x). split; [apply in_map; exact H1|exact H2]. Qed.
Lemma lost_reported d f : Lost d f -> exists line, In line (report d) /\ Reports line f.
Proof.
  assert (PK : forall p line, In p (do_packages d) -> In line (package_report p) -> In line (report d)).
  { intros p line H1 H2. unfold report. apply in_or_app. right. apply in_or_app. left. exact (in_concat _ _ _ _ H1 H2). }
  assert (FI : forall p line, In p (do_files d) -> In line (file_report p) -> In line (report d)).
  { intros p line H1 H2. unfold report. apply in_or_app. right. apply in_or_app. right. apply in_or_app. left. exact (in_concat _ _ _ _ H1 H2). }
  assert (SN : forall p line, In p (do_snippets d) -> In line (snippet_report p) -> In line (report d)).
  { intros p line H1 H2. unfold report. do 3 (apply in_or_app; right). apply in_or_app. left. exact (in_concat _ _ _ _ H1 H2). }
  assert (LP : forall p, In (not_converted $"package2.license_info_from_files, package2.license_comment" $"conversion rule and missing definition of license profile") (package_report p)).
  { intro p. unfold package_report. apply in_or_app. right. apply in_or_app. right. left. reflexivity. }
  assert (LF : forall p, In (not_converted $"file.notice, file.contributors, file.license_info_in_file, file.license_comment"
        $"conversion rule missing definition for license profile") (file_report p)).
  { intro p. unfold file_report. apply in_or_app. right. apply in_or_app. right. left. reflexivity. }
  assert (LS : forall p, In (not_converted $"snippet.license_info_in_snippet, snippet.license_comment," $"conversion rule missing definitions for license profile") (snippet_report p)).
  { intro p. unfold snippet_report. apply in_or_app. right. apply in_or_app. right. left. reflexivity. }
  intros [v H|p x I H|p I|p x I H|p x I H|p x I H|p I H|p r I H N|p x I H|p x I H|p x I H|p x I H|p x I H|p I|p x I H|p x I H|r I H].
  - eexists. split; [unfold report; apply in_or_app; left; right; left; reflexivity|apply reports_alone].
  - eexists. split; [apply (PK p _ I); left; reflexivity|apply reports_alone].
  - eexists. split; [apply (PK p _ I); right; left; reflexivity|apply reports_alone].
  - eexists. split; [apply (PK p _ I); right; right; left; reflexivity|apply reports_alone].
  - eexists. split; [apply (PK p _ I), LP|]. exists [], $", package2.license_comment". eexists. reflexivity.
  - eexists. split; [apply (PK p _ I), LP|]. exists $"package2.license_info_from_files, ", []. eexists. reflexivity.
  - eexists. split; [apply (PK p _ I); unfold package_report; rewrite H; right; right; right; left; reflexivity|apply reports_alone].
  - eexists. split; [apply (PK p _ I)|apply reports_alone]. unfold package_report. apply in_or_app. right. apply in_or_app. right. right.
    apply (in_concat _ _ _ _ H). unfold ref_report. destruct (in_dec char_list_eq_dec (er_type r) defined_types) as [X|X]; [contradiction|]. left. reflexivity.
  - eexists. split; [apply (FI p _ I); left; reflexivity|apply reports_alone].
  - eexists. split; [apply (FI p _ I), LF|]. exists [], $", file.contributors, file.license_info_in_file, file.license_comment". eexists. reflexivity.
  - eexists. split; [apply (FI p _ I), LF|]. exists $"file.notice, ", $", file.license_info_in_file, file.license_comment". eexists. reflexivity.
  - eexists. split; [apply (FI p _ I), LF|]. exists $"file.notice, file.contributors, ", $", file.license_comment". eexists. reflexivity.
  - eexists. split; [apply (FI p _ I), LF|]. exists $"file.notice, file.contributors, file.license_info_in_file, ", []. eexists. reflexivity.
  - eexists. split; [apply (SN p _ I); left; reflexivity|apply reports_alone].
  - eexists. split; [apply (SN p _ I), LS|]. exists [], $", snippet.license_comment,". eexists. reflexivity.
  - eexists. split; [apply (SN p _ I), LS|]. exists $"snippet.license_info_in_snippet, ", $",". eexists. reflexivity.
  - eexists. split; [|apply reports_alone]. unfold report. do 4 (apply in_or_app; right). apply in_or_app. left. apply (in_concat _ _ _ _ I). unfold relationship_report.
    destruct H as [H|[H|[H|[]]]]; rewrite <- H; left; reflexivity.
Qed.

(** * What is kept *)
Definition triple (r : ext_pkg_ref) : pystr * pystr * option pystr := (er_type r, er_locator r, er_comment r).
Lemma kept_none r : kept_ref r = false -> bump_external_package_ref r = None /\ is_purl r = false.
Proof.
  unfold kept_ref. destruct (in_dec char_list_eq_dec (er_type r) kept_types) as [I|I]; [discriminate|]. intros _. unfold bump_external_package_ref, is_purl.
  assert (H : forall k, In k kept_types -> str_eqb (er_type r) k = false).
  { intros k K. destruct (str_eqb (er_type r) k) eqn:E; [|reflexivity]. apply str_eqb_eq in E. congruence. }
  unfold external_ref_type_map. cbn [assoc]. rewrite !(H $"cpe22Type"), !(H $"cpe23Type"), !(H $"advisory"), !(H $"fix"), !(H $"swid"), !(H $"purl"), !(H $"swh"), !(H $"gitoid")
    by (unfold kept_types; cbn [In]; tauto).
  split; [|reflexivity]. repeat (match goal with |- context [if ?b then _ else _] => destruct b end; try reflexivity).
Qed.
Lemma refs_kept b l : bump_external_refs b l = bump_external_refs b (filter kept_ref l).
Proof.
  induction l as [|r l IH]; [reflexivity|]. cbn [bump_external_refs filter]. rewrite IH. destruct (kept_ref r) eqn:K; [reflexivity|].
  destruct (kept_none _ K) as [N P]. rewrite P, N, andb_false_r. destruct (bump_external_refs b (filter kept_ref l)). reflexivity.
Qed.
Lemma purls_kept l : filter is_purl l = filter is_purl (filter kept_ref l).
Proof.
  induction l as [|r l IH]; [reflexivity|]. cbn [filter]. destruct (kept_ref r) eqn:K; cbn [filter]; rewrite <- IH; [reflexivity|]. rewrite (proj2 (kept_none _ K)). reflexivity.
Qed.
Lemma refs_triple b l : forall l', map triple l = map triple l' -> bump_external_refs b l = bump_external_refs b l'.
Proof.
  induction l as [|r l IH]; intros [|r' l'] H; try discriminate; [reflexivity|]. cbn [map] in H.
  assert (H1 : triple r = triple r') by congruence. assert (H2 : map triple l = map triple l') by congruence. cbn [bump_external_refs]. rewrite (IH _ H2).
  unfold triple in H1. assert (E1 : er_type r = er_type r') by congruence. assert (E2 : er_locator r = er_locator r') by congruence.
  assert (E3 : er_comment r = er_comment r') by congruence. unfold is_purl, bump_external_package_ref. rewrite E1, E2, E3. reflexivity.
Qed.
Lemma purls_triple l : forall l', map triple l = map triple l' -> map triple (filter is_purl l) = map triple (filter is_purl l').
Proof.
  induction l as [|r l IH]; intros [|r' l'] H; try discriminate; [reflexivity|]. cbn [map] in H.
  assert (H1 : triple r = triple r') by congruence. assert (H2 : map triple l = map triple l') by congruence. cbn [filter].
  assert (E : is_purl r = is_purl r') by (unfold is_purl; unfold triple in H1; assert (E1 : er_type r = er_type r') by congruence; rewrite E1; reflexivity).
  rewrite E. destruct (is_purl r'); cbn [map]; rewrite (IH _ H2); congruence.
Qed.
Lemma purl_triple l l' : map triple l = map triple l' -> single_purl l = single_purl l'.
Proof.
  intro H. apply purls_triple in H. unfold single_purl. destruct (filter is_purl l) as [|r [|s t]], (filter is_purl l') as [|r' [|s' t']]; try discriminate H; try reflexivity.
  cbn [map] in H. unfold triple in H. assert (E2 : er_locator r = er_locator r') by congruence. assert (E3 : er_comment r = er_comment r') by congruence. rewrite E2, E3. reflexivity.
Qed.
Lemma single_kept l : single_purl l = single_purl (filter kept_ref l).
Proof. unfold single_purl. rewrite purls_kept. reflexivity. Qed.
Lemma copyright_is v : bump_copyright v = text_of v. Proof. destruct v as [[]|]; reflexivity. Qed.
Lemma optional_actor v w ns st : actor_of v = actor_of w -> bump_optional_actor v ns st = bump_optional_actor w ns st.
Proof. destruct v as [[x|]|], w as [[y|]|]; cbn; intro H; try discriminate H; try reflexivity. injection H as ->. reflexivity. Qed.
Lemma same_package p q ns refs doc st : SamePackage p q -> bump_package p ns refs doc st = bump_package q ns refs doc st.
Proof.
  intros [H1 H2 H3 H4 H5 H6 H7 H8 H9 H10 H11 H12 H13 H14 H15 H16 H17 H18 H19]. unfold bump_package. rewrite H1, H2, H3, H7, H8, H9, H11, H12, H13, H15, H16, H17, H18, H19.
  rewrite !copyright_is, H10. change (handle_no_assertion_or_none (pk_download p)) with (text_of (Some (pk_download p))). rewrite H4.
  change (text_of (Some (pk_download q))) with (handle_no_assertion_or_none (pk_download q)).
  destruct (get_full_element_spdx_id (pk_id q) ns refs) as [i|e]; [cbn [bind]|reflexivity]. rewrite (optional_actor _ _ _ _ H5).
  destruct (bump_optional_actor (pk_supplier q) ns (import_external (pk_id q) doc st)) as [st1 sup]. rewrite (optional_actor _ _ _ _ H6).
  destruct (bump_optional_actor (pk_originator q) ns st1) as [st2 ori].
  rewrite (single_kept (pk_refs p)), (single_kept (pk_refs q)), (purl_triple _ _ H14), (refs_kept _ (pk_refs p)), (refs_kept _ (pk_refs q)), (refs_triple _ _ _ H14). reflexivity.
Qed.
Lemma same_file p q ns refs doc st : SameFile p q -> bump_file p ns refs doc st = bump_file q ns refs doc st.
Proof. intros [H1 H2 H3 H4 H5 H6]. unfold bump_file. rewrite !copyright_is, H1, H2, H3, H4, H5, H6. reflexivity. Qed.
Lemma same_snippet p q ns refs doc st : SameSnippet p q -> bump_snippet p ns refs doc st = bump_snippet q ns refs doc st.
Proof. intros [H1 H2 H3 H4 H5 H6 H7]. unfold bump_snippet. rewrite !copyright_is, H1, H2, H3, H4, H5, H6, H7. reflexivity. Qed.
Lemma same_info c b st : SameInfo c b -> bump_creation_info c st = bump_creation_info b st.
Proof. intros [H1 H2 H3 H4 H5 H6 H7 H8]. unfold bump_creation_info. rewrite H1, H2, H3, H4, H5, H6, H7, H8. reflexivity. Qed.
Lemma each_same {A} (R : A -> A -> Prop) (f g : A -> bstate -> result bstate) : (forall x y st, R x y -> f x st = g y st) ->
  forall l l', Forall2 R l l' -> forall st, each f l st = each g l' st.
Proof.
  intros H l l' F. induction F as [|x y l l' R1 F IH]; intro st; [reflexivity|]. cbn [each]. rewrite (H _ _ _ R1). destruct (g y st); [apply IH|reflexivity].
Qed.
Lemma kept_payload d e : SameKept d e -> bump_spdx_document d = bump_spdx_document e.
Proof.
  intros [H1 H2 H3 H4 H5 H6]. unfold bump_spdx_document. cbv zeta. rewrite H5, H6, (same_info _ _ _ H1), (si_namespace _ _ H1), (si_refs _ _ H1).
  destruct (bump_creation_info (do_ci e) {| b_objs := []; b_cis := []; b_map := [] |}) as [[st doc]|x]; [|reflexivity]. cbn [bind].
  match goal with |- bind (each ?f ?l ?s) _ = bind (each ?g ?l' ?s) _ => rewrite (each_same SamePackage f g (fun x y st => same_package x y _ _ _ st) l l' H2 s) end.
  match goal with |- bind ?a _ = _ => destruct a as [st1|x]; [|reflexivity] end. cbn [bind].
  rewrite (each_same SameFile _ _ (fun x y st => same_file x y _ _ _ st) _ _ H3 st1).
  match goal with |- bind ?a _ = _ => destruct a as [st2|x]; [|reflexivity] end. cbn [bind].
  rewrite (each_same SameSnippet _ _ (fun x y st => same_snippet x y _ _ _ st) _ _ H4 st2). reflexivity.
Qed.

(** * What is said *)
Lemma copyright_same v w : (is_noassertion v <-> is_noassertion w) -> copyright_log v = copyright_log w.
Proof.
  unfold is_noassertion. intro H.
  destruct v as [[| |]|], w as [[| |]|]; try reflexivity; exfalso; destruct H as [H1 H2]; first [discriminate (H1 eq_refl)|discriminate (H2 eq_refl)].
Qed.
Lemma refs_undefined l : List.concat (map ref_report l) = List.concat (map ref_report (filter undefined_ref l)).
Proof.
  induction l as [|r l IH]; [reflexivity|]. cbn [map List.concat filter]. unfold undefined_ref at 1, ref_report at 1.
  destruct (in_dec char_list_eq_dec (er_type r) defined_types) as [I|I]; [exact IH|]. cbn [map List.concat]. unfold ref_report at 2.
  destruct (in_dec char_list_eq_dec (er_type r) defined_types) as [J|J]; [contradiction|]. rewrite IH. reflexivity.
Qed.
Lemma refs_types l : forall l', map er_type l = map er_type l' -> List.concat (map ref_report l) = List.concat (map ref_report l').
Proof.
  induction l as [|r l IH]; intros [|r' l'] H; try discriminate; [reflexivity|]. cbn [map List.concat] in *. assert (E : er_type r = er_type r') by congruence.
  assert (E' : map er_type l = map er_type l') by congruence. rewrite (IH _ E'). unfold ref_report. rewrite E. reflexivity.
Qed.
Lemma each_log_same {A} (R : A -> A -> Prop) (f g : A -> bstate -> result bstate) la lb k k' : (forall x y st, R x y -> f x st = g y st) ->
  (forall x y, R x y -> la x = lb y) -> (forall st, k st = k' st) -> forall l l', Forall2 R l l' -> forall st, each_log f la l st k = each_log g lb l' st k'.
Proof.
  intros H L K l l' F. induction F as [|x y l l' R1 F IH]; intro st; [apply K|]. cbn [each_log]. rewrite (H _ _ _ R1), (L _ _ R1). destruct (g y st); [rewrite IH|]; reflexivity.
Qed.
Lemma forall2_and {A B} (P Q : A -> B -> Prop) l l' : Forall2 P l l' -> Forall2 Q l l' -> Forall2 (fun x y => P x y /\ Q x y) l l'.
Proof. intro F. induction F; intro G; inversion G; subst; constructor; auto. Qed.
Lemma told_log d e : SameKept d e -> SameTold d e -> conversion_log d = conversion_log e.
Proof.
  intros K [T1 T2 T3]. destruct K as [H1 H2 H3 H4 H5 H6]. unfold conversion_log. cbv zeta. rewrite H5, H6, (same_info _ _ _ H1), (si_namespace _ _ H1), (si_refs _ _ H1).
  assert (C : creation_log (do_ci d) = creation_log (do_ci e)) by (unfold creation_log; rewrite (si_refs _ _ H1), (si_creators _ _ H1); reflexivity).
  rewrite C. f_equal. destruct (bump_creation_info (do_ci e) {| b_objs := []; b_cis := []; b_map := [] |}) as [[st doc]|x]; [|reflexivity].
  refine (each_log_same _ _ _ _ _ _ _ _ _ _ _ _ (forall2_and _ _ _ _ H2 T1) _).
  { intros x y s [S _]. apply same_package, S. }
  { intros x y [S (W1 & _ & W2)]. unfold package_log. rewrite (sp_id _ _ S), (sp_checksums _ _ S), (copyright_same _ _ W1), !refs_log_is, (refs_undefined (pk_refs x)),
      (refs_undefined (pk_refs y)), (refs_types _ _ W2). reflexivity. }
  intro st1. refine (each_log_same _ _ _ _ _ _ _ _ _ _ _ _ (forall2_and _ _ _ _ H3 T2) _).
  { intros x y s [S _]. apply same_file, S. }
  { intros x y [S W]. unfold file_log. rewrite (sf_id _ _ S), (sf_checksums _ _ S), (copyright_same _ _ W). reflexivity. }
  intro st2. refine (each_log_same _ _ _ _ _ _ _ _ _ _ _ _ (forall2_and _ _ _ _ H4 T3) _).
  { intros x y s [S _]. apply same_snippet, S. }
  { intros x y [S W]. unfold snippet_log. rewrite (ss_id _ _ S), (copyright_same _ _ W). reflexivity. }
  reflexivity.
Qed.
Lemma told_printed d e : SameKept d e -> SameTold d e -> printed_by_conversion d = printed_by_conversion e.
Proof.
  intros [H1 H2 H3 H4 H5 H6] [T1 _ _]. unfold printed_by_conversion. cbv zeta. rewrite H6, (same_info _ _ _ H1), (si_namespace _ _ H1), (si_refs _ _ H1).
  destruct (bump_creation_info (do_ci e) {| b_objs := []; b_cis := []; b_map := [] |}) as [[st doc]|x]; [|reflexivity].
  match goal with |- printed_for _ _ _ _ ?s = _ => generalize s end. pose proof (forall2_and _ _ _ _ H2 T1) as F. clear H2 T1.
  induction F as [|p q l l' [S (_ & W & _)] F IH]; intro s; [reflexivity|]. cbn [printed_for]. rewrite (sp_id _ _ S), (same_package _ _ _ _ _ _ S).
  destruct (get_full_element_spdx_id (pk_id q) (ci_namespace (do_ci e)) (ci_refs (do_ci e))); [|reflexivity].
  assert (E : match pk_download p with NNone => $"package.download_location: Missing conversion for SpdxNone." ++ [LF] | _ => [] end
              = match pk_download q with NNone => $"package.download_location: Missing conversion for SpdxNone." ++ [LF] | _ => [] end).
  { destruct W as [W1 W2]. destruct (pk_download p), (pk_download q); try reflexivity; first [discriminate (W1 eq_refl)|discriminate (W2 eq_refl)]. }
  rewrite E. destruct (bump_package q (ci_namespace (do_ci e)) (ci_refs (do_ci e)) doc s); [rewrite IH|]; reflexivity.
Qed.
