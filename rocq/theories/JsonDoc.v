(** Converting a document and parsing the result. *)
From Verif Require Import Py Data Oracles Basics DocUtils Json Construct JsonConv JsonParse PyFacts BasicsSpec JsonSpec JsonFacts JsonRound.

(** what the parsers of annotations and of relationships see of an element *)
Record Elem (d : document) (id : pystr) (j : json) : Prop := {
  em_id : jget $"SPDXID" j = Ok (JStr id);
  em_annotations : exists v r, jget_default $"annotations" (JArr []) j = Ok v
    /\ parse_field_list v (parse_annotation (JStr id)) = Ok ([], r) /\ opt_list r = annotations_of id d;
  em_files : jget_default $"hasFiles" (JArr []) j = Ok (JArr []) }.

Lemma annotations_of_reads d id : Forall JsonAnnotation (do_annotations d) ->
  exists v, convert_list convert_annotation (annotations_of id d) = Ok v /\ forall j, Carries j id v -> Elem d id j.
Proof.
  intro H. destruct (annotations_reads id (annotations_of id d)) as (v & H1 & H2 & _).
  - apply Forall_forall. intros a I. apply filter_In in I as [I _]. eapply Forall_forall in H; eauto.
  - intros a I. apply filter_In in I as [_ I]. apply str_eqb_eq in I. exact I.
  - exists v. split; [exact H1|]. intros j [C1 C2 C3]. constructor; auto. do 2 eexists. split; [exact C2|]. split; [exact H2|].
    destruct (annotations_of id d); reflexivity.
Qed.

Lemma elems {A} d (P : A -> Prop) (id : A -> pystr) conv (parse : json -> list pystr * result A) l :
  Forall JsonAnnotation (do_annotations d) ->
  (forall x anns, P x -> convert_list convert_annotation (annotations_of (id x) d) = Ok anns ->
     exists j, conv x = Ok j /\ parse j = ([], Ok x) /\ Carries j (id x) anns) ->
  Forall P l ->
  exists js, convert_list conv l = Ok (or_none js) /\ parse_elements parse js = Ok ([], l) /\ Forall2 (Elem d) (map id l) js.
Proof.
  intros HA H F.
  assert (E : exists js, Forall2 (fun a j => conv a = Ok j) l js /\ Forall2 (fun j a => parse j = ([], Ok a)) js l /\ Forall2 (Elem d) (map id l) js).
  { induction F as [|x l Hx _ (js & I1 & I2 & I3)]; [exists []; repeat split; constructor|].
    destruct (annotations_of_reads d (id x) HA) as (v & V1 & V2). destruct (H x v Hx V1) as (j & J1 & J2 & J3).
    exists (j :: js). repeat split; cbn; constructor; auto. }
  destruct E as (js & E1 & E2 & E3). exists js. split; [apply convert_list_Forall2; exact E1|]. split; [apply parse_elements_log_ok; exact E2|exact E3].
Qed.

Lemma elems_annotations d ids js : Forall2 (Elem d) ids js ->
  annotations_loop js = Ok ([], flat_map (fun id => annotations_of id d) ids).
Proof.
  induction 1 as [|id j ids js [H1 (v & r & H2 & H3 & H4) _] _ IH]; [reflexivity|]. cbn [annotations_loop].
  do 3 run1. rewrite IH. cbn [bind app flat_map]. rewrite H4. reflexivity.
Qed.
Lemma elems_files d ids js ex : Forall2 (Elem d) ids js -> has_files_loop ex js = Ok ([], []).
Proof. induction 1 as [|id j ids js [H1 _ H2] _ IH]; [reflexivity|]. cbn [has_files_loop]. do 2 run1. cbn [delete_duplicates_from_list jiter bind fromkeys implicit_loop].
  rewrite IH. reflexivity. Qed.

Lemma contained_In d x : In x (get_contained_spdx_element_ids d) <-> In x (element_ids d).
Proof. unfold get_contained_spdx_element_ids, element_ids. rewrite !in_app_iff. tauto. Qed.
Lemma contained_str_in d x : str_in x (get_contained_spdx_element_ids d) = str_in x (element_ids d).
Proof. apply eq_true_iff_eq. rewrite !str_in_In. apply contained_In. Qed.

Lemma or_none_default js : oj_default (JArr []) (or_none js) = JArr js.
Proof. destruct js; reflexivity. Qed.
Lemma top_list {A} (parse : json -> list pystr * result A) js l : parse_elements parse js = Ok ([], l) ->
  exists r, top_field true (oj (or_none js)) (parse_list_of_elements_log parse) = Ok ([], r) /\ opt_list r = l.
Proof.
  intro H. destruct js as [|j js]; cbn [or_none oj].
  - cbn in H. injection H as <-. eexists; split; reflexivity.
  - unfold top_field, parse_list_of_elements_log. cbn [jtruthy truthy_list andb negb jiter bind]. rewrite H. cbn [bind raise_if].
    eexists; split; reflexivity.
Qed.

Lemma creation_info_object c : JsonCreationInfo c -> exists kvs, convert_creation_info c = Ok (JObj kvs)
  /\ (exists v, jget $"creators" (JObj kvs) = Ok v /\ parse_field_list v j_actor = Ok ([], Some (ci_creators c)))
  /\ (exists v, jget $"created" (JObj kvs) = Ok v /\ parse_field v j_date = Ok ([], Some (ci_created c)))
  /\ (exists v, jget $"comment" (JObj kvs) = Ok v /\ forall cls fld, c_opt_str cls fld v = COk (ci_creator_comment c))
  /\ (exists v, jget $"licenseListVersion" (JObj kvs) = Ok v /\ parse_field v parse_version = Ok ([], ci_list_version c)).
Proof.
  intros [Hn Hc Hd]. destruct (field_date1 _ Hd) as (s & H1 & H2).
  exists (present [($"created", Some (JStr s)); ($"creators", or_none (strs (map actor_str (ci_creators c))));
    ($"licenseListVersion", ojs (option_map version_str (ci_list_version c))); ($"comment", ojs (ci_creator_comment c))]).
  split.
  { apply convert_table; [|vm_compute; reflexivity]. unfold creation_info_props, opt_str. rewrite H1. table; reflexivity. }
  pose proof (fields_actors _ Hn Hc) as H3. gens H3 (or_none (strs (map actor_str (ci_creators c)))).
  pose proof (field_version (ci_list_version c)) as H4. gens H4 (ojs (option_map version_str (ci_list_version c))).
  pose proof (fun cls fld => c_opt_str_opt cls fld (ci_creator_comment c)) as H5. fold (ojs (ci_creator_comment c)) in H5.
  gens H5 (ojs (ci_creator_comment c)).
  repeat split; eexists; (split; [lookup|assumption]).
Qed.

Definition read_annotations (d : document) : list annotation :=
  document_annotations d ++ flat_map (fun id => annotations_of id d) (element_ids d).

Theorem document_reads O d : JsonDocument O d ->
  exists j, convert_document O d = Ok j /\ parse_dict O j = Ok (with_annotations d (read_annotations d)).
Proof.
  intros [Hci Hp Hf Hs Hr He Ha Ht _].
  destruct (creation_info_object _ Hci) as (ci & C0 & (c1 & C1 & C1') & (c2 & C2 & C2') & (c3 & C3 & C3') & (c4 & C4 & C4')).
  destruct (elems d _ pk_id (convert_package O d) (parse_package O) _ Ha (fun x anns => package_reads O d x anns) Hp) as (ps & P1 & P2 & P3).
  destruct (elems d (JsonFile O) fi_id (convert_file O d) (quiet (parse_file O)) (do_files d) Ha) as (fs & F1 & F2 & F3); auto.
  { intros x anns Hx Hx'. destruct (file_reads O d x anns Hx Hx') as (j & J1 & J2 & J3). exists j. unfold quiet. rewrite J2. auto. }
  destruct (elems d (JsonSnippet O) sn_id (convert_snippet O d) (quiet (parse_snippet O)) (do_snippets d) Ha) as (ss & S1 & S2 & S3); auto.
  { intros x anns Hx Hx'. destruct (snippet_reads O d x anns Hx Hx') as (j & J1 & J2 & J3). exists j. unfold quiet. rewrite J2. auto. }
  destruct (reads_list convert_relationship parse_relationship (do_relationships d)) as (rs & R1 & R2).
  { eapply Forall_impl; [|exact Hr]. intros x Hx. apply relationship_reads. exact Hx. }
  destruct (reads_list convert_extracted parse_extracted (do_extracted d)) as (es & E1 & E2).
  { eapply Forall_impl; [|exact He]. intros x Hx. apply extracted_reads. exact Hx. }
  destruct (external_document_refs_reads (ci_refs (do_ci d))) as (xr & X1 & xl & X2 & X3).
  destruct (annotations_reads (ci_id (do_ci d)) (document_annotations d)) as (da & D1 & D2 & _).
  { apply Forall_forall. intros a I. apply filter_In in I as [I _]. eapply Forall_forall in Ha; eauto. }
  { intros a I. apply filter_In in I as [I I2]. eapply Forall_forall in Ht; [|exact I]. destruct Ht as [Ht|Ht]; [exact Ht|].
    rewrite contained_str_in in I2. apply negb_true_iff, str_in_false in I2. contradiction. }
  exists (JObj (present [($"SPDXID", Some (JStr (ci_id (do_ci d)))); ($"annotations", da); ($"comment", ojs (ci_doc_comment (do_ci d)));
    ($"creationInfo", Some (JObj ci)); ($"dataLicense", Some (JStr (ci_data_license (do_ci d)))); ($"externalDocumentRefs", xr);
    ($"hasExtractedLicensingInfos", or_none es); ($"name", Some (JStr (ci_name (do_ci d)))); ($"spdxVersion", Some (JStr (ci_version (do_ci d))));
    ($"documentNamespace", Some (JStr (ci_namespace (do_ci d)))); ($"packages", or_none ps); ($"files", or_none fs); ($"snippets", or_none ss);
    ($"relationships", or_none rs)])).
  split.
  { apply convert_table; [|vm_compute; reflexivity]. unfold document_props, the_str, opt_str. rewrite D1, C0, X1, E1, P1, F1, S1, R1.
    table; reflexivity. }
  pose proof (fun cls fld => c_opt_str_opt cls fld (ci_doc_comment (do_ci d))) as H1. fold (ojs (ci_doc_comment (do_ci d))) in H1.
  gens H1 (ojs (ci_doc_comment (do_ci d))).
  destruct (top_list _ _ _ P2) as (tp & T1 & T1'). destruct (top_list _ _ _ F2) as (tf & T2 & T2'). destruct (top_list _ _ _ S2) as (ts & T3 & T3').
  destruct (top_list (quiet parse_extracted) es (do_extracted d)) as (te & T4 & T4'); [apply parse_elements_ok; exact E2|].
  pose proof (or_none_default ps) as N1. pose proof (or_none_default fs) as N2. pose proof (or_none_default ss) as N3. pose proof (or_none_default rs) as N4.
  assert (W1 : exists r, parse_field_list (oj_default (JArr []) (or_none rs)) parse_relationship = Ok ([], r) /\ opt_list r = do_relationships d).
  { pose proof (parse_field_list_or_none _ _ _ R2) as W. exists (match do_relationships d with [] => None | _ => Some (do_relationships d) end). split.
    - rewrite <- W. destruct rs; reflexivity.
    - destruct (do_relationships d); reflexivity. }
  destruct W1 as (wr & W1 & W2).
  clear C0 P1 F1 S1 R1 E1 X1 D1. gens T4 (or_none es).
  remember (or_none ps) as vp eqn:Ep. remember (or_none fs) as vf eqn:Ef. remember (or_none ss) as vs eqn:Es. remember (or_none rs) as vr eqn:Er.
  match goal with |- parse_dict O ?x = _ => set (j := x) end.
  assert (Q1 : parse_creation_info j = Ok (do_ci d)).
  { unfold parse_creation_info, j. repeat run1. eapply step; [apply raise_if_named_nil|]. cbn beta. rewrite C3', H1, X3.
    clear. destruct d as [[]]; reflexivity. }
  assert (Q2 : parse_all_annotations j = Ok (read_annotations d)).
  { unfold parse_all_annotations. eapply step.
    { cbn [annotations_loop]. unfold j. do 2 run1. eapply step; [exact D2|]. cbn beta iota. cbn [bind app]. rewrite app_nil_r. reflexivity. }
    cbn beta iota. unfold j. run1. cbn [jiter bind]. run1. cbn [parse_elements bind].
    run1. rewrite N1. unfold parse_annotations_from_object at 1. cbn [jiter bind]. rewrite (elems_annotations d _ _ P3). cbn [bind].
    run1. rewrite N2. unfold parse_annotations_from_object at 1. cbn [jiter bind]. rewrite (elems_annotations d _ _ F3). cbn [bind].
    run1. rewrite N3. unfold parse_annotations_from_object at 1. cbn [jiter bind]. rewrite (elems_annotations d _ _ S3). cbn [bind app].
    eapply step; [apply raise_if_named_nil|]. cbn beta. f_equal. unfold read_annotations, element_ids. rewrite !flat_map_app.
    f_equal. destruct (document_annotations d); reflexivity. }
  assert (Q3 : parse_all_relationships j = Ok (do_relationships d)).
  { unfold parse_all_relationships, j. do 3 run1. cbn [delete_duplicates_from_list jiter bind fromkeys]. run1.
    eapply step; [reflexivity|]. cbn beta iota zeta delta [opt_list].
    run1. rewrite N1. rewrite app_nil_r. fold (opt_list wr).
    assert (W3 : exists r, parse_field (JArr ps) (parse_has_files (get_all_relationships_without_comments (opt_list wr))) = Ok ([], r) /\ opt_list r = []).
    { destruct ps as [|p ps]; [eexists; split; reflexivity|]. unfold parse_field, parse_has_files. cbn [jtruthy truthy_list negb jiter bind].
      rewrite (elems_files d _ _ _ P3). eexists; split; reflexivity. }
    destruct W3 as (w3 & W3 & W3'). rewrite W3. cbn [bind app]. rewrite W3', app_nil_r, W2. reflexivity. }
  unfold parse_dict.
  assert (Q1' : top_field false j parse_creation_info = Ok ([], Some (do_ci d))) by (unfold top_field; cbn [andb]; rewrite Q1; reflexivity).
  assert (Q2' : top_field true j parse_all_annotations = Ok ([], Some (read_annotations d))).
  { unfold top_field. rewrite Q2. subst j. reflexivity. }
  assert (Q3' : top_field true j parse_all_relationships = Ok ([], Some (do_relationships d))).
  { unfold top_field. rewrite Q3. subst j. reflexivity. }
  eapply step; [unfold j; lookup|]. cbn beta iota delta [oj]. eapply step; [unfold j; lookup|]. cbn beta iota delta [oj].
  eapply step; [unfold j; lookup|]. cbn beta iota delta [oj]. eapply step; [unfold j; lookup|]. cbn beta iota delta [oj].
  unfold parse_list_of_elements. repeat run1. cbn [app]. cbn [raise_if bind]. rewrite T1', T2', T3', T4'. cbn [opt_list].
  destruct d; reflexivity.
Qed.
