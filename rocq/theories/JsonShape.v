(** The shape of the JSON form: annotations (C13), property names (C14). *)
From Verif Require Import Py Data Oracles Basics DocUtils Json Construct JsonConv JsonParse PyFacts BasicsSpec JsonSpec JsonFacts JsonRound JsonDoc.

(** ** Grouping by id *)
Lemma filter_split {A} (P Q : A -> bool) l :
  Permutation (filter P l) (filter (fun x => P x && Q x) l ++ filter (fun x => P x && negb (Q x)) l).
Proof.
  induction l as [|x l IH]; [constructor|]. cbn. destruct (P x), (Q x); cbn; auto.
  apply Permutation_cons_app. exact IH.
Qed.
Lemma filter_ext_all {A} (P Q : A -> bool) l : (forall x, P x = Q x) -> filter P l = filter Q l.
Proof. intro H. apply filter_ext. exact H. Qed.
Lemma group_permutation (ids : list pystr) (l : list annotation) : NoDup ids ->
  Permutation l (about_none_of ids l ++ flat_map (fun id => about id l) ids).
Proof.
  induction 1 as [|id ids Hid N IH].
  - cbn. rewrite app_nil_r. unfold about_none_of. cbn. induction l; cbn; auto.
  - etransitivity; [exact IH|]. cbn [flat_map].
    rewrite app_assoc. apply Permutation_app_tail. unfold about_none_of.
    etransitivity; [apply (filter_split _ (fun a => str_eqb (an_id a) id))|].
    rewrite Permutation_app_comm. apply Permutation_app.
    + replace (filter (fun x => negb (str_in (an_id x) ids) && negb (str_eqb (an_id x) id)) l)
        with (filter (fun a => negb (str_in (an_id a) (id :: ids))) l); [reflexivity|].
      apply filter_ext. intro a. unfold str_in. cbn [existsb]. destruct (str_eqb (an_id a) id), (existsb (str_eqb (an_id a)) ids); reflexivity.
    + replace (filter (fun x => negb (str_in (an_id x) ids) && str_eqb (an_id x) id) l) with (about id l); [reflexivity|].
      apply filter_ext. intro a. destruct (str_eqb (an_id a) id) eqn:E; [|rewrite andb_false_r; reflexivity].
      apply str_eqb_eq in E. rewrite E, (proj2 (str_in_false id ids)) by exact Hid. reflexivity.
Qed.
Lemma filter_filter {A} (P Q : A -> bool) l : filter P (filter Q l) = filter (fun x => P x && Q x) l.
Proof. induction l as [|x l IH]; cbn; [reflexivity|]. destruct (Q x) eqn:E; cbn; destruct (P x); cbn; rewrite ?E, IH; reflexivity. Qed.
Lemma filter_none {A} (P : A -> bool) l : (forall x, P x = false) -> filter P l = [].
Proof. intro H. induction l as [|x l IH]; cbn; [reflexivity|]. rewrite H. exact IH. Qed.
Lemma about_about id id' l : about id (about id' l) = if str_eqb id id' then about id l else [].
Proof.
  unfold about. rewrite filter_filter. destruct (str_eqb id id') eqn:E.
  - apply str_eqb_eq in E. subst. apply filter_ext. intro a. apply andb_diag.
  - apply filter_none. intro a. destruct (str_eqb (an_id a) id) eqn:E1; [|reflexivity]. apply str_eqb_eq in E1. rewrite E1, E. reflexivity.
Qed.
Lemma about_groups id ids l : about id (flat_map (fun i => about i l) ids) = flat_map (fun i => if str_eqb id i then about id l else []) ids.
Proof.
  induction ids as [|i ids IH]; [reflexivity|]. cbn [flat_map]. unfold about at 1. rewrite filter_app. fold (about id (about i l)).
  rewrite about_about. f_equal. exact IH.
Qed.
Lemma groups_once id ids (l : list annotation) : NoDup ids ->
  flat_map (fun i => if str_eqb id i then l else []) ids = if str_in id ids then l else [].
Proof.
  induction 1 as [|i ids Hi N IH]; [reflexivity|]. cbn [flat_map]. rewrite IH. change (str_in id (i :: ids)) with (str_eqb id i || str_in id ids). destruct (str_eqb id i) eqn:E.
  - apply str_eqb_eq in E. subst. rewrite (proj2 (str_in_false i ids)) by exact Hi. cbn. rewrite app_nil_r. reflexivity.
  - reflexivity.
Qed.
Lemma group_same (ids : list pystr) (l : list annotation) : NoDup ids ->
  SameAnnotations l (about_none_of ids l ++ flat_map (fun id => about id l) ids).
Proof.
  intro N. split; [apply group_permutation; exact N|]. intro id. rewrite filter_app.
  fold (about id l) (about id (flat_map (fun id => about id l) ids)). rewrite about_groups, groups_once by exact N.
  unfold about_none_of. rewrite filter_filter. destruct (str_in id ids) eqn:E.
  - rewrite filter_none; [reflexivity|]. intro a. destruct (str_eqb (an_id a) id) eqn:E1; [|reflexivity]. apply str_eqb_eq in E1. rewrite E1, E. reflexivity.
  - rewrite app_nil_r. unfold about. apply filter_ext. intro a. destruct (str_eqb (an_id a) id) eqn:E1; [|reflexivity].
    apply str_eqb_eq in E1. rewrite E1, E. reflexivity.
Qed.
Lemma document_annotations_eq d : document_annotations d = about_none_of (element_ids d) (do_annotations d).
Proof. apply filter_ext. intro a. rewrite contained_str_in. reflexivity. Qed.

Theorem json_round_trip O d : JsonDocument O d ->
  exists j anns, convert_document O d = Ok j /\ parse_dict O j = Ok (with_annotations d anns) /\ SameAnnotations (do_annotations d) anns.
Proof.
  intro H. destruct (document_reads O d H) as (j & J1 & J2). exists j, (read_annotations d). split; [exact J1|]. split; [exact J2|].
  unfold read_annotations. rewrite document_annotations_eq. apply group_same. apply (jd_distinct _ _ H).
Qed.

(** ** What a successful conversion produced *)
Lemma convert_inv name ps j : convert name ps = Ok j ->
  exists table, Forall2 (fun p t => name (fst p) = fst t /\ snd p = Ok (snd t)) ps table
    /\ (nodupb (map (fun p => name (fst p)) ps) = true -> j = JObj (present table)).
Proof.
  intro H. assert (E : exists table, Forall2 (fun p t => name (fst p) = fst t /\ snd p = Ok (snd t)) ps table).
  { unfold convert in H. revert H. generalize (@nil (pystr * json)). induction ps as [|[p r] ps IH]; intros acc H; [exists []; constructor|].
    cbn [convert_loop] in H. destruct r as [o|e]; [|discriminate]. cbn [bind] in H.
    assert (H' : exists acc', (do kvs <- convert_loop name ps acc'; Ok (JObj kvs)) = Ok j) by (destruct o; eauto).
    destruct H' as (acc' & H'). destruct (IH _ H') as (t & T). exists ((name p, o) :: t). constructor; auto. }
  destruct E as (table & F). exists table. split; [exact F|]. intro N.
  assert (M : map fst table = map (fun p => name (fst p)) ps) by (clear -F; induction F as [|? ? ? ? [H _] _ IH]; cbn; congruence).
  rewrite (convert_table name ps table F) in H by (rewrite M; exact N). congruence.
Qed.

(** the value of one property of a successful conversion *)
Lemma convert_value name ps j p k r : convert name ps = Ok j -> nodupb (map (fun p => name (fst p)) ps) = true ->
  In (p, r) ps -> name p = k -> exists kvs o, j = JObj kvs /\ r = Ok o /\ assoc k kvs = o.
Proof.
  intros H N A <-. destruct (convert_inv _ _ _ H) as (t & F & E). specialize (E N). subst j.
  assert (M : map fst t = map (fun p => name (fst p)) ps) by (clear -F; induction F as [|? ? ? ? [H _] _ IH]; cbn; congruence).
  apply nodupb_spec in N.
  assert (L : exists o, r = Ok o /\ assoc (name p) t = Some o).
  { clear -F A N. induction F as [|[p' v] [k' o] ps t [H1 H2] _ IH]; cbn in *; [contradiction|]. subst. apply NoDup_cons_iff in N as [N1 N2].
    destruct A as [A|A].
    - injection A as <- <-. rewrite str_eqb_refl. eauto.
    - destruct (str_eqb (name p) (name p')) eqn:E; [|auto]. apply str_eqb_eq in E. exfalso. apply N1. rewrite <- E.
      apply (in_map (fun p => name (fst p))) in A. exact A. }
  destruct L as (o & -> & L). exists (present t), o. split; [reflexivity|]. split; [reflexivity|].
  rewrite assoc_present by (rewrite M; exact N). rewrite L. destruct o; reflexivity.
Qed.
Lemma convert_list_inv {A} (f : A -> result json) l v : convert_list f l = Ok v -> exists js, v = or_none js /\ Forall2 (fun a j => f a = Ok j) l js.
Proof.
  unfold convert_list. intro H. destruct (map_result f l) as [js|e] eqn:E; [|discriminate]. cbn in H. injection H as <-.
  exists js. split; [reflexivity|]. apply map_result_Forall2. exact E.
Qed.
Lemma annotation_form a j : convert_annotation a = Ok j -> AnnotationForm a j.
Proof.
  intro H. unfold convert_annotation, convert, annotation_props in H. cbn [convert_loop] in H.
  destruct (datetime_to_iso_string (an_date a)) as [s|e] eqn:D; [|discriminate]. unfold the_str in H. cbn [bind] in H.
  injection H as <-. exists s. split; [exact D|reflexivity].
Qed.
Lemma has_annotations name ps j l : convert name ps = Ok j -> nodupb (map (fun p => name (fst p)) ps) = true ->
  In ($"ANNOTATIONS", convert_list convert_annotation l) ps -> name $"ANNOTATIONS" = $"annotations" -> HasAnnotations l j.
Proof.
  intros H N A K. destruct (convert_value _ _ _ _ _ _ H N A K) as (kvs & o & -> & E1 & E2). exists kvs. split; [reflexivity|].
  apply convert_list_inv in E1 as (js & -> & F). destruct F as [|a j l js F1 F2]; [exact E2|].
  exists (j :: js). split; [exact E2|]. constructor; [apply annotation_form; exact F1|].
  clear -F2. induction F2; constructor; auto. apply annotation_form. assumption.
Qed.
Lemma has_array {A} name ps j p k (conv : A -> result json) (P : A -> json -> Prop) l : convert name ps = Ok j ->
  nodupb (map (fun p => name (fst p)) ps) = true ->
  In (p, convert_list conv l) ps -> name p = k -> (forall a j, conv a = Ok j -> P a j) -> HasArray k P l j.
Proof.
  intros H N A0 K HP. destruct (convert_value _ _ _ _ _ _ H N A0 K) as (kvs & o & -> & E1 & E2). exists kvs. split; [reflexivity|].
  apply convert_list_inv in E1 as (js & -> & F). destruct F as [|a j l js F1 F2]; [exact E2|].
  exists (j :: js). split; [exact E2|]. constructor; [auto|]. clear -F2 HP. induction F2; constructor; auto.
Qed.
Ltac row := match goal with |- In _ ?l => let l' := eval hnf in l in change l with l' end; repeat first [left; reflexivity | right].
Lemma convert_package_eq O d p : convert_package O d p = convert json_property_name_id (package_props O p d).
Proof. reflexivity. Qed.
Lemma convert_file_eq O d f : convert_file O d f = convert json_property_name_id (file_props O f d).
Proof. reflexivity. Qed.
Lemma convert_snippet_eq O d s : convert_snippet O d s = convert json_property_name_id (snippet_props O s d).
Proof. reflexivity. Qed.
Lemma convert_document_eq O d : convert_document O d = convert json_property_name_id (document_props O d).
Proof. reflexivity. Qed.
Lemma convert_creation_info_eq c : convert_creation_info c = convert json_property_name (creation_info_props c).
Proof. reflexivity. Qed.
Lemma convert_relationship_eq r : convert_relationship r = convert json_property_name (relationship_props r).
Proof. reflexivity. Qed.
Lemma convert_extracted_eq e : convert_extracted e = convert json_property_name (extracted_props e).
Proof. reflexivity. Qed.
Lemma convert_checksum_eq c : convert_checksum c = convert json_property_name (checksum_props c).
Proof. reflexivity. Qed.
Lemma convert_external_document_ref_eq r : convert_external_document_ref r = convert json_property_name (external_document_ref_props r).
Proof. reflexivity. Qed.
Lemma convert_external_package_ref_eq r : convert_external_package_ref r = convert json_property_name (external_package_ref_props r).
Proof. reflexivity. Qed.
Lemma convert_verif_code_eq v : convert_verif_code v = convert json_property_name (verif_code_props v).
Proof. reflexivity. Qed.
Lemma convert_annotation_eq a : convert_annotation a = convert json_property_name (annotation_props a).
Proof. reflexivity. Qed.
Lemma package_annotations O d p j : convert_package O d p = Ok j -> HasAnnotations (about (pk_id p) (do_annotations d)) j.
Proof.
  intro E. rewrite convert_package_eq in E. eapply has_annotations; [exact E|lazy; reflexivity|row|vm_compute; reflexivity].
Qed.
Lemma file_annotations O d f j : convert_file O d f = Ok j -> HasAnnotations (about (fi_id f) (do_annotations d)) j.
Proof.
  intro E. rewrite convert_file_eq in E. eapply has_annotations; [exact E|lazy; reflexivity|row|vm_compute; reflexivity].
Qed.
Lemma snippet_annotations O d s j : convert_snippet O d s = Ok j -> HasAnnotations (about (sn_id s) (do_annotations d)) j.
Proof.
  intro E. rewrite convert_snippet_eq in E. eapply has_annotations; [exact E|lazy; reflexivity|row|vm_compute; reflexivity].
Qed.
Theorem annotations_placed O d j : convert_document O d = Ok j ->
  let anns := do_annotations d in
  HasAnnotations (about_none_of (element_ids d) anns) j
  /\ HasArray $"packages" (fun p => HasAnnotations (about (pk_id p) anns)) (do_packages d) j
  /\ HasArray $"files" (fun f => HasAnnotations (about (fi_id f) anns)) (do_files d) j
  /\ HasArray $"snippets" (fun s => HasAnnotations (about (sn_id s) anns)) (do_snippets d) j.
Proof.
  intros H anns. rewrite convert_document_eq in H.
  assert (N : nodupb (map (fun p => json_property_name_id (fst p)) (document_props O d)) = true) by (lazy; reflexivity).
  split; [rewrite <- document_annotations_eq; eapply has_annotations; [exact H|exact N|row|vm_compute; reflexivity]|].
  split; [|split].
  - eapply (has_array _ _ _ $"PACKAGES" _ (convert_package O d) _ _ H N); [row|vm_compute; reflexivity|]. intros x k E.
    eapply package_annotations; exact E.
  - eapply (has_array _ _ _ $"FILES" _ (convert_file O d) _ _ H N); [row|vm_compute; reflexivity|]. intros x k E.
    eapply file_annotations; exact E.
  - eapply (has_array _ _ _ $"SNIPPETS" _ (convert_snippet O d) _ _ H N); [row|vm_compute; reflexivity|]. intros x k E.
    eapply snippet_annotations; exact E.
Qed.

(** ** Property names *)
Lemma keys_of name ps j kbs : convert name ps = Ok j -> nodupb (map (fun p => name (fst p)) ps) = true ->
  Forall2 (fun p (kb : pystr * bool) => name (fst p) = fst kb /\ forall o, snd p = Ok o -> given o = snd kb) ps kbs ->
  exists kvs, j = JObj kvs /\ map fst kvs = keys kbs.
Proof.
  intros H N F. destruct (convert_inv _ _ _ H) as (t & T & E). specialize (E N). exists (present t). split; [exact E|].
  clear -F T. revert kbs F. induction T as [|[p r] [k o] ps t [H1 H2] _ IH]; intros kbs F; inversion F as [|? [k' b] ? kbs' [F1 F2] F3]; subst; [reflexivity|].
  cbn in *. subst. specialize (F2 _ eq_refl). specialize (IH _ F3). unfold keys in *. cbn. destruct o; cbn in *; subst; cbn; congruence.
Qed.
Lemma given_or_none js : given (or_none js) = some_items js.
Proof. destruct js; reflexivity. Qed.
Lemma given_strs l : given (or_none (strs l)) = some_items l.
Proof. destruct l; reflexivity. Qed.
Lemma given_map {A} (f : A -> pystr) l : given (or_none (strs (map f l))) = some_items l.
Proof. destruct l; reflexivity. Qed.
Lemma given_convert_list {A} (f : A -> result json) l o : convert_list f l = Ok o -> given o = some_items l.
Proof. intro H. apply convert_list_inv in H as (js & -> & F). destruct F; reflexivity. Qed.
Lemma given_convert_opt {A} (f : A -> result json) x o : convert_opt f x = Ok o -> given o = given x.
Proof. destruct x as [x|]; cbn; [destruct (f x)|]; cbn; intro H; [injection H as <-; reflexivity|discriminate|injection H as <-; reflexivity]. Qed.
Lemma given_date x o : opt_date x = Ok o -> given o = given x.
Proof. destruct x as [x|]; cbn; [destruct (datetime_to_iso_string x)|]; cbn; intro H; [injection H as <-; reflexivity|discriminate|injection H as <-; reflexivity]. Qed.
Lemma given_bind (r : result json) o : (do j <- r; Ok (Some j)) = Ok o -> given o = true.
Proof. destruct r; cbn; intro H; [injection H as <-; reflexivity|discriminate]. Qed.
Lemma given_bind_str (r : result pystr) o : (do s <- r; Ok (Some (JStr s))) = Ok o -> given o = true.
Proof. destruct r; cbn; intro H; [injection H as <-; reflexivity|discriminate]. Qed.
Lemma annotated_of id d : annotated id d = some_items (annotations_of id d).
Proof.
  unfold annotated, annotations_of. induction (do_annotations d) as [|a l IH]; [reflexivity|]. cbn. destruct (str_eqb (an_id a) id); auto.
Qed.
Ltac key :=
  match goal with
  | |- forall o, convert_list _ _ = Ok o -> _ => intros ? ?; rewrite ?annotated_of; eapply given_convert_list; eassumption
  | |- forall o, convert_opt _ _ = Ok o -> _ => intros ? ?; eapply given_convert_opt; eassumption
  | |- forall o, opt_date _ = Ok o -> _ => intros ? ?; eapply given_date; eassumption
  | |- forall o, bind _ _ = Ok o -> _ => intros ? ?; first [eapply given_bind; eassumption | eapply given_bind_str; eassumption]
  | |- forall o, Ok (or_none _) = Ok o -> _ => intros ? [= <-]; first [apply given_strs | apply given_map]
  | |- forall o, opt_str ?x = Ok o -> _ => unfold opt_str; intros ? [= <-]; match goal with |- given match option_map _ ?y with _ => _ end = _ => destruct y | |- given match ?y with _ => _ end = _ => destruct y end; reflexivity
  | |- forall o, _ = Ok o -> _ => unfold the_str; intros ? [= <-]; reflexivity
  end.
Ltac keyrows := repeat (apply Forall2_cons; [split; [vm_compute; reflexivity|cbn [snd]; key]|]); try apply Forall2_nil.
Theorem package_names O d p j : convert_package O d p = Ok j -> exists kvs, j = JObj kvs /\ map fst kvs = package_keys p d.
Proof. intro H. rewrite convert_package_eq in H. eapply keys_of; [exact H|lazy; reflexivity|]. unfold package_props. keyrows. Qed.
Lemma keys_false k l l' : keys l = keys l' -> keys l = keys ((k, false) :: l').
Proof. intro H. exact H. Qed.
Lemma keys_cons x l l' : keys l = keys l' -> keys (x :: l) = keys (x :: l').
Proof. destruct x as [k []]; unfold keys; cbn; congruence. Qed.
Theorem file_names O d f j : convert_file O d f = Ok j -> exists kvs, j = JObj kvs /\ map fst kvs = file_keys f d.
Proof.
  intro H. rewrite convert_file_eq in H. assert (E : file_keys f d = keys
    [ ($"SPDXID", true); ($"annotations", annotated (fi_id f) d); ($"artifactOfs", false); ($"attributionTexts", some_items (fi_attribution f));
    ($"checksums", some_items (fi_checksums f)); ($"comment", given (fi_comment f));
    ($"copyrightText", given (fi_copyright f)); ($"fileContributors", some_items (fi_contributors f)); ($"fileDependencies", false);
    ($"fileName", true); ($"fileTypes", some_items (fi_types f)); ($"licenseComments", given (fi_lic_comment f));
    ($"licenseConcluded", given (fi_concluded f)); ($"licenseInfoInFiles", some_items (fi_info f));
    ($"noticeText", given (fi_notice f)) ]).
  { unfold file_keys. repeat first [apply keys_false | apply keys_cons | reflexivity]. }
  rewrite E. eapply keys_of; [exact H|lazy; reflexivity|]. unfold file_props. keyrows.
Qed.
Theorem snippet_names O d s j : convert_snippet O d s = Ok j -> exists kvs, j = JObj kvs /\ map fst kvs = snippet_keys s d.
Proof. intro H. rewrite convert_snippet_eq in H. eapply keys_of; [exact H|lazy; reflexivity|]. unfold snippet_props. keyrows. Qed.
Lemma document_annotated d : existsb (fun a => negb (str_in (an_id a) (element_ids d))) (do_annotations d) = some_items (document_annotations d).
Proof.
  rewrite document_annotations_eq. unfold about_none_of. induction (do_annotations d) as [|a l IH]; [reflexivity|]. cbn.
  destruct (str_in (an_id a) (element_ids d)); auto.
Qed.
Theorem document_names O d j : convert_document O d = Ok j -> exists kvs, j = JObj kvs /\ map fst kvs = document_keys d.
Proof.
  intro H. rewrite convert_document_eq in H. unfold document_keys. rewrite document_annotated. eapply keys_of; [exact H|lazy; reflexivity|]. unfold document_props. keyrows.
Qed.
Theorem creation_info_names c j : convert_creation_info c = Ok j -> exists kvs, j = JObj kvs /\ map fst kvs = creation_info_keys c.
Proof. intro H. rewrite convert_creation_info_eq in H. eapply keys_of; [exact H|lazy; reflexivity|]. unfold creation_info_props. keyrows. Qed.
Theorem relationship_names r j : convert_relationship r = Ok j -> exists kvs, j = JObj kvs /\ map fst kvs = relationship_keys r.
Proof. intro H. rewrite convert_relationship_eq in H. eapply keys_of; [exact H|lazy; reflexivity|]. unfold relationship_props. keyrows. Qed.
Theorem extracted_names e j : convert_extracted e = Ok j -> exists kvs, j = JObj kvs /\ map fst kvs = extracted_keys e.
Proof. intro H. rewrite convert_extracted_eq in H. eapply keys_of; [exact H|lazy; reflexivity|]. unfold extracted_props. keyrows. Qed.

(** ** No nulls, no repeated names *)
Lemma dict_set_keys {A} k (v : A) l : NoDup (map fst l) -> NoDup (map fst (dict_set k v l)).
Proof.
  intro N. destruct (in_dec str_dec k (map fst l)) as [I|I].
  - replace (map fst (dict_set k v l)) with (map fst l); [exact N|]. clear N. induction l as [|[k' v'] l IH]; [destruct I|]. cbn in *.
    destruct (str_eqb k k') eqn:E; [apply str_eqb_eq in E; subst; reflexivity|]. cbn. f_equal. apply IH.
    destruct I as [->|I]; [rewrite str_eqb_refl in E; discriminate|exact I].
  - rewrite dict_set_fresh by exact I. rewrite map_app. cbn.
    clear -N I. induction l as [|[k' v'] l IH]; cbn in *; [constructor; auto; constructor|]. apply NoDup_cons_iff in N as [N1 N2].
    constructor; [|apply IH; tauto]. rewrite in_app_iff. cbn. intuition.
Qed.
Lemma dict_set_values {A} k (v : A) l x : In x (dict_set k v l) -> snd x = v \/ In x l.
Proof.
  induction l as [|[k' v'] l IH]; cbn; [intros [<-|[]]; auto|]. destruct (str_eqb k k'); cbn; intros [<-|H]; auto.
  destruct (IH H); auto.
Qed.
Lemma clean_obj kvs : NoDup (map fst kvs) -> (forall k v, In (k, v) kvs -> Clean v) -> Clean (JObj kvs).
Proof.
  intros N H v W. inversion W; subst; [|eapply H; eauto]. split; [congruence|]. intros kvs' [= <-]. exact N.
Qed.
Lemma clean_arr l : Forall Clean l -> Clean (JArr l).
Proof.
  intros H v W. inversion W; subst; [split; [congruence|intros ? [=]]|]. eapply Forall_forall in H; [|eassumption]. apply H. assumption.
Qed.
Lemma clean_leaf j : match j with JNull | JArr _ | JObj _ => False | _ => True end -> Clean j.
Proof. intros H v W. inversion W; subst; try (destruct H; fail). split; [intros ->; exact H|intros ? ->; destruct H]. Qed.
Lemma clean_convert name ps j : convert name ps = Ok j -> Forall (fun p => forall v, snd p = Ok (Some v) -> Clean v) ps -> Clean j.
Proof.
  unfold convert. intros H F. destruct (convert_loop name ps []) as [kvs|e] eqn:E; [|discriminate]. cbn in H. injection H as <-.
  assert (G : forall acc, NoDup (map fst acc) -> (forall k v, In (k, v) acc -> Clean v) -> forall kvs, convert_loop name ps acc = Ok kvs ->
              NoDup (map fst kvs) /\ forall k v, In (k, v) kvs -> Clean v).
  { clear E. induction F as [|[p r] ps H1 _ IH]; cbn [convert_loop]; intros acc N C kvs' E; [injection E as <-; auto|].
    destruct r as [[v|]|e]; cbn [bind] in E; [|eauto|discriminate]. cbn in H1. eapply IH; [| |exact E]; [apply dict_set_keys; exact N|].
    intros k x I. apply dict_set_values in I as [I|I]; [cbn in I; subst; auto|eauto]. }
  destruct (G [] (NoDup_nil _) ltac:(intros ? ? []) kvs E). apply clean_obj; assumption.
Qed.
Lemma clean_list {A} (f : A -> result json) l v : (forall a j, f a = Ok j -> Clean j) -> convert_list f l = Ok (Some v) -> Clean v.
Proof.
  intros H E. apply convert_list_inv in E as (js & E & F). destruct js; [discriminate|]. injection E as ->. apply clean_arr.
  clear -F H. induction F; constructor; eauto.
Qed.
Lemma clean_opt {A} (f : A -> result json) o v : (forall a j, f a = Ok j -> Clean j) -> convert_opt f o = Ok (Some v) -> Clean v.
Proof. intros H E. destruct o as [x|]; cbn in E; [|discriminate]. destruct (f x) eqn:Ex; [|discriminate]. cbn in E. injection E as <-. eauto. Qed.
Lemma clean_strs l v : or_none (strs l) = Some v -> Clean v.
Proof.
  destruct l; [discriminate|]. cbn. intros [= <-]. apply clean_arr. apply Forall_forall. intros x I. apply clean_leaf.
  destruct I as [<-|I]; [exact I|]. apply in_map_iff in I as (? & <- & _). exact I.
Qed.

Ltac clean_prop :=
  intros v E; cbn [snd] in E; unfold the_str, opt_str, opt_date in E;
  repeat match type of E with
  | context [match ?x with Some _ => _ | None => _ end] => destruct x; cbn [option_map] in E
  | bind ?r _ = _ => destruct r eqn:?; cbn [bind] in E
  end; try discriminate;
  first [ injection E as <-; apply clean_leaf; exact I
        | injection E as E; eapply clean_strs; exact E
        | eapply clean_list; [|exact E]; eauto
        | eapply clean_opt; [|exact E]; eauto
        | injection E as <-; eauto ].
Ltac clean_props H := eapply clean_convert; [exact H|]; repeat (apply Forall_cons; [clean_prop|]); apply Forall_nil.

Lemma clean_annotation a j : convert_annotation a = Ok j -> Clean j.
Proof. intro H. rewrite convert_annotation_eq in H. unfold annotation_props in H. clean_props H. Qed.
Lemma clean_checksum a j : convert_checksum a = Ok j -> Clean j.
Proof. intro H. rewrite convert_checksum_eq in H. unfold checksum_props in H. clean_props H. Qed.
Lemma clean_extracted a j : convert_extracted a = Ok j -> Clean j.
Proof. intro H. rewrite convert_extracted_eq in H. unfold extracted_props in H. clean_props H. Qed.
Lemma clean_creation_info a j : convert_creation_info a = Ok j -> Clean j.
Proof. intro H. rewrite convert_creation_info_eq in H. unfold creation_info_props in H. clean_props H. Qed.
Lemma clean_external_package_ref a j : convert_external_package_ref a = Ok j -> Clean j.
Proof. intro H. rewrite convert_external_package_ref_eq in H. unfold external_package_ref_props in H. clean_props H. Qed.
Lemma clean_verif_code a j : convert_verif_code a = Ok j -> Clean j.
Proof. intro H. rewrite convert_verif_code_eq in H. unfold verif_code_props in H. clean_props H. Qed.
Lemma clean_relationship a j : convert_relationship a = Ok j -> Clean j.
Proof. intro H. rewrite convert_relationship_eq in H. unfold relationship_props in H. clean_props H. Qed.
Local Hint Resolve clean_annotation clean_checksum clean_extracted clean_creation_info clean_external_package_ref clean_verif_code clean_relationship : core.
Lemma clean_external_document_ref a j : convert_external_document_ref a = Ok j -> Clean j.
Proof. intro H. rewrite convert_external_document_ref_eq in H. unfold external_document_ref_props in H. clean_props H. Qed.
Lemma clean_range r id p : p <> $"reference" -> Clean (convert_range_to_dict r id p).
Proof.
  intro N. assert (P : forall z, Clean (pointer id z p)).
  { intro z. unfold pointer. apply clean_obj.
    - cbn [map fst]. constructor; [intros [H|[]]; congruence|]. constructor; [intros []|constructor].
    - intros k v [E|[E|[]]]; injection E as <- <-; apply clean_leaf; exact I. }
  apply clean_obj.
  - apply nodupb_spec. vm_compute. reflexivity.
  - intros k v [E|[E|[]]]; injection E as <- <-; apply P.
Qed.
Lemma clean_ranges s : Clean (convert_ranges s).
Proof.
  unfold convert_ranges. apply clean_arr. constructor; [apply clean_range; intro H; discriminate|].
  destruct (sn_lines s); [|constructor]. constructor; [apply clean_range; intro H; discriminate|constructor].
Qed.
Local Hint Resolve clean_external_document_ref clean_ranges : core.
Lemma clean_file O d a j : convert_file O d a = Ok j -> Clean j.
Proof. intro H. rewrite convert_file_eq in H. unfold file_props in H. clean_props H. Qed.
Lemma clean_snippet O d a j : convert_snippet O d a = Ok j -> Clean j.
Proof. intro H. rewrite convert_snippet_eq in H. unfold snippet_props in H. clean_props H. Qed.
Lemma clean_package O d a j : convert_package O d a = Ok j -> Clean j.
Proof. intro H. rewrite convert_package_eq in H. unfold package_props in H. clean_props H. Qed.
Local Hint Resolve clean_file clean_snippet clean_package : core.
Theorem clean_document O d j : convert_document O d = Ok j -> Clean j.
Proof. intro H. rewrite convert_document_eq in H. unfold document_props in H. clean_props H. Qed.
