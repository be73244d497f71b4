(** Documents in the JSON form are read as what they say. *)
From Verif Require Import Py PyRe PyFacts Data Oracles Basics BasicsFacts ActorFacts Json Construct JsonConv JsonParse JsonSpec JsonReadSpec JsonFacts JsonErrors JsonMore StampMore JsonRead JsonRead2.

Lemma obj_entry {A} (f : json -> result A) (P : list (pystr * json) -> A -> Prop) : (forall kvs a, f (JObj kvs) = Ok a <-> P kvs a) -> (forall j a, f j = Ok a -> exists kvs, j = JObj kvs) ->
  forall j a, f j = Ok a <-> Entry P j a.
Proof.
  intros H K j a. split.
  - intro E. destruct (K j a E) as (kvs & ->). exists kvs. split; [reflexivity|]. apply H. exact E.
  - intros (kvs & -> & E). apply H. exact E.
Qed.
Lemma bind_jget_obj {B} k j (f : json -> result B) b : bind (jget k j) f = Ok b -> exists kvs, j = JObj kvs.
Proof. intro H. apply bind_ok in H as (a & H & _). apply jget_inv in H as (kvs & -> & _). eauto. Qed.
Lemma annotation_entry parent j a : parse_annotation parent j = Ok a <-> Entry (SaysAnnotation parent) j a.
Proof. apply obj_entry; [apply annotation_iff|]. intros j0 a0 H. eapply bind_jget_obj. exact H. Qed.
Lemma list_default {A} (P : json -> A -> Prop) k kvs r : MaybeList P (value_or (JArr []) k kvs) r <-> MaybeList P (value_at k kvs) r.
Proof.
  unfold value_or, value_at. destruct (assoc k kvs); [tauto|]. unfold MaybeList, ListOf. split; intros [[T ->]|[T H]]; try discriminate T; left; auto.
Qed.
Lemma own_iff j l : annotations_loop [j] = Ok ([], l) <-> OwnAnnotations j l.
Proof.
  cbn [annotations_loop]. unfold OwnAnnotations. split.
  - intro H. apply bind_ok in H as (id & Hi & H). apply jget_inv in Hi as (kvs & -> & ->). rewrite jget_or in H. cbn [bind] in H. apply bind_ok in H as ([m r] & F & H). cbn [bind] in H.
    injection H as H <-. rewrite app_nil_r in *. subst m. exists kvs. split; [reflexivity|]. apply list_default. apply opt_list_iff. exists r. split; [|reflexivity].
    apply (field_list_iff _ _ _ _ (annotation_entry _) (noisy_annotation _)). exact F.
  - intros (kvs & -> & H). rewrite jget_at, jget_or. cbn [bind]. apply list_default in H. apply opt_list_iff in H as (o & H & <-).
    apply (field_list_iff _ _ _ _ (annotation_entry _) (noisy_annotation _)) in H. rewrite H. cbn [bind app]. rewrite app_nil_r. reflexivity.
Qed.
Lemma annotations_loop_cons x l : annotations_loop (x :: l) = (do (m, r) <- annotations_loop [x]; do (ms, rs) <- annotations_loop l; Ok (m ++ ms, r ++ rs)).
Proof.
  cbn [annotations_loop]. destruct (jget $"SPDXID" x) as [id|e]; cbn [bind]; [|reflexivity]. destruct (jget_default _ _ x) as [a|e]; cbn [bind]; [|reflexivity].
  destruct (parse_field_list a (parse_annotation id)) as [[m r]|e]; cbn [bind]; [|reflexivity]. rewrite !app_nil_r. reflexivity.
Qed.
Lemma owns_iff l r : annotations_loop l = Ok ([], r) <-> exists rs, Forall2 OwnAnnotations l rs /\ r = List.concat rs.
Proof.
  revert r. induction l as [|x l IH]; intro r.
  - cbn. split.
    + intro H. injection H as <-. exists []. split; [constructor|reflexivity].
    + intros (rs & H & ->). inversion H. reflexivity.
  - rewrite annotations_loop_cons. split.
    + intro H. apply bind_ok in H as ([m a] & F & H). cbn iota in H. apply bind_ok in H as ([ms b] & G & H). cbn iota in H.
      apply (f_equal (fun r => match r with Ok x => x | Raise _ => ([[]], []) end)) in H. cbn iota in H. apply pair_equal_spec in H as [H1 H2]. apply app_eq_nil in H1 as [-> ->].
      apply own_iff in F. apply IH in G as (rs & G & ->). exists (a :: rs). split; [constructor; auto|]. cbn. congruence.
    + intros (rs & H & ->). inversion H as [|? a ? m H1 H2]; subst. apply own_iff in H1. rewrite H1. cbn [bind].
      rewrite (proj2 (IH (List.concat m)) (ex_intro _ m (conj H2 eq_refl))). reflexivity.
Qed.
Lemma noisy_review p j : Noisy (parse_review p j).
Proof. unfold parse_review. noisy. Qed.
Lemma review_iff p j a : parse_review p j = Ok a <-> SaysReview p j a.
Proof.
  split.
  - intro R. unfold parse_review in R. apply bind_ok in R as (x & Hx & R). apply jget_inv in Hx as (kvs & -> & ->). rewrite !jget_at in R. cbn [bind] in R.
    apply bind_ok in R as ([l1 by_] & F1 & R). cbn [bind] in R. apply bind_ok in R as ([l2 date] & F2 & R). cbn [bind] in R. apply named_ok in R as [NL R]. nils. cbv zeta in R.
    apply construct_ok in R. ap_inv R. cok. exists kvs. cbn [an_id an_type an_annotator an_date an_comment]. split; [reflexivity|]. split; [says|]. split; [reflexivity|]. split; [|split; [|says]].
    + eapply (req_iff _ _ _ _ _ _ actor_iff noisy_actor); [apply actor_truthy|]. eauto.
    + eapply (req_iff _ _ _ _ _ _ date_iff noisy_date); [apply date_truthy|]. eauto.
  - intros (kvs & -> & I & T & A & D & C). destruct a as [x1 x2 x3 x4 x5]. cbn [an_id an_type an_annotator an_date an_comment] in *. subst x2.
    unfold parse_review. rewrite !jget_at. cbn [bind].
    apply (req_iff $"Annotation" $"annotator" _ _ _ _ actor_iff noisy_actor) in A as (o2 & F2 & E2); [|apply actor_truthy].
    apply (req_iff $"Annotation" $"annotation_date" _ _ _ _ date_iff noisy_date) in D as (o3 & F3 & E3); [|apply date_truthy].
    rewrite F2. cbn [bind]. rewrite F3. cbn [bind]. apply named_ok. split; [reflexivity|]. cbv zeta. apply construct_ok. ap_go; says2.
Qed.
Lemma entries_of k kvs l : jiter (value_or (JArr []) k kvs) = Ok l <-> EntriesOf k kvs l.
Proof.
  unfold EntriesOf, value_or. destruct (assoc k kvs) as [v|]; [apply jiter_iff|]. cbn. split; intro H; [injection H as <-; reflexivity|subst; reflexivity].
Qed.
Theorem annotations_iff kvs l : parse_all_annotations (JObj kvs) = Ok l <-> SaysAnnotations kvs l.
Proof.
  unfold parse_all_annotations, parse_annotations_from_object. split.
  - intro R. apply bind_ok in R as ([l1 a1] & F1 & R). cbn iota in R. rewrite !jget_or, jget_at in R. cbn [bind] in R.
    apply bind_ok in R as (reviews & IR & R). apply bind_ok in R as ([l2 a2] & F2 & R). cbn [bind] in R.
    apply bind_ok in R as ([l3 a3] & F3 & R). cbn [bind] in R. apply bind_ok in R as ([l4 a4] & F4 & R). cbn [bind] in R. apply bind_ok in R as ([l5 a5] & F5 & R). cbn iota in R.
    apply named_ok in R as [NL R]. nils. injection R as <-.
    apply bind_ok in F3 as (ps & IP & F3). apply bind_ok in F4 as (fs & IF & F4). apply bind_ok in F5 as (ss & IS & F5).
    apply own_iff in F1. apply (elements_iff _ _ _ _ (review_iff _) (noisy_review _)) in F2.
    apply owns_iff in F3 as (pas & F3 & ->). apply owns_iff in F4 as (fas & F4 & ->). apply owns_iff in F5 as (sas & F5 & ->).
    apply entries_of in IR. apply entries_of in IP. apply entries_of in IF. apply entries_of in IS.
    exists a1, reviews, a2, ps, fs, ss, pas, fas, sas. repeat (split; [assumption|]). reflexivity.
  - intros (own & reviews & rs & ps & fs & ss & pas & fas & sas & F1 & IR & F2 & IP & F3 & IF & F4 & IS & F5 & ->).
    apply own_iff in F1. rewrite F1. cbn [bind]. rewrite !jget_or, jget_at. cbn [bind]. apply entries_of in IR. apply entries_of in IP. apply entries_of in IF. apply entries_of in IS.
    rewrite IR. cbn [bind]. apply (elements_iff _ _ _ _ (review_iff _) (noisy_review _)) in F2. rewrite F2. cbn [bind].
    rewrite IP. cbn [bind]. rewrite (proj2 (owns_iff ps (List.concat pas)) (ex_intro _ pas (conj F3 eq_refl))). cbn [bind].
    rewrite IF. cbn [bind]. rewrite (proj2 (owns_iff fs (List.concat fas)) (ex_intro _ fas (conj F4 eq_refl))). cbn [bind].
    rewrite IS. cbn [bind]. rewrite (proj2 (owns_iff ss (List.concat sas)) (ex_intro _ sas (conj F5 eq_refl))). cbn [bind]. reflexivity.
Qed.
(** ** Documents *)
Lemma file_obj O j a : parse_file O j = Ok a -> exists kvs, j = JObj kvs.
Proof. intro H. eapply bind_jget_obj. exact H. Qed.
Lemma snippet_obj O j a : parse_snippet O j = Ok a -> exists kvs, j = JObj kvs.
Proof. intro H. eapply bind_jget_obj. exact H. Qed.
Lemma extracted_obj j a : parse_extracted j = Ok a -> exists kvs, j = JObj kvs.
Proof. intro H. eapply bind_jget_obj. exact H. Qed.
Lemma package_entry O : (forall s e, o_lic_parse O s = Raise e -> exists m, e = EExpr m) -> forall j p, Parses (parse_package O) j p <-> Entry (SaysPackage O) j p.
Proof.
  intros L j p. unfold Parses. split.
  - intro H. assert (K : exists kvs, j = JObj kvs).
    { unfold parse_package in H. destruct (parse_package_raw O j) as [x|e] eqn:R; [|discriminate]. eapply bind_jget_obj. exact R. }
    destruct K as (kvs & ->). exists kvs. split; [reflexivity|]. apply (package_iff O L). exact H.
  - intros (kvs & -> & H). apply (package_iff O L). exact H.
Qed.
Lemma silent_iff {A} (f : json -> result A) (P : json -> A -> Prop) : (forall j a, f j = Ok a <-> P j a) -> forall j a, Parses (silent f) j a <-> P j a.
Proof. intros H j a. rewrite <- H. unfold Parses, silent. split; intro K; [injection K as K; exact K|rewrite K; reflexivity]. Qed.
Lemma Forall2_iff {A B} (P Q : A -> B -> Prop) l m : (forall a b, P a b <-> Q a b) -> Forall2 P l m <-> Forall2 Q l m.
Proof. intro H. split; intro F; induction F; constructor; auto; apply H; assumption. Qed.
Lemma elements_parse {A} (f : json -> list pystr * result A) l r : Forall2 (Parses f) l r -> parse_elements f l = Ok ([], r).
Proof. intro H. induction H as [|x a l r E _ IH]; [reflexivity|]. cbn [parse_elements]. rewrite E, IH. reflexivity. Qed.
Lemma top_entries {A} (f : json -> list pystr * result A) k kvs l r : EntriesAt k kvs l -> Forall2 (Parses f) l r ->
  exists o, top_field true (at_key k kvs) (parse_list_of_elements_log f) = Ok ([], o) /\ opt_list o = r.
Proof.
  intros E F. unfold top_field, EntriesAt, at_key in *. destruct (assoc k kvs) as [v|]; cbn [andb].
  2: { subst l. inversion F. exists None. auto. }
  destruct (jtruthy v) eqn:T; cbn [negb].
  - destruct v as [| | | | |l'|]; try (destruct E; discriminate). subst l'. unfold parse_list_of_elements_log. cbn [jiter bind]. rewrite (elements_parse f l r F). cbn. exists (Some r). auto.
  - assert (l = []). { destruct v as [| | | | |l'|]; try (destruct E; assumption). subst l'. destruct l; [reflexivity|discriminate]. }
    subst l. inversion F. exists None. auto.
Qed.
Lemma top_obj {A} (f : json -> result (list A)) kvs r : f (JObj []) = Ok [] -> f (JObj kvs) = Ok r -> exists o, top_field true (JObj kvs) f = Ok ([], o) /\ opt_list o = r.
Proof.
  intros Z H. unfold top_field. destruct kvs as [|kv kvs].
  - rewrite Z in H. injection H as <-. exists None. auto.
  - cbn [jtruthy truthy_list negb andb]. rewrite H. exists (Some r). auto.
Qed.
Theorem document_iff O : (forall s e, o_lic_parse O s = Raise e -> exists m, e = EExpr m) -> forall kvs d,
  parse_dict O (JObj kvs) = Ok d <->
  SaysCreation kvs (do_ci d) /\ SaysEntries $"packages" (SaysPackage O) kvs (do_packages d) /\ SaysEntries $"files" (SaysFile O) kvs (do_files d)
  /\ SaysEntries $"snippets" (SaysSnippet O) kvs (do_snippets d) /\ SaysEntries $"hasExtractedLicensingInfos" SaysExtracted kvs (do_extracted d)
  /\ SaysAnnotations kvs (do_annotations d) /\ parse_all_relationships (JObj kvs) = Ok (do_relationships d).
Proof.
  intros L kvs d.
  assert (KP := Forall2_iff (Parses (parse_package O)) (Entry (SaysPackage O))). specialize (KP) .
  assert (PF : forall j a, Parses (silent (parse_file O)) j a <-> Entry (SaysFile O) j a) by (apply silent_iff, obj_entry; [apply (file_iff O L)|apply file_obj]).
  assert (PS : forall j a, Parses (silent (parse_snippet O)) j a <-> Entry (SaysSnippet O) j a) by (apply silent_iff, obj_entry; [apply (snippet_iff O L)|apply snippet_obj]).
  assert (PE : forall j a, Parses (silent parse_extracted) j a <-> Entry SaysExtracted j a) by (apply silent_iff, obj_entry; [apply extracted_iff|apply extracted_obj]).
  clear KP. split.
  - intro H. apply no_partial_document in H as (C & A & R & (ps & EP & FP) & (fs & EF & FF) & (ss & ES & FS) & (es & EE & FE)).
    apply creation_iff in C. apply annotations_iff in A. split; [exact C|]. split; [|split; [|split; [|split; [|split; assumption]]]].
    + exists ps. split; [exact EP|]. eapply Forall2_iff; [|exact FP]. intros. symmetry. apply (package_entry O L).
    + exists fs. split; [exact EF|]. eapply Forall2_iff; [|exact FF]. intros. symmetry. apply PF.
    + exists ss. split; [exact ES|]. eapply Forall2_iff; [|exact FS]. intros. symmetry. apply PS.
    + exists es. split; [exact EE|]. eapply Forall2_iff; [|exact FE]. intros. symmetry. apply PE.
  - intros (C & (ps & EP & FP) & (fs & EF & FF) & (ss & ES & FS) & (es & EE & FE) & A & R). apply creation_iff in C. apply annotations_iff in A.
    apply (Forall2_iff _ _ _ _ (fun j p => iff_sym (package_entry O L j p))) in FP. apply (Forall2_iff _ _ _ _ (fun j p => iff_sym (PF j p))) in FF.
    apply (Forall2_iff _ _ _ _ (fun j p => iff_sym (PS j p))) in FS. apply (Forall2_iff _ _ _ _ (fun j p => iff_sym (PE j p))) in FE.
    unfold parse_dict. rewrite !jget_at. cbn [bind]. unfold value_at. fold (at_key $"packages" kvs). fold (at_key $"files" kvs). fold (at_key $"snippets" kvs). fold (at_key $"hasExtractedLicensingInfos" kvs).
    change (parse_list_of_elements (parse_file O)) with (parse_list_of_elements_log (silent (parse_file O))).
    change (parse_list_of_elements (parse_snippet O)) with (parse_list_of_elements_log (silent (parse_snippet O))).
    change (parse_list_of_elements parse_extracted) with (parse_list_of_elements_log (silent parse_extracted)).
    assert (TC : top_field false (JObj kvs) parse_creation_info = Ok ([], Some (do_ci d))) by (unfold top_field; cbn [andb]; rewrite C; reflexivity).
    rewrite TC. cbn [bind]. destruct (top_entries _ _ _ _ _ EP FP) as (o1 & T1 & E1). rewrite T1. cbn [bind].
    destruct (top_entries _ _ _ _ _ EF FF) as (o2 & T2 & E2). rewrite T2. cbn [bind].
    destruct (top_obj parse_all_annotations kvs _ eq_refl A) as (o3 & T3 & E3). rewrite T3. cbn [bind].
    destruct (top_entries _ _ _ _ _ ES FS) as (o4 & T4 & E4). rewrite T4. cbn [bind].
    destruct (top_obj parse_all_relationships kvs _ eq_refl R) as (o5 & T5 & E5). rewrite T5. cbn [bind].
    destruct (top_entries _ _ _ _ _ EE FE) as (o6 & T6 & E6). rewrite T6. cbn [bind app raise_if].
    rewrite E1, E2, E3, E4, E5, E6. destruct d. reflexivity.
Qed.
