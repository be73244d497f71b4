(** Entries of the JSON form are read as what they say: files, snippets and the rest. *)
From Verif Require Import Py PyRe PyFacts Data Oracles Basics BasicsFacts ActorFacts Json Construct JsonConv JsonParse JsonSpec JsonReadSpec JsonFacts JsonErrors JsonMore StampMore JsonRead.

Lemma enum_item_iff {A} (all : list A) (name : A -> pystr) j a : (forall s x, enum_lookup all name s = Some x <-> s = name x) ->
  enum_item all name j = Ok (Some a) <-> j = JStr (name a).
Proof.
  intro K. unfold enum_item. destruct j as [| | | |s| |]; cbn [hashable negb]; try (split; discriminate). split.
  - intro H. injection H as H. apply K in H. congruence.
  - intro H. apply jstr_inj in H. apply K in H. rewrite H. reflexivity.
Qed.
Lemma file_types_iff j r : parse_file_types j = Ok r <-> ListOf (fun j t => j = JStr (file_type_name t)) j r.
Proof.
  assert (K : forall l r, file_types_loop l = Ok ([], r) <-> Forall2 (fun j t => j = JStr (file_type_name t)) l r).
  { induction l as [|x l IH]; intro r0; cbn [file_types_loop].
    - split; intro H; [injection H as <-; constructor|inversion H; reflexivity].
    - split.
      + intro H. apply bind_ok in H as (o & E & H). apply bind_ok in H as ([ms rs] & F & H). destruct o as [t|]; [|discriminate]. injection H as -> <-.
        constructor; [apply (enum_item_iff _ _ _ _ ftype_lookup); exact E|apply IH; exact F].
      + intro H. inversion H as [|? t ? m H1 H2]; subst. apply IH in H2. rewrite (proj2 (enum_item_iff _ _ _ _ ftype_lookup) eq_refl). cbn [bind]. rewrite H2. reflexivity. }
  unfold parse_file_types, ListOf. split.
  - intro H. apply bind_ok in H as (l & I & H). apply bind_ok in H as ([log rs] & F & H). cbn iota in H. apply named_ok in H as [-> H]. injection H as ->.
    exists l. split; [apply jiter_iff; exact I|apply K; exact F].
  - intros (l & I & H). apply jiter_iff in I. rewrite I. cbn [bind]. apply K in H. rewrite H. reflexivity.
Qed.
Lemma noisy_file_types j : Noisy (parse_file_types j).
Proof.
  assert (K : forall l, Noisy (file_types_loop l)).
  { induction l as [|x l IH]; cbn [file_types_loop]; [apply noisy_ok|]. apply noisy_bind; [|intro; apply noisy_bind; [exact IH|intros [? ?]; apply noisy_ok]].
    intros e H. unfold enum_item in H. destruct (negb (hashable x)); [injection H as <-|]; discriminate. }
  unfold parse_file_types. apply noisy_bind; [apply noisy_jiter|]. intro l. apply noisy_bind; [apply K|]. intros [log r]. apply noisy_bind; [apply noisy_named|]. intro. apply noisy_ok.
Qed.
Lemma req_list_iff {A} c k (P : json -> A -> Prop) j r : (exists o, Maybe (ListOf P) j o /\ c_req c k o = COk r) <-> (jtruthy j = true /\ ListOf P j r).
Proof.
  split.
  - intros (o & H & E). apply c_req_iff in E. subst o. exact H.
  - intro H. exists (Some r). split; [exact H|reflexivity].
Qed.
Section Files.
Variable O : oracles.
Hypothesis L : forall s e, o_lic_parse O s = Raise e -> exists m, e = EExpr m.
Theorem file_iff kvs p : parse_file O (JObj kvs) = Ok p <-> SaysFile O kvs p.
Proof.
  split.
  - intro R. unfold parse_file in R. rewrite !jget_at, !jget_or in R. cbn [bind] in R.
    apply bind_ok in R as ([l1 cks] & F1 & R). cbn [bind] in R. apply bind_ok in R as ([l2 types] & F2 & R). cbn [bind] in R. apply bind_ok in R as ([l3 conc] & F3 & R). cbn [bind] in R.
    apply bind_ok in R as ([l4 info] & F4 & R). cbn [bind] in R. apply named_ok in R as [NL R]. nils. cbv zeta in R. apply construct_ok in R. ap_inv R. cok.
    split; cbn [fi_name fi_id fi_checksums fi_types fi_concluded fi_info fi_lic_comment fi_copyright fi_comment fi_notice fi_contributors fi_attribution]; try (says; fail).
    + eapply req_list_iff. exists cks. split; [|eassumption]. apply (field_list_iff _ _ _ _ checksum_iff noisy_checksum). exact F1.
    + apply opt_list_iff. exists types. split; [|reflexivity]. apply (field_iff _ _ _ _ file_types_iff noisy_file_types). exact F2.
    + apply (opt_license_iff O L). eauto.
    + eapply (licenses_iff O L). eauto.
  - intro S. destruct p as [x1 x2 x3 x4 x5 x6 x7 x8 x9 x10 x11 x12]. destruct S.
    cbn [fi_name fi_id fi_checksums fi_types fi_concluded fi_info fi_lic_comment fi_copyright fi_comment fi_notice fi_contributors fi_attribution] in *.
    unfold parse_file. rewrite !jget_at, !jget_or. cbn [bind].
    apply (req_list_iff $"File" $"checksums") in sf_checksums as (cks & F1 & E1). apply (field_list_iff _ _ _ _ checksum_iff noisy_checksum) in F1.
    apply opt_list_iff in sf_types as (types & F2 & E2). apply (field_iff _ _ _ _ file_types_iff noisy_file_types) in F2.
    apply (opt_license_iff O L) in sf_concluded as (conc & F3 & E3). apply (licenses_iff O L $"File" $"license_info_in_file") in sf_info as (info & F4 & E4).
    rewrite F1. cbn [bind]. rewrite F2. cbn [bind]. rewrite F3. cbn [bind]. rewrite F4. cbn [bind]. apply named_ok. split; [reflexivity|]. cbv zeta. apply construct_ok. ap_go; try (says2; fail).
    + rewrite E2. reflexivity.
    + rewrite E3. reflexivity.
Qed.
(** ** Snippets *)
Lemma dec_isdigit s n : dec_val s = Some n -> isdigit s = true.
Proof.
  intro H. apply DecimalOf_iff in H. unfold isdigit. pose proof (DecimalOf_digits _ _ H) as D. pose proof (DecimalOf_nonempty _ _ H) as N. destruct s as [|c s]; [congruence|].
  cbn [truthy_list andb]. rewrite forallb_forall in *. intros x I. unfold isdigit_char. rewrite (D x I). reflexivity.
Qed.
Lemma bound_iff j z : (exists v, convert_bound j = Ok v /\ j_int v = Some z) <-> SaysInt j z.
Proof.
  unfold SaysInt. destruct j as [|b|x| |s| |]; cbn [convert_bound].
  1,4,6,7: split; [intros (v & H & K); injection H as <-; discriminate K|contradiction].
  - split; [intros (v & H & K); injection H as <-; destruct b; cbn in K; congruence|]. intros ->. exists (JBool b). split; [reflexivity|destruct b; reflexivity].
  - split; [intros (v & H & K); injection H as <-; cbn in K; congruence|]. intros ->. eexists. split; reflexivity.
  - split.
    + intros (v & H & K). destruct (isdigit s); [|injection H as <-; discriminate]. destruct (dec_val s) as [n|]; [|discriminate]. injection H as <-. cbn in K. injection K as <-. eauto.
    + intros (n & D & ->). rewrite (dec_isdigit _ _ D), D. eexists. split; reflexivity.
Qed.
Lemma range_iff c k r o : (exists v, convert_range_from_str r = Ok v /\ c_opt_range c k v = COk o) <-> SaysRange r o.
Proof.
  destruct r as [[a b]|]; cbn [convert_range_from_str SaysRange].
  - split.
    + intros (v & H & K). apply bind_ok in H as (a' & A & H). apply bind_ok in H as (b' & B & H). injection H as <-. cbn [c_opt_range c_range] in K.
      destruct (j_int a') as [x|] eqn:X; [|discriminate]. destruct (j_int b') as [y|] eqn:Y; [|discriminate]. injection K as <-. split; apply bound_iff; eauto.
    + destruct o as [[x y]|]; [|contradiction]. intros [A B]. apply bound_iff in A as (a' & A & A'). apply bound_iff in B as (b' & B & B').
      exists (Some (a', b')). rewrite A, B. cbn [bind c_opt_range c_range]. rewrite A', B'. auto.
  - split.
    + intros (v & H & K). injection H as <-. injection K as <-. exact I.
    + destruct o; [contradiction|]. intros _. exists None. auto.
Qed.
Lemma c_range_some c k v z : c_range c k v = COk z <-> c_opt_range c k v = COk (Some z).
Proof. destruct v as [[a b]|]; cbn [c_opt_range]; [|split; discriminate]. destruct (c_range c k (Some (a, b))); split; intro H; try discriminate; congruence. Qed.
Lemma ranges_list_iff j r : parse_ranges j = Ok r <-> exists ks, ListOf IsRange j ks /\ rg_byte r = last_of true ks /\ rg_line r = last_of false ks.
Proof.
  assert (K : forall l, jiter j = Ok l -> parse_ranges j = parse_ranges (JArr l)) by (intros l H; unfold parse_ranges; rewrite H; reflexivity).
  split.
  - intro H. assert (I : exists l, jiter j = Ok l) by (unfold parse_ranges in H; apply bind_ok in H as (l & I & _); eauto). destruct I as (l & I).
    rewrite (K l I) in H. apply parse_ranges_spec in H as (ks & F & A & B). exists ks. split; [exists l; split; auto; apply jiter_iff; exact I|auto].
  - intros (ks & (l & I & F) & A & B). apply jiter_iff in I. rewrite (K l I). apply parse_ranges_spec. eauto.
Qed.
Lemma noisy_ranges j : Noisy (parse_ranges j).
Proof.
  assert (K : forall l log acc, Noisy (ranges_loop l log acc)).
  { induction l as [|x l IH]; intros log acc; cbn [ranges_loop]; [apply noisy_ok|].
    match goal with |- Noisy (match ?x with _ => _ end) => destruct x as [[t v]|e] eqn:E end; [apply IH|]. intros e' H.
    assert (N : forall e, (do t <- validate_range_and_get_type x; do v <- get_start_end_tuple x t; Ok (t, v)) = Raise e -> caught e <> Some []).
    { change (Noisy (do t <- validate_range_and_get_type x; do v <- get_start_end_tuple x t; Ok (t, v))).
      assert (JI : forall k j, Noisy (jin k j)) by (intros k y e0 H0; destruct y; cbn in H0; try discriminate; injection H0 as <-; discriminate).
      assert (JT : forall k j, Noisy (jitem k j)).
      { intros k y e0 H0; destruct y; cbn in H0; try (injection H0 as <-; discriminate). destruct (assoc k kvs); [discriminate|injection H0 as <-; discriminate]. }
      assert (RV : forall A m, Noisy (@Raise A (EValue m))) by (intros A m e0 H0; injection H0 as <-; discriminate).
      assert (VP : forall p, Noisy (validate_pointer_and_get_type p)).
      { intro p. unfold validate_pointer_and_get_type. apply noisy_bind; [apply JI|intro o]. apply noisy_bind; [apply JI|intro n]. destruct (o && n); [apply RV|]. destruct (negb o && negb n); [apply RV|apply noisy_ok]. }
      apply noisy_bind.
      - unfold validate_range_and_get_type. apply noisy_bind; [apply JI|intro s]. destruct (negb s); [apply RV|]. apply noisy_bind; [apply JI|intro e1]. destruct (negb e1); [apply RV|].
        apply noisy_bind; [apply JT|intro]. apply noisy_bind; [apply VP|intro]. apply noisy_bind; [apply JT|intro]. apply noisy_bind; [apply VP|intro]. destruct (negb _); [apply RV|apply noisy_ok].
      - intro t. apply noisy_bind; [|intro; apply noisy_ok]. unfold get_start_end_tuple. apply noisy_bind; [apply JT|intro]. apply noisy_bind; [apply JT|intro]. cbv zeta. apply noisy_bind; [apply JT|intro]. apply noisy_bind; [apply JT|intro]. apply noisy_ok. }
    specialize (N _ E). destruct e; try (injection H as <-; exact N). exact (IH _ _ _ H). }
  unfold parse_ranges. apply noisy_bind; [apply noisy_jiter|]. intro l. apply noisy_bind; [apply K|]. intros [log r]. apply noisy_bind; [apply noisy_named|]. intro. apply noisy_ok.
Qed.
Theorem snippet_iff kvs p : parse_snippet O (JObj kvs) = Ok p <-> SaysSnippet O kvs p.
Proof.
  assert (T : jtruthy (value_or (JArr []) $"ranges" kvs) = jtruthy (value_at $"ranges" kvs) /\ (jtruthy (value_at $"ranges" kvs) = true -> value_or (JArr []) $"ranges" kvs = value_at $"ranges" kvs)).
  { unfold value_or, value_at. destruct (assoc $"ranges" kvs); split; try reflexivity. discriminate. }
  destruct T as [T1 T2]. split.
  - intro R. unfold parse_snippet in R. rewrite !jget_at, !jget_or in R. cbn [bind] in R.
    apply bind_ok in R as ([l1 rs] & F1 & R). cbv zeta in R. apply bind_ok in R as (br & B & R). apply bind_ok in R as (lr & Lr & R). cbn [bind] in R.
    apply bind_ok in R as ([l2 conc] & F2 & R). cbn [bind] in R. apply bind_ok in R as ([l3 info] & F3 & R). cbn [bind] in R. apply named_ok in R as [NL R]. nils. apply construct_ok in R. ap_inv R. cok.
    apply (field_iff _ _ _ _ ranges_list_iff noisy_ranges) in F1.
    destruct rs as [rs|]; [|cbn in B; injection B as <-; discriminate]. destruct F1 as [TR (ks & LO & RB & RL)]. rewrite T1 in TR. rewrite (T2 TR) in LO. 
    split; cbn [sn_id sn_file sn_bytes sn_lines sn_concluded sn_info sn_lic_comment sn_copyright sn_comment sn_name sn_attribution]; try (says; fail).
    + split; [exact TR|]. exists ks. split; [exact LO|]. rewrite <- RB, <- RL. split; eapply range_iff; eexists; (split; [eassumption|]); [apply c_range_some|]; eassumption.
    + apply (opt_license_iff O L). eauto.
    + eapply (licenses_iff O L). eauto.
  - intro S. destruct p as [x1 x2 x3 x4 x5 x6 x7 x8 x9 x10 x11]. destruct S.
    cbn [sn_id sn_file sn_bytes sn_lines sn_concluded sn_info sn_lic_comment sn_copyright sn_comment sn_name sn_attribution] in *.
    unfold parse_snippet. rewrite !jget_at, !jget_or. cbn [bind]. destruct ss_ranges as [TR (ks & LO & RB & RL)].
    apply (range_iff $"Snippet" $"byte_range") in RB as (br & B1 & B2). apply (range_iff $"Snippet" $"line_range") in RL as (lr & R1 & R2).
    rewrite (T2 TR). rewrite (proj2 (field_iff _ _ (value_at $"ranges" kvs) (Some {| rg_byte := last_of true ks; rg_line := last_of false ks |}) ranges_list_iff noisy_ranges)).
    2: { split; [exact TR|]. exists ks. auto. }
    cbn [bind rg_byte rg_line]. cbv zeta. rewrite B1. cbn [bind]. rewrite R1. cbn [bind].
    apply (opt_license_iff O L) in ss_concluded as (conc & F3 & E3). apply (licenses_iff O L $"Snippet" $"license_info_in_snippet") in ss_info as (info & F4 & E4).
    rewrite F3. cbn [bind]. rewrite F4. cbn [bind]. apply named_ok. split; [reflexivity|]. apply construct_ok. ap_go; try (says2; fail).
    + apply c_range_some. exact B2.
    + rewrite E3. reflexivity.
Qed.
End Files.
Theorem extracted_iff kvs e : parse_extracted (JObj kvs) = Ok e <-> SaysExtracted kvs e.
Proof.
  split.
  - intro R. unfold parse_extracted in R. rewrite !jget_at, !jget_or in R. cbn [bind] in R. cbv zeta in R. apply construct_ok in R. ap_inv R. cok.
    split; cbn [el_id el_text el_name el_xrefs el_comment]; says.
  - intro S. destruct e as [x1 x2 x3 x4 x5]. destruct S. cbn [el_id el_text el_name el_xrefs el_comment] in *.
    unfold parse_extracted. rewrite !jget_at, !jget_or. cbn [bind]. cbv zeta. apply construct_ok. ap_go; says2.
Qed.
Lemma req_member_iff {A} c k (f : json -> result A) (name : A -> pystr) j a : (forall x b, f x = Ok b <-> SaysMember x (name b)) -> (forall x, Noisy (f x)) -> (forall b, name b <> []) ->
  (exists o, parse_field j f = Ok ([], o) /\ c_req c k o = COk a) <-> SaysMember j (name a).
Proof.
  intros H N Z. split.
  - intros (o & F & E). apply c_req_iff in E. subst o. apply (field_iff _ _ _ _ H N) in F. exact (proj2 F).
  - intro M. exists (Some a). split; [|reflexivity]. apply (field_iff _ _ _ _ H N). split; [eapply member_truthy; [apply (Z a)|exact M]|exact M].
Qed.
Theorem relationship_iff kvs e : parse_relationship (JObj kvs) = Ok e <-> SaysRelationship kvs e.
Proof.
  assert (Z : forall t, rel_type_name t <> []) by (intro t; destruct t; discriminate).
  split.
  - intro R. unfold parse_relationship in R. rewrite !jget_at in R. cbn [bind] in R. apply bind_ok in R as ([l ty] & F & R). cbn [bind] in R. apply named_ok in R as [-> R]. cbv zeta in R.
    apply construct_ok in R. ap_inv R. cok. split; cbn [re_id re_type re_related re_comment]; try (says; fail).
    eapply (req_member_iff _ _ _ _ _ _ rel_type_iff noisy_rel_type Z). eauto.
  - intro S. destruct e as [x1 x2 x3 x4]. destruct S. cbn [re_id re_type re_related re_comment] in *.
    apply (req_member_iff $"Relationship" $"relationship_type" _ _ _ _ rel_type_iff noisy_rel_type Z) in sr_type as (o & F & E).
    unfold parse_relationship. rewrite !jget_at. cbn [bind]. rewrite F. cbn [bind]. apply named_ok. split; [reflexivity|]. cbv zeta. apply construct_ok. ap_go; says2.
Qed.
Lemma req_iff {A} c k (f : json -> result A) (P : json -> A -> Prop) j a : (forall x b, f x = Ok b <-> P x b) -> (forall x, Noisy (f x)) -> (P j a -> jtruthy j = true) ->
  (exists o, parse_field j f = Ok ([], o) /\ c_req c k o = COk a) <-> P j a.
Proof.
  intros H N Z. split.
  - intros (o & F & E). apply c_req_iff in E. subst o. apply (field_iff _ _ _ _ H N) in F. exact (proj2 F).
  - intro M. exists (Some a). split; [|reflexivity]. apply (field_iff _ _ _ _ H N). split; auto.
Qed.
Lemma date_truthy j d : SaysDate j d -> jtruthy j = true.
Proof. intros (s & -> & H). destruct s; [|reflexivity]. vm_compute in H. discriminate. Qed.
Lemma actor_truthy j d : SaysActor j d -> jtruthy j = true.
Proof. intros (s & -> & H). destruct s; [|reflexivity]. vm_compute in H. discriminate. Qed.
Lemma atype_iff j t : parse_annotation_type j = Ok t <-> j = JStr (annotation_type_name t).
Proof.
  rewrite <- (enum_item_iff _ _ j t atype_lookup). unfold parse_annotation_type. split.
  - intro H. apply bind_ok in H as ([x|] & E & H); [|discriminate]. injection H as ->. exact E.
  - intro H. rewrite H. reflexivity.
Qed.
Lemma noisy_atype j : Noisy (parse_annotation_type j).
Proof.
  unfold parse_annotation_type. apply noisy_bind.
  - intros e H. unfold enum_item in H. destruct (negb (hashable j)); [injection H as <-|]; discriminate.
  - intros [t|]; [apply noisy_ok|]. intros e H. injection H as <-. discriminate.
Qed.
Lemma noisy_annotation p j : Noisy (parse_annotation p j).
Proof. unfold parse_annotation. noisy. Qed.
Theorem annotation_iff parent kvs e : parse_annotation parent (JObj kvs) = Ok e <-> SaysAnnotation parent kvs e.
Proof.
  split.
  - intro R. unfold parse_annotation in R. rewrite !jget_at in R. cbn [bind] in R. cbv zeta in R. apply bind_ok in R as ([l1 ty] & F1 & R). cbn [bind] in R.
    apply bind_ok in R as ([l2 by_] & F2 & R). cbn [bind] in R. apply bind_ok in R as ([l3 date] & F3 & R). cbn [bind] in R. apply named_ok in R as [NL R]. nils.
    apply construct_ok in R. ap_inv R. cok. split; cbn [an_id an_type an_annotator an_date an_comment]; try (says; fail).
    + eapply (req_iff _ _ _ (fun j t => j = JStr (annotation_type_name t)) _ _ atype_iff noisy_atype); [intros ->; destruct a2; reflexivity|]. eauto.
    + eapply (req_iff _ _ _ _ _ _ actor_iff noisy_actor); [apply actor_truthy|]. eauto.
    + eapply (req_iff _ _ _ _ _ _ date_iff noisy_date); [apply date_truthy|]. eauto.
  - intro S. destruct e as [x1 x2 x3 x4 x5]. destruct S. cbn [an_id an_type an_annotator an_date an_comment] in *.
    unfold parse_annotation. rewrite !jget_at. cbn [bind]. cbv zeta.
    apply (req_iff $"Annotation" $"annotation_type" _ (fun j t => j = JStr (annotation_type_name t)) _ _ atype_iff noisy_atype) in sa_type as (o1 & F1 & E1); [|intros ->; destruct x2; reflexivity].
    apply (req_iff $"Annotation" $"annotator" _ _ _ _ actor_iff noisy_actor) in sa_annotator as (o2 & F2 & E2); [|apply actor_truthy].
    apply (req_iff $"Annotation" $"annotation_date" _ _ _ _ date_iff noisy_date) in sa_date as (o3 & F3 & E3); [|apply date_truthy].
    rewrite F1. cbn [bind]. rewrite F2. cbn [bind]. rewrite F3. cbn [bind]. apply named_ok. split; [reflexivity|]. apply construct_ok. ap_go; says2.
Qed.
(** ** Document *)
Lemma checksum_truthy j c : SaysChecksum j c -> jtruthy j = true.
Proof. intros (kvs & -> & _ & V). destruct kvs; [discriminate V|reflexivity]. Qed.
Lemma doc_ref_iff j r : parse_external_document_ref j = Ok r <-> SaysDocRef j r.
Proof.
  split.
  - intro R. unfold parse_external_document_ref in R. apply bind_ok in R as (a & Ha & R). apply jget_inv in Ha as (kvs & -> & ->). rewrite !jget_at in R. cbn [bind] in R.
    apply bind_ok in R as ([l o] & F & R). cbn [bind] in R. apply named_ok in R as [-> R]. cbv zeta in R. apply construct_ok in R. ap_inv R. cok.
    exists kvs. cbn [edr_id edr_uri edr_checksum]. split; [reflexivity|]. split; [says|]. split; [says|].
    eapply (req_iff _ _ _ _ _ _ checksum_iff noisy_checksum); [apply checksum_truthy|]. eauto.
  - intros (kvs & -> & I & U & C). destruct r as [x1 x2 x3]. cbn [edr_id edr_uri edr_checksum] in *. unfold parse_external_document_ref. rewrite !jget_at. cbn [bind].
    apply (req_iff $"ExternalDocumentRef" $"checksum" _ _ _ _ checksum_iff noisy_checksum) in C as (o & F & E); [|apply checksum_truthy]. rewrite F. cbn [bind].
    apply named_ok. split; [reflexivity|]. cbv zeta. apply construct_ok. ap_go; says2.
Qed.
Lemma doc_ref_truthy j c : SaysDocRef j c -> jtruthy j = true.
Proof. intros (kvs & -> & V & _). destruct kvs; [discriminate V|reflexivity]. Qed.
Lemma noisy_doc_ref j : Noisy (parse_external_document_ref j).
Proof. unfold parse_external_document_ref. noisy. Qed.
Lemma doc_refs_iff c k j r : (exists o, parse_field j parse_external_document_refs = Ok ([], o) /\ c_items c k (opt_list o) = COk r) <-> MaybeList SaysDocRef j r.
Proof.
  assert (NL : forall l, Noisy (external_document_refs_loop l)).
  { induction l as [|x l IH]; cbn [external_document_refs_loop]; [apply noisy_ok|]. apply noisy_bind; [apply noisy_field|]. intros [m o]. apply noisy_bind; [exact IH|]. intros [ms rs]. apply noisy_ok. }
  assert (N : forall x, Noisy (parse_external_document_refs x)).
  { intro x. unfold parse_external_document_refs. apply noisy_bind; [apply noisy_jiter|]. intro l. apply noisy_bind; [apply NL|]. intros [log rs]. apply noisy_bind; [apply noisy_raise_if|]. intro. apply noisy_ok. }
  assert (K : forall l r, external_document_refs_loop l = Ok ([], map Some r) <-> Forall2 SaysDocRef l r).
  { induction l as [|x l IH]; intro r0; cbn [external_document_refs_loop].
    - split; intro H; [destruct r0; [constructor|discriminate]|inversion H; reflexivity].
    - split.
      + intro H. apply bind_ok in H as ([m o] & F & H). cbn iota in H. apply bind_ok in H as ([ms rs] & G & H). cbn iota in H. apply (f_equal (fun r => match r with Ok x => x | Raise _ => ([[]], []) end)) in H. cbn iota in H.
        apply pair_equal_spec in H as [H1 H2]. apply app_eq_nil in H1 as [-> ->]. destruct r0 as [|y r0]; [discriminate|]. cbn [map] in H2. injection H2 as -> ->.
        constructor; [|apply IH; exact G]. apply (field_iff _ _ _ _ doc_ref_iff noisy_doc_ref) in F. exact (proj2 F).
      + intro H. inversion H as [|? y ? m H1 H2]; subst. rewrite (proj2 (field_iff _ _ x (Some y) doc_ref_iff noisy_doc_ref)); [|split; [eapply doc_ref_truthy; eauto|exact H1]].
        cbn [bind]. apply IH in H2. rewrite H2. reflexivity. }
  assert (P : forall j rs, parse_external_document_refs j = Ok (map Some rs) <-> ListOf SaysDocRef j rs).
  { intros j0 rs. unfold parse_external_document_refs, ListOf. split.
    - intro H. apply bind_ok in H as (l & I & H). apply bind_ok in H as ([log rs'] & F & H). cbn iota in H. destruct log; [|discriminate]. cbn [raise_if bind] in H. injection H as ->.
      exists l. split; [apply jiter_iff; exact I|apply K; exact F].
    - intros (l & I & H). apply jiter_iff in I. rewrite I. cbn [bind]. apply K in H. rewrite H. reflexivity. }
  unfold MaybeList. split.
  - intros (o & H & E). apply c_items_iff in E. apply (field_iff _ (fun j a => parse_external_document_refs j = Ok a)) in H; [|tauto|exact N]. destruct o as [x|]; cbn [Maybe opt_list] in *.
    + right. subst x. destruct H as [T H]. apply P in H. auto.
    + left. destruct r; [auto|discriminate].
  - intros [[T ->]|[T H]].
    + exists None. split; [|reflexivity]. apply (field_iff _ (fun j a => parse_external_document_refs j = Ok a)); [tauto|exact N|exact T].
    + exists (Some (map Some r)). split; [|apply c_items_iff; reflexivity]. apply (field_iff _ (fun j a => parse_external_document_refs j = Ok a)); [tauto|exact N|]. split; auto. apply P. exact H.
Qed.
Theorem creation_iff kvs e : parse_creation_info (JObj kvs) = Ok e <-> SaysCreation kvs e.
Proof.
  split.
  - intro R. unfold parse_creation_info in R. rewrite !jget_at in R. cbn [bind] in R. remember (value_at $"creationInfo" kvs) as ci eqn:CI.
    assert (O : exists kvs', ci = JObj kvs') by (destruct ci; try discriminate R; eauto). destruct O as (kvs' & ->). rewrite !jget_at in R. cbn [bind] in R.
    apply bind_ok in R as ([l1 creators] & F1 & R). cbn [bind] in R. apply bind_ok in R as ([l2 created] & F2 & R). cbn [bind] in R. apply bind_ok in R as ([l3 refs] & F3 & R). cbn [bind] in R.
    apply bind_ok in R as ([l4 ver] & F4 & R). cbn [bind] in R. apply named_ok in R as [NL R]. nils. cbv zeta in R. apply construct_ok in R. ap_inv R. cok.
    split; cbn [ci_version ci_id ci_name ci_namespace ci_creators ci_created ci_creator_comment ci_data_license ci_refs ci_list_version ci_doc_comment]; try (says; fail).
    + eapply doc_refs_iff. eauto.
    + exists kvs'. split; [auto|]. repeat split.
      * eapply req_list_iff. exists creators. split; [|eassumption]. apply (field_list_iff _ _ _ _ actor_iff noisy_actor). exact F1.
      * eapply req_list_iff. exists creators. split; [|eassumption]. apply (field_list_iff _ _ _ _ actor_iff noisy_actor). exact F1.
      * eapply (req_iff _ _ _ _ _ _ date_iff noisy_date); [apply date_truthy|]. eauto.
      * says.
      * apply (field_iff _ _ _ _ version_iff noisy_version). exact F4.
  - intro S. destruct e as [x1 x2 x3 x4 x5 x6 x7 x8 x9 x10 x11]. destruct S.
    cbn [ci_version ci_id ci_name ci_namespace ci_creators ci_created ci_creator_comment ci_data_license ci_refs ci_list_version ci_doc_comment] in *.
    unfold parse_creation_info. rewrite !jget_at. cbn [bind]. destruct sc_inner as (kvs' & -> & CR & CD & CC & CV). rewrite !jget_at. cbn [bind].
    apply (req_list_iff $"CreationInfo" $"creators") in CR as (o1 & F1 & E1). apply (field_list_iff _ _ _ _ actor_iff noisy_actor) in F1.
    apply (req_iff $"CreationInfo" $"created" _ _ _ _ date_iff noisy_date) in CD as (o2 & F2 & E2); [|apply date_truthy].
    apply (doc_refs_iff $"CreationInfo" $"external_document_refs") in sc_refs as (o3 & F3 & E3). apply (field_iff _ _ _ _ version_iff noisy_version) in CV.
    rewrite F1. cbn [bind]. rewrite F2. cbn [bind]. rewrite F3. cbn [bind]. rewrite CV. cbn [bind]. apply named_ok. split; [reflexivity|]. cbv zeta. apply construct_ok. ap_go; says2.
Qed.
