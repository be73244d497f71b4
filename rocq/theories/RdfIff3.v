(** What the RDF reader reads is what the graph says: elements. *)
From Verif Require Import Py PyRe PyFacts Data Oracles Basics BasicsFacts ActorFacts Json Construct JsonParse JsonErrors JsonRead Rdf RdfParser RdfReadSpec RdfIff RdfIff2.

Ltac inv_step H := let l := fresh "l" in let x := fresh "x" in let E := fresh "F" in apply bind_ok in H as ([l x] & E & H); lazy beta iota in H.
Ltac go_step := apply bind_ok; eexists; split; [eassumption|]; lazy beta iota.

Section Reading.
Variable O : oracles.
Variable L : rdf_library.
Hypothesis Fo : Foreign O L.
Variable G : list triple.

Lemma actor_iff n a : node_actor n = Ok a <-> SaysActor n a.
Proof. reflexivity. Qed.
Lemma date_iff n d : node_date n = Ok d <-> SaysDate n d.
Proof. reflexivity. Qed.
Lemma version_iff n v : node_version n = Ok v <-> SaysVersion n v.
Proof. reflexivity. Qed.
Lemma noisy_actor n : Noisy (node_actor n).
Proof. unfold node_actor. exact (JsonRead.noisy_actor (JStr (node_str n))). Qed.
Lemma noisy_date n : Noisy (node_date n).
Proof. unfold node_date. exact (JsonRead.noisy_date (JStr (node_str n))). Qed.
Lemma noisy_version n : Noisy (node_version n).
Proof. apply version_noisy_aux. Qed.
Definition text_field s p o := literal_iff L G stripped TextIs s p o stripped_iff noisy_stripped.
Definition date_field s p o := literal_iff L G node_date SaysDate s p o date_iff noisy_date.
Definition actor_field s p o := literal_iff L G node_actor SaysActor s p o actor_iff noisy_actor.
Definition word_field s p o := nn_iff L G stripped TextIs s p o stripped_iff noisy_stripped.
Definition member_field {A} (all : list A) (name : A -> pystr) (prefix : string) (H : forall s x, enum_lookup all name s = Some x <-> s = name x) s p o :=
  literal_iff L G (parse_enum_value all name (lit prefix)) (Member name prefix) s p o (fun n a => member_iff all name prefix n a H) (noisy_member all name (lit prefix)).

(** no message but those that say something *)
Lemma noisy_literal {A} (f : node -> result A) s p : Noisy (parse_literal L f G s p).
Proof.
  unfold parse_literal. destruct (get_unique_value G s p) as [l v]. destruct v as [n|]; [|apply noisy_ok]. destruct (node_truthy L n); [|apply noisy_ok].
  apply noisy_bind; [|intros [? ?]; apply noisy_ok]. unfold apply_parsing_method. destruct (f n) as [a|e]; [apply noisy_ok|].
  destruct (caught e) eqn:C; [apply noisy_ok|]. intros e' H. injection H as <-. congruence.
Qed.
Lemma noisy_apply {A} (f : node -> result A) n : Noisy (apply_parsing_method f n).
Proof. unfold apply_parsing_method. destruct (f n) as [a|e]; [apply noisy_ok|]. destruct (caught e) eqn:C; [apply noisy_ok|]. intros e' H. injection H as <-. congruence. Qed.
Lemma noisy_typed {A} (f : node -> result A) v : Noisy (get_correctly_typed_value L f v).
Proof.
  unfold get_correctly_typed_value. destruct v as [n|]; [|apply noisy_ok]. destruct (negb _); [apply noisy_ok|]. destruct (_ || _); [apply noisy_ok|]. destruct (_ || _); [apply noisy_ok|].
  apply noisy_bind; [apply noisy_apply|]. intros [? ?]. apply noisy_ok.
Qed.
Lemma noisy_nn {A} (f : node -> result A) s p : Noisy (parse_literal_nn L f G s p).
Proof. unfold parse_literal_nn. destruct (get_unique_value G s p) as [l v]. apply noisy_bind; [apply noisy_typed|]. intros [? ?]. apply noisy_ok. Qed.
Lemma noisy_license_field ns s p : Noisy (parse_license_field O L G ns s p).
Proof. unfold parse_license_field. apply noisy_bind; [apply noisy_nn|]. intros [? ?]. apply noisy_ok. Qed.
Lemma noisy_each_log {A B} (f : A -> logged B) l : (forall x, Noisy (f x)) -> Noisy (each_log f l).
Proof. intro H. induction l as [|x l IH]; cbn; [apply noisy_ok|]. apply noisy_bind; [apply H|]. intros [? ?]. apply noisy_bind; [exact IH|]. intros [? ?]. apply noisy_ok. Qed.
Lemma noisy_license_list ns s p : Noisy (parse_license_list O L G ns s p).
Proof. unfold parse_license_list. apply noisy_each_log. intro n. apply noisy_bind; [apply noisy_typed|]. intros [? ?]. apply noisy_ok. Qed.
Ltac noisy :=
  repeat (first [ apply noisy_ok | apply noisy_literal | apply noisy_nn | apply noisy_license_field | apply noisy_license_list | apply noisy_named | apply noisy_construct
    | apply (noisy_id O L Fo) | apply noisy_each_log; intro; apply noisy_apply
    | apply noisy_bind; [|first [intros [? [? ?]] | intros [? ?] | intro]] ]; lazy beta iota zeta).

(** ** Parts *)
Lemma checksum_iff n c : parse_checksum L G n = Ok c <-> ChecksumIn L G n c.
Proof.
  unfold parse_checksum. split.
  - intro H. inv_step H. inv_step H. apply named_ok in H as [N H]. nils. cbv zeta in H. apply construct_ok in H. ap_inv H.
    apply c_req_iff in E, E0. subst. split; cbn [ck_alg ck_value].
    + apply (literal_iff L G _ _ _ _ _ algorithm_iff noisy_algorithm). exact F.
    + apply text_field. exact F0.
  - intros [A V]. destruct c as [a v]. cbn [ck_alg ck_value] in *. apply (literal_iff L G _ _ _ _ _ algorithm_iff noisy_algorithm) in A. apply text_field in V.
    go_step. go_step. apply named_ok. split; [reflexivity|]. cbv zeta. apply construct_ok. ap_go; apply c_req_iff; reflexivity.
Qed.
Lemma noisy_checksum n : Noisy (parse_checksum L G n).
Proof. unfold parse_checksum. cbv zeta. noisy. Qed.
Lemma code_iff n v : parse_package_verification_code L G n = Ok v <-> CodeIn L G n v.
Proof.
  unfold parse_package_verification_code. cbv zeta. split.
  - intro H. inv_step H. apply named_ok in H as [-> H]. apply construct_ok in H. ap_inv H. apply c_req_iff in E0. subst. apply plain_at in E.
    split; cbn [vc_value vc_excluded]; [|exact E]. apply text_field. exact F.
  - intros [A V]. destruct v as [a v]. cbn [vc_value vc_excluded] in *. apply text_field in A. apply (plain_at L G $"PackageVerificationCode" $"excluded_files") in V.
    go_step. apply named_ok. split; [reflexivity|]. apply construct_ok. ap_go; [apply c_req_iff; reflexivity|exact V].
Qed.
Lemma noisy_code n : Noisy (parse_package_verification_code L G n).
Proof. unfold parse_package_verification_code. cbv zeta. noisy. Qed.
Lemma reftype_iff ns n x : parse_external_package_ref_type L ns n = Ok (Some x) <-> RefType L ns n x.
Proof.
  unfold parse_external_package_ref_type. change REFERENCE_NAMESPACE with reference_list. split.
  - destruct (startswith ns (node_str n)) eqn:B1.
    + apply begins_iff in B1. intro H. apply bind_ok in H as (f & H1 & H). injection H as ->. apply (fragment_iff L) in H1 as (u & -> & E). apply Ref_own; assumption.
    + apply begins_not in B1. destruct (startswith reference_list (node_str n)) eqn:B2.
      * apply begins_iff in B2. intro H. injection H as <-. apply Ref_listed; assumption.
      * apply begins_not in B2. intro H. injection H as H. apply Ref_text; assumption.
  - intros [u y B E|m B1 B2|m y B1 B2 P].
    + apply begins_iff in B. cbn [node_str]. rewrite B. cbn [fragment_of]. rewrite E. reflexivity.
    + apply begins_not in B1. apply begins_iff in B2. rewrite B1, B2. reflexivity.
    + apply begins_not in B1, B2. rewrite B1, B2. unfold Plain in P. congruence.
Qed.
Lemma noisy_reftype ns n : Noisy (parse_external_package_ref_type L ns n).
Proof.
  unfold parse_external_package_ref_type. destruct (startswith _ _); [apply noisy_bind; [apply (noisy_fragment O L Fo)|intro; apply noisy_ok]|]. destruct (startswith _ _); apply noisy_ok.
Qed.
Lemma reftype_field ns s p x : (exists v, parse_literal L (parse_external_package_ref_type L ns) G s p = Ok ([], v) /\ flat v = Some x) <-> At L G (RefType L ns) s p x.
Proof.
  unfold At. pose proof (fun v => literal_iff L G (parse_external_package_ref_type L ns) (fun n o => parse_external_package_ref_type L ns n = Ok o) s p v
    (fun n a => conj (fun h => h) (fun h => h)) (noisy_reftype ns)) as P. split.
  - intros (v & H & E). apply P in H. destruct v as [o|]; [|discriminate]. cbn in E. subst o. destruct H as (w & S1 & n & -> & T & H). exists (Some n). split; [exact S1|].
    exists n. repeat split; auto. apply reftype_iff. exact H.
  - intros (w & S1 & n & -> & T & H). exists (Some (Some x)). split; [|reflexivity]. apply P. exists (Some n). split; [exact S1|]. exists n. repeat split; auto. apply reftype_iff. exact H.
Qed.
Lemma ref_iff ns n r : parse_external_package_ref L G ns n = Ok r <-> RefIn L G ns n r.
Proof.
  unfold parse_external_package_ref. cbv zeta. split.
  - intro H. inv_step H. inv_step H. inv_step H. inv_step H. apply named_ok in H as [N H]. nils. apply construct_ok in H. ap_inv H.
    apply c_req_iff in E0, E1, E2. subst. cok. split; cbn [er_category er_type er_locator er_comment].
    + apply text_field. exact F.
    + apply (member_field ref_category_all ref_category_name "referenceCategory_" cat_lookup). exact F0.
    + apply reftype_field. eauto.
    + apply text_field. exact F2.
  - intros [A B C D]. destruct r as [ca ty lo co]. cbn [er_category er_type er_locator er_comment] in *. apply text_field in A, D.
    apply (member_field ref_category_all ref_category_name "referenceCategory_" cat_lookup) in B. apply reftype_field in C as (v & C & E).
    go_step. go_step. go_step. go_step. apply named_ok. split; [reflexivity|]. apply construct_ok. ap_go; try (apply c_req_iff; first [reflexivity|assumption]). reflexivity.
Qed.
Lemma noisy_ref ns n : Noisy (parse_external_package_ref L G ns n).
Proof. unfold parse_external_package_ref. cbv zeta. noisy. Qed.

(** ** Elements *)
Variable bound : list (pystr * pystr).
Variable ns : pystr.
Definition supplier_field s p o := nn_iff L G node_actor SaysActor s p o actor_iff noisy_actor.
Ltac id_step H := let E := fresh "I" in let x := fresh "id" in apply bind_ok in H as (x & E & H); lazy beta iota in H.
Lemma homepage_iff s o : match o with Some (NVal h) => At L G TextIs s has_homepage h | Some _ => False | None => MaybeAt L G TextIs s has_homepage None end
  <-> exists v, parse_literal L stripped G s DOAP_homepage = Ok ([], v) /\ match v with Some h => Some (NVal h) | None => None end = o.
Proof.
  change DOAP_homepage with has_homepage. split.
  - destruct o as [[h| |]|]; intro H; try contradiction.
    + exists (Some h). split; [apply text_field; exact H|reflexivity].
    + exists None. split; [apply text_field; exact H|reflexivity].
  - intros (v & H & <-). apply text_field in H. destruct v; exact H.
Qed.
Lemma package_iff s p : parse_package O L G bound ns s = Ok p <-> PackageIn O L G bound ns s p.
Proof.
  unfold parse_package. cbv zeta. split.
  - intro H. id_step H. inv_step H. inv_step H. id_step H. do 5 inv_step H. id_step H. do 14 inv_step H.
    apply named_ok in H as [N H]. nils. apply construct_ok in H. ap_inv H. cok.
    split; cbn [pk_id pk_name pk_download pk_version pk_file_name pk_supplier pk_originator pk_files_analyzed pk_verif pk_checksums pk_homepage pk_source_info pk_concluded
      pk_info pk_declared pk_lic_comment pk_copyright pk_summary pk_description pk_comment pk_refs pk_attribution pk_purpose pk_release pk_built pk_valid_until];
      repeat match goal with K : c_req _ _ _ = COk _ |- _ => apply c_req_iff in K; subst end.
    all: try (apply text_field; assumption).
    all: try (apply date_field; assumption).
    all: try (apply word_field; assumption).
    all: try (eapply plain_at; eassumption).
    all: try (apply (license_field_iff O L Fo); assumption).
    all: try (eapply (license_list_iff O L Fo); eexists; split; eassumption).
    all: try (apply (id_iff L); assumption).
    all: try (eapply nn_as_na; [apply supplier_field; eassumption|eassumption]).
    all: try (apply homepage_iff; eexists; split; [eassumption|reflexivity]).
    all: try (eapply each_at; [apply checksum_iff|assumption]).
    all: try (eapply each_at; [apply ref_iff|assumption]).
    + eexists. split; [apply first_iff; reflexivity|]. reflexivity.
    + apply (literal_iff L G _ _ _ _ _ code_iff noisy_code). assumption.
    + apply (member_field purpose_all purpose_name "purpose_" purpose_lookup). assumption.
  - intro K. destruct p as [x1 x2 x3 x4 x5 x6 x7 x8 x9 x10 x11 x12 x13 x14 x15 x16 x17 x18 x19 x20 x21 x22 x23 x24 x25 x26]. destruct K.
    cbn [pk_id pk_name pk_download pk_version pk_file_name pk_supplier pk_originator pk_files_analyzed pk_verif pk_checksums pk_homepage pk_source_info pk_concluded
      pk_info pk_declared pk_lic_comment pk_copyright pk_summary pk_description pk_comment pk_refs pk_attribution pk_purpose pk_release pk_built pk_valid_until] in *.
    apply (id_iff L) in gp_id. apply text_field in gp_name, gp_version, gp_file_name, gp_source_info, gp_lic_comment, gp_summary, gp_description, gp_comment.
    apply word_field in gp_download, gp_copyright. apply date_field in gp_release, gp_built, gp_valid.
    apply (na_as_nn L G SaysActor $"Package" $"supplier") in gp_supplier as (sup & F1 & C1). apply supplier_field in F1.
    apply (na_as_nn L G SaysActor $"Package" $"originator") in gp_originator as (orig & F2 & C2). apply supplier_field in F2.
    destruct gp_analyzed as (o & A & ->). apply first_iff in A. subst o.
    apply (literal_iff L G _ _ _ _ _ code_iff noisy_code) in gp_verif. apply (each_at G _ _ s _ _ checksum_iff) in gp_checksums. apply (each_at G _ _ s _ _ (ref_iff ns)) in gp_refs.
    apply homepage_iff in gp_homepage as (h & H & <-). apply (license_field_iff O L Fo) in gp_concluded, gp_declared.
    apply (license_list_iff O L Fo G $"Package" $"license_info_from_files") in gp_info as (infos & F3 & C3).
    apply (plain_at L G $"Package" $"attribution_texts") in gp_attribution.
    apply (member_field purpose_all purpose_name "purpose_" purpose_lookup) in gp_purpose.
    repeat go_step. apply named_ok. split; [reflexivity|]. apply construct_ok. ap_go; try reflexivity; try assumption.
Qed.
Lemma noisy_package s : Noisy (parse_package O L G bound ns s).
Proof. unfold parse_package. cbv zeta. noisy; apply noisy_each; intro; first [apply noisy_checksum|apply noisy_ref]. Qed.
Lemma types_iff c k s p r : (exists l, each_log (apply_parsing_method (parse_enum_value file_type_all file_type_name $"fileType_")) (objects G s p) = Ok ([], l) /\ c_items c k l = COk r)
  <-> EachAt G (Member file_type_name "fileType_") s p r.
Proof.
  assert (X : forall n o, apply_parsing_method (parse_enum_value file_type_all file_type_name $"fileType_") n = Ok ([], o)
    <-> exists a, o = Some a /\ Member file_type_name "fileType_" n a).
  { intros n o. pose proof (fun a => member_iff file_type_all file_type_name "fileType_" n a ftype_lookup) as M. pose proof (noisy_member file_type_all file_type_name $"fileType_" n) as N.
    unfold apply_parsing_method. destruct (parse_enum_value _ _ _ n) as [a|e] eqn:E.
    - split.
      + intro H. injection H as <-. exists a. split; [reflexivity|]. apply M. reflexivity.
      + intros (b & -> & K). apply M in K. congruence.
    - split.
      + destruct (caught e) eqn:C; [|discriminate]. intro H. injection H as -> <-. destruct (N e eq_refl C).
      + intros (b & -> & K). apply M in K. discriminate. }
  unfold EachAt. split.
  - intros (l & H & C). apply c_items_iff in C. subst l. eexists. split; [apply objects_iff; reflexivity|]. apply (each_log_iff _ _ _ _ X) in H.
    remember (map Some r) as m eqn:E. revert r E. induction H as [|n o l m H _ IH]; intros [|a r] E; try discriminate; constructor.
    + destruct H as (b & -> & K). injection E as ->. exact K.
    + apply IH. injection E as _ E. exact E.
  - intros (l & H & K). apply objects_iff in H. subst l. exists (map Some r). split; [|apply c_items_iff; reflexivity]. apply (each_log_iff _ _ _ _ X).
    induction K as [|n a l r K _ IH]; cbn [map]; constructor; [|exact IH]. eauto.
Qed.
Lemma file_iff s f : parse_file O L G bound ns s = Ok f <-> FileIn O L G bound ns s f.
Proof.
  unfold parse_file. cbv zeta. split.
  - intro H. id_step H. inv_step H. id_step H. do 7 inv_step H.
    apply named_ok in H as [N H]. nils. apply construct_ok in H. ap_inv H. cok.
    split; cbn [fi_name fi_id fi_checksums fi_types fi_concluded fi_info fi_lic_comment fi_copyright fi_comment fi_notice fi_contributors fi_attribution];
      repeat match goal with K : c_req _ _ _ = COk _ |- _ => apply c_req_iff in K; subst end.
    all: try (apply text_field; assumption).
    all: try (apply word_field; assumption).
    all: try (eapply plain_at; eassumption).
    all: try (apply (license_field_iff O L Fo); assumption).
    all: try (eapply (license_list_iff O L Fo); eexists; split; eassumption).
    all: try (apply (id_iff L); assumption).
    all: try (eapply each_at; [apply checksum_iff|assumption]).
    eapply types_iff. eexists. split; eassumption.
  - intro K. destruct f as [x1 x2 x3 x4 x5 x6 x7 x8 x9 x10 x11 x12]. destruct K.
    cbn [fi_name fi_id fi_checksums fi_types fi_concluded fi_info fi_lic_comment fi_copyright fi_comment fi_notice fi_contributors fi_attribution] in *.
    apply (id_iff L) in gf_id. apply text_field in gf_name, gf_lic_comment, gf_comment, gf_notice. apply word_field in gf_copyright.
    apply (each_at G _ _ s _ _ checksum_iff) in gf_checksums. apply (types_iff $"File" $"file_types") in gf_types as (ts & F1 & C1).
    apply (license_field_iff O L Fo) in gf_concluded. apply (license_list_iff O L Fo G $"File" $"license_info_in_file") in gf_info as (infos & F3 & C3).
    apply (plain_at L G $"File" $"attribution_texts") in gf_attribution. apply (plain_at L G $"File" $"contributors") in gf_contributors.
    repeat go_step. apply named_ok. split; [reflexivity|]. apply construct_ok. ap_go; try reflexivity; try assumption.
Qed.
Lemma noisy_file s : Noisy (parse_file O L G bound ns s).
Proof. unfold parse_file. cbv zeta. noisy. apply noisy_each. intro. apply noisy_checksum. Qed.
Lemma annotation_iff x a : parse_annotation L G bound ns x = Ok a <-> AnnotationIn L G bound ns x a.
Proof.
  destruct x as [parent b]. unfold parse_annotation. cbv zeta. split.
  - intro H. id_step H. do 4 inv_step H. apply named_ok in H as [N H]. nils. apply construct_ok in H. ap_inv H.
    repeat match goal with K : c_req _ _ _ = COk _ |- _ => apply c_req_iff in K; subst end.
    split; cbn [an_id an_type an_annotator an_date an_comment fst snd].
    + apply (id_iff L). assumption.
    + apply (member_field annotation_type_all annotation_type_name "annotationType_" atype_lookup). assumption.
    + apply actor_field. assumption.
    + apply date_field. assumption.
    + apply text_field. assumption.
  - intros [A B C D E]. destruct a as [i t ac d c]. cbn [an_id an_type an_annotator an_date an_comment fst snd] in *.
    apply (id_iff L) in A. apply (member_field annotation_type_all annotation_type_name "annotationType_" atype_lookup) in B. apply actor_field in C. apply date_field in D. apply text_field in E.
    repeat go_step. apply named_ok. split; [reflexivity|]. apply construct_ok. ap_go; reflexivity.
Qed.
Lemma noisy_annotation x : Noisy (parse_annotation L G bound ns x).
Proof. destruct x. unfold parse_annotation. cbv zeta. noisy. Qed.
Lemma related_iff c k s p r :
  (exists v, parse_literal_nn L (fun n => parse_spdx_id L bound (Some n) ns) G s p = Ok ([], v)
     /\ match v with Some (NVal (Some x)) => COk (NVal x) | Some NNoAssertion => COk NNoAssertion | Some NNone => COk NNone | _ => bad c k end = COk r)
  <-> At L G (Word L (Identifies L bound ns)) s p r.
Proof.
  unfold At. pose proof (fun v => nn_iff L G (fun n => parse_spdx_id L bound (Some n) ns) (fun n o => parse_spdx_id L bound (Some n) ns = Ok o) s p v
    (fun n a => conj (fun h => h) (fun h => h)) (fun n => noisy_id O L Fo bound ns (Some n))) as P. split.
  - intros (v & H & E). apply P in H as (w & S1 & H). exists w. split; [exact S1|]. destruct v as [[[x|]| |]|]; try discriminate E.
    + assert (r = NVal x) as -> by congruence. destruct H as (n & -> & T & H1 & H2 & H3). apply (id_iff L) in H3. exists n. repeat split; auto.
    + assert (r = NNoAssertion) as -> by congruence. exact H.
    + assert (r = NNone) as -> by congruence. exact H.
  - intros (w & S1 & n & -> & T & H). destruct r as [x| |].
    + exists (Some (NVal (Some x))). split; [|reflexivity]. apply P. exists (Some n). split; [exact S1|]. exists n. destruct H as (H1 & H2 & H3). repeat split; auto. apply (id_iff L). exact H3.
    + exists (Some NNoAssertion). split; [|reflexivity]. apply P. exists (Some n). split; [exact S1|]. exists n. auto.
    + exists (Some NNone). split; [|reflexivity]. apply P. exists (Some n). split; [exact S1|]. exists n. auto.
Qed.
Lemma relationship_iff x r : parse_relationship L G bound ns x = Ok r <-> RelationshipIn L G bound ns x r.
Proof.
  destruct x as [parent b]. unfold parse_relationship. cbv zeta. split.
  - intro H. id_step H. do 3 inv_step H. apply named_ok in H as [N H]. nils. apply construct_ok in H. ap_inv H. cok.
    repeat match goal with K : c_req _ _ _ = COk _ |- _ => apply c_req_iff in K; subst end.
    split; cbn [re_id re_type re_related re_comment fst snd].
    + apply (id_iff L). assumption.
    + apply (member_field rel_type_all rel_type_name "relationshipType_" rtype_lookup). assumption.
    + eapply related_iff. eexists. split; eassumption.
    + apply text_field. assumption.
  - intros [A B C D]. destruct r as [i t re c]. cbn [re_id re_type re_related re_comment fst snd] in *.
    apply (id_iff L) in A. apply (member_field rel_type_all rel_type_name "relationshipType_" rtype_lookup) in B.
    apply (related_iff $"Relationship" $"related_spdx_element_id") in C as (v & C & E). apply text_field in D.
    repeat go_step. apply named_ok. split; [reflexivity|]. apply construct_ok. ap_go; try reflexivity. exact E.
Qed.
Lemma noisy_relationship x : Noisy (parse_relationship L G bound ns x).
Proof. destruct x. unfold parse_relationship. cbv zeta. noisy. Qed.
Lemma implied_iff ty x r : parse_implicit_relationship L bound ns ty x = Ok r <-> ImpliedBy L bound ns ty x r.
Proof.
  unfold parse_implicit_relationship, ImpliedBy. cbv zeta. split.
  - intro H. id_step H. id_step H. apply construct_ok in H. ap_inv H. cok. apply c_req_iff in E2. subst id. destruct id0 as [y|]; [|discriminate]. cok.
    exists y. cbn [re_id re_type re_related re_comment]. repeat split; apply (id_iff L); assumption.
  - intros (y & E1 & A & B & E2 & E3). destruct r as [i t re c]. cbn [re_id re_type re_related re_comment] in *. subst. apply (id_iff L) in A, B.
    apply bind_ok. eexists. split; [exact A|]. apply bind_ok. eexists. split; [exact B|]. apply construct_ok. reflexivity.
Qed.
Lemma noisy_implied ty x : Noisy (parse_implicit_relationship L bound ns ty x).
Proof. unfold parse_implicit_relationship. cbv zeta. noisy. Qed.
Lemma extracted_id n o i :
  match o with
  | Some ((_ :: _) as s) => Ok (Some s)
  | _ => if startswith (ns ++ $"#") (node_str n) then do f <- fragment_of L n; Ok (Some f) else Ok (py_text L n)
  end = Ok (Some i) <->
  match o with
  | Some ((_ :: _) as s) => Some i = Some s
  | _ => (Begins (ns ++ $"#") (node_str n) /\ exists u x, n = NUri u /\ r_fragment L u = Ok x /\ Some i = Some x)
         \/ (~ Begins (ns ++ $"#") (node_str n) /\ exists x, Plain L n x /\ Some i = Some x)
  end.
Proof.
  assert (K : (if startswith (ns ++ $"#") (node_str n) then do f <- fragment_of L n; Ok (Some f) else Ok (py_text L n)) = Ok (Some i)
    <-> (Begins (ns ++ $"#") (node_str n) /\ exists u x, n = NUri u /\ r_fragment L u = Ok x /\ Some i = Some x)
         \/ (~ Begins (ns ++ $"#") (node_str n) /\ exists x, Plain L n x /\ Some i = Some x)).
  { destruct (startswith _ _) eqn:B.
    - apply begins_iff in B. split.
      + intro H. apply bind_ok in H as (f & H1 & H). injection H as ->. apply (fragment_iff L) in H1 as (u & -> & E). left. split; [exact B|]. eauto.
      + intros [(_ & u & x & -> & E & Q)|[N _]]; [|destruct (N B)]. injection Q as ->. cbn [fragment_of]. rewrite E. reflexivity.
    - apply begins_not in B. unfold Plain. split.
      + intro H. injection H as H. right. eauto.
      + intros [[N _]|(_ & x & P & Q)]; [destruct (B N)|]. congruence. }
  destruct o as [[|c t]|]; try exact K. split; intro Q; [injection Q as ->|rewrite Q]; reflexivity.
Qed.
Lemma extracted_iff n e : parse_extracted_licensing_info L G ns n = Ok e <-> ExtractedIn L G ns n e.
Proof.
  unfold parse_extracted_licensing_info. cbv zeta. split.
  - intro H. inv_step H. id_step H. do 3 inv_step H. apply named_ok in H as [N H]. nils. apply construct_ok in H. ap_inv H. cok.
    destruct id as [i|]; [|discriminate]. cok.
    split; cbn [el_id el_text el_name el_xrefs el_comment].
    + exists x. split; [apply text_field; assumption|]. apply extracted_id. exact I.
    + apply text_field. assumption.
    + eapply nn_as_na; [apply word_field; eassumption|eassumption].
    + eapply plain_at. eassumption.
    + apply text_field. assumption.
  - intros [(o & A1 & A2) B C D E]. destruct e as [i t na xs c]. cbn [el_id el_text el_name el_xrefs el_comment] in *.
    assert (I : exists y, i = Some y). { destruct o as [[|c0 t0]|]; [|eauto|]; destruct A2 as [(_ & u & x & _ & _ & Q)|(_ & x & _ & Q)]; eauto. }
    destruct I as (y & ->). apply text_field in A1, B, E. apply extracted_id in A2. apply (na_as_nn L G TextIs $"ExtractedLicensingInfo" $"license_name") in C as (v & C1 & C2). apply word_field in C1.
    apply (plain_at L G $"ExtractedLicensingInfo" $"cross_references") in D.
    repeat go_step. apply named_ok. split; [reflexivity|]. apply construct_ok. ap_go; try reflexivity; assumption.
Qed.
Lemma noisy_extracted n : Noisy (parse_extracted_licensing_info L G ns n).
Proof.
  unfold parse_extracted_licensing_info. cbv zeta. noisy. match goal with |- Noisy (match ?a with _ => _ end) => destruct a as [[|? ?]|] end; try apply noisy_ok; destruct (startswith _ _); try apply noisy_ok;
    (apply noisy_bind; [apply (noisy_fragment O L Fo)|intro; apply noisy_ok]).
Qed.
End Reading.
