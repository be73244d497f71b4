(** The validators decide well-formedness. *)
From Verif Require Import Py PyFacts Rx RxFacts Data Oracles DocUtils Validation ValidationSpec LocatorFacts.

Section WithOracles.
Variable O : oracles.

Lemma validate_uri_spec u : validate_uri O u = [] <-> ValidUri O u.
Proof.
  unfold validate_uri, ValidUri. destruct (o_isabsuri O u); cbn [negb].
  - destruct (o_has_scheme O u); cbn [negb]; split; intro H; auto; try discriminate. destruct H; discriminate.
  - split; intro H; try discriminate. destruct H; discriminate.
Qed.

Lemma validate_actor_spec a p : validate_actor a p = [] <-> ValidActor a.
Proof.
  unfold validate_actor, ValidActor.
  destruct (ac_type a), (ac_email a); split; intro H; auto; try discriminate; specialize (H eq_refl); discriminate.
Qed.
Lemma validate_actors_spec l p : validate_actors l p = [] <-> Forall ValidActor l.
Proof. apply flat_map_nil_iff. intro. apply validate_actor_spec. Qed.

Lemma validate_external_document_ref_spec r p v :
  validate_external_document_ref O r p v = [] <-> ValidExtDocRef O v r.
Proof.
  unfold validate_external_document_ref, ValidExtDocRef.
  rewrite !app_nil_iff, when_nil, negb_false_iff, docref_id_spec, map_nil_iff, validate_uri_spec, validate_checksum_spec.
  reflexivity.
Qed.

Lemma validate_creation_info_spec c v : validate_creation_info O c v = [] <-> ValidCreationInfo O v c.
Proof.
  unfold validate_creation_info, ValidCreationInfo.
  rewrite !app_nil_iff, !when_nil, !negb_false_iff, !str_eqb_eq, map_nil_iff, validate_uri_spec, validate_actors_spec.
  unfold validate_external_document_refs.
  rewrite (flat_map_nil_iff _ (ValidExtDocRef O v)) by (intro; apply validate_external_document_ref_spec).
  reflexivity.
Qed.

Lemma startswith_slash s : startswith $"/" s = false <-> RelativePath s.
Proof.
  unfold RelativePath. rewrite <- startswith_spec. destruct (startswith $"/" s); split; intro H; auto; try discriminate.
  exfalso; auto.
Qed.

Lemma validate_verification_code_spec c p : validate_verification_code c p = [] <-> ValidVerificationCode c.
Proof.
  unfold validate_verification_code, ValidVerificationCode.
  rewrite app_nil_iff, when_nil, negb_false_iff.
  rewrite (flat_map_nil_iff _ RelativePath) by (intro; rewrite when_nil; apply startswith_slash).
  rewrite (match_dollar_spec _ (Digest (Exactly 40))); [reflexivity|].
  intro s. rewrite lang_exact_set. unfold Digest, Counts. rewrite (forallb_Forall_iff _ _ hexl_spec). tauto.
Qed.

(** ** External package references *)
Lemma regex_type ty r s (P : pystr -> Prop) :
  assoc ty TYPE_TO_REGEX = Some r -> (forall s, lang r s <-> P s) ->
  forall cx, validate_against_regex s ty cx = [] <-> modulo_final_LF P s.
Proof.
  intros E HP cx. unfold validate_against_regex. rewrite E, when_nil, negb_false_iff. apply match_dollar_spec; auto.
Qed.

Lemma url_list s : truthy_list (validate_url s) = false <-> UrlPrefix s.
Proof.
  rewrite <- validate_url_spec. destruct (validate_url s); cbn; split; intro; auto; discriminate.
Qed.

(** Each constructor of [LocatorSyntax] fits at most one category and type. *)
Ltac locator_inv H :=
  inversion H; subst; try discriminate;
  match goal with HH : lit _ = lit _ |- _ => try discriminate HH | _ => idtac end; auto.

Lemma SECURITY_types ty :
  In ty (category_types RC_SECURITY) <->
  ty = $"cpe22Type" \/ ty = $"cpe23Type" \/ ty = $"advisory" \/ ty = $"fix" \/ ty = $"url" \/ ty = $"swid".
Proof. cbn [category_types In]. split; intuition auto. Qed.

Lemma validate_external_package_ref_spec r p v :
  validate_external_package_ref O r p v = [] <-> ValidPkgRef O v r.
Proof.
  destruct r as [cat ty loc cm]. unfold validate_external_package_ref, ValidPkgRef, NewRefType. cbn [er_category er_type er_locator].
  assert (Hgen : forall t1 t2 t3 t4 cx cat0, cat0 = cat -> cat <> RC_OTHER ->
    (if is22 v && str_in ty [$"advisory"; $"fix"; $"url"; $"swid"] then
        [msg t1 cx]
      else if negb (str_in ty (category_types cat)) then
        [msg t2 cx]
      else if str_in ty [$"advisory"; $"fix"; $"url"] then
        when (truthy_list (validate_url loc)) (msg t3 cx)
      else if str_eqb ty $"swid" then
        when (negb (o_isuri O loc) || negb (startswith $"swid" loc))
             (msg t4 cx)
      else validate_against_regex loc ty cx) = [] <->
    (v = $"SPDX-2.2" -> ~ (cat <> RC_OTHER /\ In ty [$"advisory"; $"fix"; $"url"; $"swid"])) /\ LocatorSyntax O cat ty loc).
  { intros t1 t2 t3 t4 cx cat0 _ Hne.
    destruct (is22 v && str_in ty [$"advisory"; $"fix"; $"url"; $"swid"]) eqn:E22.
    { apply andb_true_iff in E22 as [E1 E2]. apply is22_spec in E1. apply str_in_In in E2.
      split; [discriminate|]. intros [H _]. exfalso. apply H; auto. }
    assert (H22 : v = $"SPDX-2.2" -> ~ (cat <> RC_OTHER /\ In ty [$"advisory"; $"fix"; $"url"; $"swid"])).
    { intros Hv [_ Hin]. apply is22_spec in Hv. apply str_in_In in Hin. rewrite Hv, Hin in E22. discriminate. }
    clear E22.
    destruct (str_in ty (category_types cat)) eqn:Ecat; cbn [negb].
    2:{ split; [discriminate|]. intros [_ H]. exfalso. inversion H; subst; try (vm_compute in Ecat; discriminate). auto. }
    apply str_in_In in Ecat.
    match goal with |- ?L = [] <-> _ => enough (HH : L = [] <-> LocatorSyntax O cat ty loc) by (rewrite HH; tauto) end.
    clear H22.
    destruct cat; [| | |contradiction]; cbn [category_types In] in Ecat;
      repeat match type of Ecat with _ \/ _ => destruct Ecat as [Ecat|Ecat] | False => contradiction end; subst ty;
      match goal with
      | |- (if ?a then _ else _) = [] <-> _ => let x := eval vm_compute in a in change a with x; cbn [negb]
      end; cbv iota;
      try (match goal with
      | |- (if ?a then _ else _) = [] <-> _ => let x := eval vm_compute in a in change a with x; cbv iota
      end).
    all: try (rewrite when_nil, url_list; split; [intro; constructor; auto|inversion 1; auto]; fail).
    all: try (erewrite regex_type; [|vm_compute; reflexivity|];
              [split; [intro; constructor; eassumption|inversion 1; eassumption]|];
              first [apply lang_cpe22|apply lang_cpe23|apply lang_maven|apply lang_two_parts|apply lang_purl|apply lang_swh|apply lang_gitoid]).
    - (* swid *)
      rewrite when_nil, orb_false_iff, !negb_false_iff, startswith_spec.
      split; [intros [H1 H2]; constructor; auto|inversion 1; auto].
    - rewrite (regex_type _ npm_rx _ (TwoParts #"@")) by (try reflexivity; apply lang_two_parts).
      split; [intro; constructor; auto|inversion 1; auto].
    - rewrite (regex_type _ nuget_rx _ (TwoParts #"/")) by (try reflexivity; apply lang_two_parts).
      split; [intro; constructor; auto|inversion 1; auto].
    - rewrite (regex_type _ bower_rx _ (TwoParts #"#")) by (try reflexivity; apply lang_two_parts).
      split; [intro; constructor; auto|inversion 1; auto]. }
  destruct cat; try (apply (Hgen _ _ _ _ _ _ eq_refl); discriminate).
  rewrite when_nil, has_char_false. split.
  - intro H. split; [intros _ [Hc _]; auto|constructor; auto].
  - intros [_ H]. inversion H; auto.
Qed.
Lemma validate_external_package_refs_spec l p v :
  validate_external_package_refs O l p v = [] <-> Forall (ValidPkgRef O v) l.
Proof. apply flat_map_nil_iff. intro. apply validate_external_package_ref_spec. Qed.

(** ** License expressions *)
Lemma opt_in_spec x l : opt_in x l = true <-> In (Some x) l.
Proof.
  unfold opt_in. rewrite existsb_exists. split.
  - intros (o & Hin & H). destruct o; [|discriminate]. apply str_eqb_eq in H. congruence.
  - intro H. exists (Some x). rewrite str_eqb_refl. auto.
Qed.
Lemma validate_license_token_spec t e d cx : validate_license_token O t e d cx = [] <-> KnownSymbol d t.
Proof.
  unfold validate_license_token, KnownSymbol. destruct (has_char #":" t) eqn:Ec.
  - apply has_char_In in Ec.
    destruct (split_on #":" t) as [|a l] eqn:E; [exfalso; eapply split_on_nonempty; eauto|].
    destruct l as [|b l]; [|destruct l as [|c l]].
    + apply split_one in E as [-> H]. contradiction.
    + apply split_two in E as (-> & Ha & Hb).
      rewrite app_nil_iff, !when_nil, !negb_false_iff, ext_present_spec, startswith_spec. split.
      * intros [(b' & ->) Hin]. right. exists a, b'. repeat split; auto. intro H. apply Hb. apply in_or_app; auto.
      * intros [[H _]|(x & y & E & Hx & Hy & Hin)]; [contradiction|].
        assert (Hy' : ~ In #":" ($"LicenseRef-" ++ y)).
        { rewrite in_app_iff. intros [H|H]; auto. vm_compute in H. intuition discriminate. }
        assert (E2 : split_on #":" (a ++ #":" :: b) = [x; $"LicenseRef-" ++ y]).
        { rewrite E. apply split_two. auto. }
        rewrite (proj2 (split_two #":" _ a b)) in E2 by auto. injection E2 as -> ->. split; [exists y; reflexivity|assumption].
    + split; [discriminate|]. intros [[H _]|(x & y & -> & Hx & Hy & Hin)]; [contradiction|].
      exfalso.
      change ($":" ++ $"LicenseRef-" ++ y) with (#":" :: ($"LicenseRef-" ++ y)) in E.
      rewrite split_on_app in E by auto.
      rewrite split_on_nochar in E; [discriminate|]. rewrite in_app_iff. intros [H|H]; auto. vm_compute in H. intuition discriminate.
  - apply has_char_false in Ec. rewrite when_nil, negb_false_iff, opt_in_spec. split; [auto|].
    intros [[_ H]|(x & y & -> & _)]; auto. exfalso. apply Ec. apply in_or_app. right. left. reflexivity.
Qed.

Lemma validate_license_expression_spec l d p c : validate_license_expression O l d p c = [] <-> ValidLicenseOpt O d l.
Proof.
  unfold validate_license_expression, ValidLicenseOpt, ValidLicense.
  destruct l as [[e| |]|].
  - rewrite app_nil_iff.
    rewrite (flat_map_nil_iff _ (KnownSymbol d)) by (intro; apply validate_license_token_spec).
    assert (H : forall f : pystr -> vmsg, (match o_strict_parse_error O e with
                 | Some err => [f err]
                 | None => []
                 end = []) <-> o_strict_parse_error O e = None).
    { intro f. destruct (o_strict_parse_error O e); split; intro; auto; discriminate. }
    rewrite (H (fun err => msg (err ++ $". for license_expression: " ++ o_lic_str O e) _)). split.
    + intros H' l El e' Ee. injection El as <-. injection Ee as <-. exact H'.
    + intro H'. apply (H' _ eq_refl _ eq_refl).
  - split; auto. intros _ l El e Ee. injection El as <-. discriminate.
  - split; auto. intros _ l El e Ee. injection El as <-. discriminate.
  - split; auto. discriminate.
Qed.
Lemma validate_license_expressions_spec l d p : validate_license_expressions O l d p = [] <-> Forall (ValidLicense O d) l.
Proof.
  apply flat_map_nil_iff. intro x. rewrite validate_license_expression_spec. unfold ValidLicenseOpt. split; auto.
  intros H l' E. injection E as <-. auto.
Qed.

(** ** Elements *)
Lemma is_none_spec {A} (o : option A) : is_none o = false <-> o <> None.
Proof. destruct o; cbn; split; intro H; auto; try discriminate. exfalso; auto. Qed.
Lemma is_some_spec {A} (o : option A) : is_some o = false <-> o = None.
Proof. destruct o; cbn; split; intro H; auto; discriminate. Qed.
Lemma truthy_list_false {A} (l : list A) : truthy_list l = false <-> l = [].
Proof. destruct l; cbn; split; intro; auto; discriminate. Qed.

Lemma if22 {A} (v : pystr) (l : list A) (P : Prop) :
  (l = [] <-> P) -> ((if is22 v then l else []) = [] <-> (v = $"SPDX-2.2" -> P)).
Proof.
  intro H. destruct (is22 v) eqn:E.
  - apply is22_spec in E. rewrite H. tauto.
  - split; auto. intros _ Hv. apply is22_spec in Hv. congruence.
Qed.

Lemma rel_type_eqb_eq a b : rel_type_eqb a b = true <-> a = b.
Proof. unfold rel_type_eqb. destruct (rel_type_eq_dec a b); split; intro; auto; discriminate. Qed.
Lemma checksum_alg_eqb_eq a b : checksum_alg_eqb a b = true <-> a = b.
Proof. unfold checksum_alg_eqb. destruct (checksum_alg_eq_dec a b); split; intro; auto; discriminate. Qed.
Lemma nn_is_spec x i : nn_is x i = true <-> x = NVal i.
Proof.
  destruct x; cbn; split; intro H; try discriminate.
  - apply str_eqb_eq in H. congruence.
  - injection H as ->. apply str_eqb_refl.
Qed.

Lemma filter_nil {A} (p : A -> bool) l : filter p l = [] <-> Forall (fun x => p x = false) l.
Proof.
  induction l as [|x l IH]; cbn [filter].
  - split; auto.
  - rewrite Forall_cons_iff, <- IH. destruct (p x); split; intro H; auto; try discriminate; try tauto.
    destruct H; discriminate.
Qed.
Lemma filter_filter {A} (p q : A -> bool) l : filter p (filter q l) = filter (fun x => q x && p x) l.
Proof.
  induction l as [|x l IH]; cbn [filter]; auto.
  destruct (q x) eqn:Eq; cbn [filter andb]; [destruct (p x)|]; rewrite IH; auto.
Qed.

Lemma is_file_id d x : is_file (get_element_type_from_spdx_id x d) = true <-> exists i, x = NVal i /\ IsFileId d i.
Proof.
  unfold get_element_type_from_spdx_id, IsFileId. destruct x as [i| |].
  - destruct (str_in i (map pk_id (do_packages d))) eqn:E1.
    + apply str_in_In in E1. cbn. split; [discriminate|]. intros (j & E & _ & H). injection E as <-. contradiction.
    + apply str_in_false in E1. destruct (str_in i (map fi_id (do_files d))) eqn:E2.
      * apply str_in_In in E2. cbn. split; auto. intros _. exists i. auto.
      * apply str_in_false in E2. destruct (str_in i (map sn_id (do_snippets d))); cbn;
          (split; [discriminate|]); intros (j & E & H & _); injection E as <-; contradiction.
  - cbn. split; [discriminate|]. intros (j & E & _). discriminate.
  - cbn. split; [discriminate|]. intros (j & E & _). discriminate.
Qed.

Lemma contains_file_spec d p :
  truthy_list
    (filter (fun r => is_file (get_element_type_from_spdx_id (re_related r) d))
            (filter_by_type_and_origin (do_relationships d) RT_CONTAINS p)
     ++ filter (fun r => is_file (get_element_type_from_spdx_id (NVal (re_id r)) d))
            (filter_by_type_and_target (do_relationships d) RT_CONTAINED_BY p)) = false <->
  ~ ContainsAFile d p.
Proof.
  unfold filter_by_type_and_origin, filter_by_type_and_target. rewrite !filter_filter.
  rewrite truthy_list_false, app_nil_iff, !filter_nil, !Forall_forall. unfold ContainsAFile. split.
  - intros [H1 H2] (r & i & Hin & Hi & [(Ht & Hid & Hrel)|(Ht & Hid & Hrel)]).
    + specialize (H1 r Hin). cbv beta in H1. rewrite Ht, (proj2 (rel_type_eqb_eq _ _) eq_refl), Hid, str_eqb_refl, Hrel in H1.
      cbn [andb] in H1. rewrite (proj2 (is_file_id d (NVal i))) in H1; [discriminate|eauto].
    + specialize (H2 r Hin). cbv beta in H2. rewrite Ht, (proj2 (rel_type_eqb_eq _ _) eq_refl), Hid, Hrel in H2.
      rewrite (proj2 (nn_is_spec _ _) eq_refl) in H2.
      cbn [andb] in H2. rewrite (proj2 (is_file_id d (NVal i))) in H2; [discriminate|eauto].
  - intro H. split; intros r Hin.
    + destruct (rel_type_eqb (re_type r) RT_CONTAINS) eqn:E1; auto.
      destruct (str_eqb (re_id r) p) eqn:E2; auto. cbn [andb].
      destruct (is_file (get_element_type_from_spdx_id (re_related r) d)) eqn:E3; auto. exfalso. apply H.
      apply is_file_id in E3 as (i & Er & Hi). apply rel_type_eqb_eq in E1. apply str_eqb_eq in E2. exists r, i. auto 6.
    + destruct (rel_type_eqb (re_type r) RT_CONTAINED_BY) eqn:E1; auto.
      destruct (nn_is (re_related r) p) eqn:E2; auto. cbn [andb].
      destruct (is_file (get_element_type_from_spdx_id (NVal (re_id r)) d)) eqn:E3; auto. exfalso. apply H.
      apply is_file_id in E3 as (i & Er & Hi). injection Er as Er.
      apply rel_type_eqb_eq in E1. apply nn_is_spec in E2. exists r, i. auto 7.
Qed.

Lemma validate_package_within_document_spec p v d :
  validate_package_within_document O p v d = [] <-> ValidPackage O v d p.
Proof.
  unfold validate_package_within_document, validate_package. cbv zeta.
  rewrite !app_nil_iff, map_nil_iff, validate_spdx_id_spec, !validate_license_expression_spec,
    validate_checksums_spec, validate_external_package_refs_spec.
  assert (Hid : (InternalId (pk_id p) /\ (false = true -> In (pk_id p) (all_ids d))
                 /\ (false = true -> In (pk_id p) (map fi_id (do_files d)))) \/ ExternalId d (pk_id p) <-> ElementId d (pk_id p)).
  { unfold ElementId. intuition discriminate. }
  rewrite Hid. clear Hid.
  rewrite (if22 v _ ((pk_purpose p = None /\ pk_built p = None /\ pk_release p = None /\ pk_valid_until p = None) /\
                     (pk_concluded p <> None /\ pk_declared p <> None /\ pk_copyright p <> None))).
  2:{ rewrite !app_nil_iff, !when_nil, !is_some_spec, !is_none_spec. tauto. }
  assert (Hdl : (match pk_download p with
                 | NVal u => map (fun m => msg ($"package download_location " ++ m) (ctx (Some (pk_id p)) (Some (ci_id (do_ci d))) VT_PACKAGE (VE_Package p))) (validate_download_location u)
                 | _ => [] end = []) <-> forall u, pk_download p = NVal u -> DownloadLocation u).
  { destruct (pk_download p) as [u| |].
    - rewrite map_nil_iff, validate_download_location_spec. split; [intros H w E; injection E as <-; auto|auto].
    - split; [discriminate|auto].
    - split; [discriminate|auto]. }
  rewrite Hdl. clear Hdl.
  assert (Hhp : (match pk_homepage p with
                 | Some (NVal u) => map (fun m => msg ($"homepage " ++ m) (ctx (Some (pk_id p)) (Some (ci_id (do_ci d))) VT_PACKAGE (VE_Package p))) (validate_url u)
                 | _ => [] end = []) <-> forall u, pk_homepage p = Some (NVal u) -> UrlPrefix u).
  { destruct (pk_homepage p) as [[u| |]|].
    - rewrite map_nil_iff, validate_url_spec. split; [intros H w E; injection E as <-; auto|auto].
    - split; [discriminate|auto].
    - split; [discriminate|auto].
    - split; [discriminate|auto]. }
  rewrite Hhp. clear Hhp.
  assert (Hvc : forall t cx, (match pk_verif p with
                 | Some vc => if negb (pk_files_analyzed p)
                              then [msg (t vc) cx]
                              else validate_verification_code vc (pk_id p)
                 | None => [] end = []) <->
                (pk_files_analyzed p = false -> pk_verif p = None) /\ (forall c, pk_verif p = Some c -> ValidVerificationCode c)).
  { intros t cx. destruct (pk_verif p) as [c|].
    - destruct (pk_files_analyzed p); cbn [negb].
      + rewrite validate_verification_code_spec. split; [intro H; split; [discriminate|intros x E; injection E as <-; auto]|].
        intros [_ H]. auto.
      + split; [discriminate|]. intros [H _]. specialize (H eq_refl). discriminate.
    - split; [intros _; split; [auto|discriminate]|auto]. }
  rewrite (Hvc (fun vc => $"verification_code must be None if files_analyzed is False, but is: " ++ o_repr O (Sh_Code vc))). clear Hvc.
  assert (Hct : forall m : vmsg, ((if negb (pk_files_analyzed p)
   then when (truthy_list
             (filter (fun r => is_file (get_element_type_from_spdx_id (re_related r) d))
                (filter_by_type_and_origin (do_relationships d) RT_CONTAINS (pk_id p)) ++
              filter (fun r => is_file (get_element_type_from_spdx_id (NVal (re_id r)) d))
                (filter_by_type_and_target (do_relationships d) RT_CONTAINED_BY (pk_id p))))
          m
   else []) = []) <-> (pk_files_analyzed p = false -> ~ ContainsAFile d (pk_id p))).
  { intro m. destruct (pk_files_analyzed p); cbn [negb].
    - split; [discriminate|auto].
    - rewrite when_nil, contains_file_spec. split; auto. }
  rewrite Hct. clear Hct.
  assert (Hli : forall m : vmsg, ((if truthy_list (pk_info p)
   then
    if negb (pk_files_analyzed p)
    then [m]
    else validate_license_expressions O (pk_info p) d (pk_id p)
   else []) = []) <-> (pk_files_analyzed p = false -> pk_info p = []) /\ Forall (ValidLicense O d) (pk_info p)).
  { intro m. destruct (pk_info p) as [|l ls] eqn:Ei; cbn [truthy_list].
    - split; auto.
    - destruct (pk_files_analyzed p); cbn [negb].
      + rewrite validate_license_expressions_spec. split; [intro H; split; [discriminate|auto]|tauto].
      + split; [discriminate|]. intros [H _]. specialize (H eq_refl). discriminate. }
  rewrite Hli. clear Hli.
  split.
  - intros H. decompose [and] H. constructor; unfold NotIn22, Mandatory22; auto; try tauto.
  - intros [H1 H2 H3 H4 H5 H6 H7 H8 H9 H10 H11 H12]. unfold NotIn22, Mandatory22 in *. tauto.
Qed.

Lemma sha1_spec cs :
  existsb (fun c => checksum_alg_eqb (ck_alg c) CA_SHA1) cs = true <-> exists c, In c cs /\ ck_alg c = CA_SHA1.
Proof.
  rewrite existsb_exists. split; intros (c & Hin & H); exists c; split; auto; apply checksum_alg_eqb_eq; auto.
Qed.

Lemma validate_file_within_document_spec f v d :
  validate_file_within_document O f v d = [] <-> ValidFile O v d f.
Proof.
  unfold validate_file_within_document, validate_file. cbv zeta.
  rewrite !app_nil_iff, map_nil_iff, validate_spdx_id_spec, validate_license_expression_spec, validate_license_expressions_spec,
    validate_checksums_spec, !when_nil, startswith_slash, negb_false_iff, sha1_spec.
  assert (Hid : (InternalId (fi_id f) /\ (false = true -> In (fi_id f) (all_ids d))
                 /\ (false = true -> In (fi_id f) (map fi_id (do_files d)))) \/ ExternalId d (fi_id f) <-> ElementId d (fi_id f)).
  { unfold ElementId. intuition discriminate. }
  rewrite Hid. clear Hid.
  rewrite (if22 v _ (fi_concluded f <> None /\ fi_info f <> [] /\ fi_copyright f <> None)).
  2:{ rewrite !app_nil_iff, !when_nil, !is_none_spec, negb_false_iff.
      assert (E : truthy_list (fi_info f) = true <-> fi_info f <> [])
        by (destruct (fi_info f); cbn; split; intro H; auto; try discriminate; exfalso; auto).
      rewrite E. tauto. }
  split.
  - intro H. decompose [and] H. constructor; unfold Mandatory22; auto; tauto.
  - intros [H1 H2 H3 H4 H5 H6 H7]. unfold Mandatory22 in *. tauto.
Qed.

Lemma validate_range_spec r name cx : validate_range r name cx = [] <-> ValidRange r.
Proof.
  unfold validate_range, ValidRange. rewrite app_nil_iff, !when_nil, !Z.ltb_ge. lia.
Qed.

Lemma validate_snippet_within_document_spec s v d :
  validate_snippet_within_document O s v d = [] <-> ValidSnippet O v d s.
Proof.
  unfold validate_snippet_within_document, validate_snippet. cbv zeta.
  rewrite !app_nil_iff, !map_nil_iff, !validate_spdx_id_spec, validate_license_expression_spec, validate_license_expressions_spec,
    validate_range_spec.
  assert (Hid : (InternalId (sn_id s) /\ (false = true -> In (sn_id s) (all_ids d))
                 /\ (false = true -> In (sn_id s) (map fi_id (do_files d)))) \/ ExternalId d (sn_id s) <-> ElementId d (sn_id s)).
  { unfold ElementId. intuition discriminate. }
  rewrite Hid. clear Hid.
  assert (Hfi : (InternalId (sn_file s) /\ (false = true -> In (sn_file s) (all_ids d))
                 /\ (true = true -> In (sn_file s) (map fi_id (do_files d)))) \/ ExternalId d (sn_file s) <-> ResolvesToFile d (sn_file s)).
  { unfold ResolvesToFile. intuition discriminate. }
  rewrite Hfi. clear Hfi.
  rewrite (if22 v _ (sn_concluded s <> None /\ sn_copyright s <> None)).
  2:{ rewrite !app_nil_iff, !when_nil, !is_none_spec. tauto. }
  assert (Hl : (match sn_lines s with Some r => validate_range r $"line_range" (ctx (Some (sn_id s)) (Some (ci_id (do_ci d))) VT_SNIPPET (VE_Snippet s)) | None => [] end = [])
               <-> forall r, sn_lines s = Some r -> ValidRange r).
  { destruct (sn_lines s) as [r|].
    - rewrite validate_range_spec. split; [intros H x E; injection E as <-; auto|auto].
    - split; [discriminate|auto]. }
  rewrite Hl. clear Hl.
  split.
  - intro H. decompose [and] H. constructor; unfold Mandatory22; auto; tauto.
  - intros [H1 H2 H3 H4 H5 H6 H7]. unfold Mandatory22 in *. tauto.
Qed.

Lemma resolves_spec d id : validate_spdx_id id d true false = [] <-> Resolves d id.
Proof.
  rewrite validate_spdx_id_spec. unfold Resolves. intuition discriminate.
Qed.

Lemma validate_annotation_spec a d : validate_annotation a d = [] <-> ValidAnnotation d a.
Proof.
  unfold validate_annotation, ValidAnnotation. rewrite app_nil_iff, validate_actor_spec, map_nil_iff, resolves_spec. reflexivity.
Qed.
Lemma validate_relationship_spec r v d : validate_relationship r v d = [] <-> ValidRelationship v d r.
Proof.
  unfold validate_relationship, ValidRelationship. cbv zeta.
  rewrite !app_nil_iff, map_nil_iff, resolves_spec.
  rewrite (if22 v _ (re_type r <> RT_SPECIFICATION_FOR /\ re_type r <> RT_REQUIREMENT_DESCRIPTION_FOR)).
  2:{ rewrite when_nil, orb_false_iff. unfold rel_type_eqb.
      destruct (rel_type_eq_dec (re_type r) RT_SPECIFICATION_FOR), (rel_type_eq_dec (re_type r) RT_REQUIREMENT_DESCRIPTION_FOR);
        split; intros [H1 H2]; try discriminate; auto; contradiction. }
  assert (H : (match re_related r with NVal i => map (fun m => msg m (ctx None None VT_RELATIONSHIP (VE_Relationship r))) (validate_spdx_id i d true false) | _ => [] end = [])
              <-> forall i, re_related r = NVal i -> Resolves d i).
  { destruct (re_related r) as [i| |].
    - rewrite map_nil_iff, resolves_spec. split; [intros H x E; injection E as <-; auto|auto].
    - split; [discriminate|auto].
    - split; [discriminate|auto]. }
  rewrite H. reflexivity.
Qed.
Lemma validate_extracted_spec e : validate_extracted_licensing_info e = [] <-> ValidExtracted e.
Proof.
  unfold validate_extracted_licensing_info, ValidExtracted. cbv zeta. rewrite app_nil_iff.
  rewrite (flat_map_nil_iff _ UrlPrefix) by (intro; rewrite map_nil_iff; apply validate_url_spec).
  apply and_iff_compat_r.
  destruct (el_id e) as [[|c i]|].
  - split; [intros _ i E Hn; injection E as <-; contradiction|auto].
  - rewrite app_nil_iff, !when_nil, !negb_false_iff, licenseref_id_spec. split.
    + intros [H1 H2] x E _. injection E as <-. split; auto. destruct (el_text e) as [[|y t]|]; try discriminate.
      eexists. split; [reflexivity|discriminate].
    + intro H. destruct (H _ eq_refl) as [H1 (t & E & Ht)]; [discriminate|]. split; auto. rewrite E.
      destruct t; [contradiction|reflexivity].
  - split; [discriminate|auto].
Qed.

(** ** The whole document *)
Lemma duplicated_ids_spec seen l :
  duplicated_ids seen l = [] <-> NoDup l /\ (forall x, In x l -> ~ In x seen).
Proof.
  revert seen; induction l as [|x l IH]; intro seen; cbn [duplicated_ids].
  - split; [intros _; split; [constructor|auto]|auto].
  - destruct (str_in x seen) eqn:E.
    + apply str_in_In in E. split; [discriminate|]. intros [_ H]. exfalso. apply (H x); [left; auto|auto].
    + apply str_in_false in E. rewrite IH. split.
      * intros [Hnd H]. split.
        { constructor; auto. intro Hin. apply (H x Hin). left; auto. }
        intros y [<-|Hy]; auto. intro Hs. apply (H y Hy). right; auto.
      * intros [Hnd H]. inversion Hnd; subst. split; auto. intros y Hy [<-|Hs]; [contradiction|].
        apply (H y); [right; auto|auto].
Qed.

Lemma describes_spec d :
  (negb (Nat.eqb (List.length (do_packages d)) 1 && negb (truthy_list (do_files d)) && negb (truthy_list (do_snippets d)))
   && negb (truthy_list (filter_by_type_and_origin (do_relationships d) RT_DESCRIBES (ci_id (do_ci d))
                         ++ filter_by_type_and_target (do_relationships d) RT_DESCRIBED_BY (ci_id (do_ci d))))) = false
  <-> DescribesSomething d.
Proof.
  rewrite andb_false_iff, !negb_false_iff, !andb_true_iff, !negb_true_iff, !truthy_list_false, Nat.eqb_eq.
  unfold DescribesSomething. rewrite or_comm. 
  assert (Hp : List.length (do_packages d) = 1 <-> exists p, do_packages d = [p]).
  { destruct (do_packages d) as [|p [|q l]]; cbn; split; intro H; try discriminate; eauto; destruct H; discriminate. }
  rewrite Hp. rewrite and_assoc. apply or_iff_compat_r.
  set (l := filter_by_type_and_origin _ _ _ ++ filter_by_type_and_target _ _ _).
  assert (Ht : truthy_list l = true <-> exists r, In r l).
  { destruct l as [|r l']; cbn; split; intro H; auto; try discriminate.
    - destruct H as [r []].
    - exists r. auto. }
  rewrite Ht. subst l. unfold filter_by_type_and_origin, filter_by_type_and_target. split.
  - intros (r & Hin). apply in_app_or in Hin as [Hin|Hin]; apply filter_In in Hin as [Hin H]; apply andb_true_iff in H as [H1 H2];
      apply rel_type_eqb_eq in H1; exists r; split; auto.
    + apply str_eqb_eq in H2. auto.
    + apply nn_is_spec in H2. auto.
  - intros (r & Hin & [[H1 H2]|[H1 H2]]); exists r; apply in_or_app; [left|right]; apply filter_In; split; auto;
      rewrite H1, H2; apply andb_true_iff; split; try (apply rel_type_eqb_eq; auto).
    + apply str_eqb_refl.
    + apply nn_is_spec; auto.
Qed.

Lemma V22_neq_V23 : V22 <> V23.
Proof. discriminate. Qed.

Lemma version_messages_spec d ver :
  version_messages d ver = [] <-> SupportedVersion (ci_version (do_ci d)) /\ VersionFits d ver.
Proof.
  unfold version_messages, SupportedVersion, VersionFits. cbv zeta.
  destruct (str_in (ci_version (do_ci d)) [V22; V23]) eqn:E; cbn [negb].
  - apply str_in_In in E. assert (Hs : ci_version (do_ci d) = $"SPDX-2.2" \/ ci_version (do_ci d) = $"SPDX-2.3").
    { destruct E as [E|[E|[]]]; rewrite <- E; [left|right]; reflexivity. }
    destruct (str_eqb (effective_version d ver) (ci_version (do_ci d))) eqn:Ev; cbn [negb].
    + apply str_eqb_eq in Ev. split; auto. intros _. split; auto.
      intros v Hv Hn. subst ver. unfold effective_version in Ev. destruct v; [contradiction|auto].
    + apply str_eqb_neq in Ev. split; [discriminate|]. intros [_ H]. exfalso. apply Ev.
      destruct ver as [[|c v]|]; cbn [effective_version]; auto. apply H; auto. discriminate.
  - apply str_in_false in E. split; [discriminate|]. intros [H _]. exfalso. apply E.
    destruct H as [->| ->]; [left|right; left]; reflexivity.
Qed.
Lemma effective_version_eq d ver : version_messages d ver = [] -> effective_version d ver = ci_version (do_ci d).
Proof.
  intro H. apply version_messages_spec in H as [_ H]. destruct ver as [[|c v]|]; cbn [effective_version]; auto.
  apply H; auto. discriminate.
Qed.

Lemma wf_conj v d :
  WellFormed O v d <->
  ValidCreationInfo O v (do_ci d) /\ Forall (ValidPackage O v d) (do_packages d) /\ Forall (ValidFile O v d) (do_files d)
  /\ Forall (ValidSnippet O v d) (do_snippets d) /\ Forall (ValidAnnotation d) (do_annotations d)
  /\ Forall (ValidRelationship v d) (do_relationships d) /\ Forall ValidExtracted (do_extracted d)
  /\ DescribesSomething d /\ NoDup (all_ids d).
Proof.
  split.
  - intros [H1 H2 H3 H4 H5 H6 H7 H8 H9]. auto 10.
  - intros (H1 & H2 & H3 & H4 & H5 & H6 & H7 & H8 & H9). constructor; auto.
Qed.

Theorem validate_spec d ver :
  validate_full_spdx_document O d ver = [] <->
  SupportedVersion (ci_version (do_ci d)) /\ VersionFits d ver /\ WellFormed O (ci_version (do_ci d)) d.
Proof.
  unfold validate_full_spdx_document. destruct (version_messages d ver) as [|m l] eqn:Ev.
  - pose proof (effective_version_eq d ver Ev) as He. apply version_messages_spec in Ev as [Hs Hf].
    rewrite He. cbv zeta.
    rewrite !app_nil_iff, validate_creation_info_spec.
    unfold validate_packages, validate_files, validate_snippets, validate_annotations, validate_relationships,
      validate_extracted_licensing_infos.
    rewrite (flat_map_nil_iff _ (ValidPackage O (ci_version (do_ci d)) d)) by (intro; apply validate_package_within_document_spec).
    rewrite (flat_map_nil_iff _ (ValidFile O (ci_version (do_ci d)) d)) by (intro; apply validate_file_within_document_spec).
    rewrite (flat_map_nil_iff _ (ValidSnippet O (ci_version (do_ci d)) d)) by (intro; apply validate_snippet_within_document_spec).
    rewrite (flat_map_nil_iff _ (ValidAnnotation d)) by (intro; apply validate_annotation_spec).
    rewrite (flat_map_nil_iff _ (ValidRelationship (ci_version (do_ci d)) d)) by (intro; apply validate_relationship_spec).
    rewrite (flat_map_nil_iff _ ValidExtracted) by (intro; apply validate_extracted_spec).
    rewrite when_nil, describes_spec, when_nil, truthy_list_false, duplicated_ids_spec, wf_conj.
    change (get_list_of_all_spdx_ids d) with (all_ids d).
    assert (Hd : NoDup (all_ids d) /\ (forall x, In x (all_ids d) -> ~ In x []) <-> NoDup (all_ids d)) by (split; [tauto|auto]).
    rewrite Hd. tauto.
  - split; [discriminate|]. intros (H1 & H2 & _).
    assert (H : version_messages d ver = []) by (apply version_messages_spec; auto). congruence.
Qed.
End WithOracles.
