(** The relationships of a document in the JSON form are read as what it says. *)
From Verif Require Import Py PyRe PyFacts Data Oracles Basics BasicsFacts ActorFacts Json Construct JsonConv JsonParse JsonSpec JsonReadSpec JsonFacts JsonErrors JsonMore StampMore JsonRead JsonRead2 JsonRead3.

Lemma fromkeys_back l : forall acc r, fromkeys l acc = Ok r ->
  (forall y, In y acc -> In y r) /\ forall x, In x l -> exists y, In y r /\ (x = y \/ key_eqb x y = true).
Proof.
  induction l as [|x l IH]; intros acc r H; cbn [fromkeys] in H.
  - injection H as <-. split; [auto|]. intros x [].
  - destruct (negb (hashable x)); [discriminate|]. destruct (existsb (key_eqb x) acc) eqn:E.
    + apply IH in H as [H1 H2]. split; [exact H1|]. intros z [<-|Z]; [|apply H2; exact Z].
      apply existsb_exists in E as (y & I & K). exists y. auto.
    + apply IH in H as [H1 H2]. split; [intros y I; apply H1, in_or_app; auto|]. intros z [<-|Z]; [|apply H2; exact Z].
      exists x. split; [apply H1, in_or_app; right; left; reflexivity|]. auto.
Qed.
Lemma all_strings l : (forall x, In x l -> exists s, x = JStr s) -> exists ss, l = map JStr ss.
Proof.
  induction l as [|x l IH]; intro H; [exists []; reflexivity|]. destruct (H x (or_introl eq_refl)) as (s & ->).
  destruct IH as (ss & ->); [intros; apply H; right; assumption|]. exists (s :: ss). reflexivity.
Qed.
Lemma dedup_back j xs : delete_duplicates_from_list j = Ok (map JStr xs) -> exists ids, Items j (map JStr ids) /\ xs = firsts [] ids.
Proof.
  unfold delete_duplicates_from_list. intro H. apply bind_ok in H as (l & I & H).
  assert (K : exists ids, l = map JStr ids).
  { apply fromkeys_back in H as [_ H]. apply all_strings. intros x X. destruct (H x X) as (y & Y & Z). apply in_map_iff in Y as (s & <- & _).
    destruct Z as [->|Z]; [eauto|]. destruct x; cbn in Z; try discriminate. eauto. }
  destruct K as (ids & ->). exists ids. split; [apply jiter_iff; exact I|]. rewrite (fromkeys_firsts ids [] []) in H; [|reflexivity].
  cbn [app] in H. assert (H' : map JStr (firsts [] ids) = map JStr xs) by congruence. clear - H'. revert H'. generalize (firsts [] ids). intro l. revert xs.
  induction l as [|a l IH]; destruct xs as [|b xs]; intro H; try discriminate; [reflexivity|]. cbn in H. injection H as -> H. f_equal. apply IH. exact H.
Qed.
Lemma dedup_go j ids : Items j (map JStr ids) -> delete_duplicates_from_list j = Ok (map JStr (firsts [] ids)).
Proof.
  intro I. apply jiter_iff in I. unfold delete_duplicates_from_list. rewrite I. cbn [bind]. rewrite (fromkeys_firsts ids [] []); reflexivity.
Qed.
Lemma implicit_back o t ex targets : forall r, implicit_loop (JStr o) t ex targets = Ok ([], r) -> exists xs, targets = map JStr xs.
Proof.
  induction targets as [|x l IH]; intros r H; [exists []; reflexivity|]. cbn [implicit_loop] in H.
  destruct x as [| | | |s| |]; cbn [implicit_relationship c_str c_nn ap construct_raw] in H.
  all: try (unfold implicit_relationship in H; cbn in H; destruct (implicit_loop (JStr o) t ex l) as [[m q]|]; cbn in H; discriminate).
  unfold implicit_relationship in H. cbn [c_str c_nn ap construct_raw] in H. apply bind_ok in H as (e & _ & H). apply bind_ok in H as ([m q] & L & H). cbn iota in H.
  assert (M : m = []) by congruence. subst m. destruct (IH _ L) as (xs & ->). exists (s :: xs). reflexivity.
Qed.
Definition HasId (j : json) : Prop := exists kvs id, j = JObj kvs /\ value_at $"SPDXID" kvs = JStr id.
Lemma entries_default k kvs l : EntriesOf k kvs l <-> Items (value_or (JArr []) k kvs) l.
Proof. rewrite <- jiter_iff, entries_of. reflexivity. Qed.
Lemma has_files_back ex js : Forall HasId js -> forall r, has_files_loop (get_all_relationships_without_comments ex) js = Ok ([], r) ->
  exists pkgs, Forall2 HasFiles js pkgs /\ r = flat_map (fun p => missing ex (fst p) RT_CONTAINS RT_CONTAINED_BY (snd p)) pkgs.
Proof.
  induction 1 as [|j js (kvs & id & -> & V) _ IH]; intros r H; cbn [has_files_loop] in H.
  - injection H as <-. exists []. split; [constructor|reflexivity].
  - rewrite jget_at, jget_or in H. cbn [bind] in H. rewrite V in H. apply bind_ok in H as (files & D & H). apply bind_ok in H as ([m q] & L & H). cbn iota in H.
    apply bind_ok in H as ([m' q'] & L' & H). cbn iota in H.
    apply (f_equal (fun r => match r with Ok x => x | Raise _ => ([[]], []) end)) in H. cbn iota in H. apply pair_equal_spec in H as [H1 H2]. apply app_eq_nil in H1 as [-> ->].
    destruct (implicit_back _ _ _ _ _ L) as (xs & ->). apply dedup_back in D as (ids & I & ->).
    rewrite (implicit_loop_ok ex id RT_CONTAINS RT_CONTAINED_BY _ eq_refl) in L. destruct (IH _ L') as (pkgs & F & E).
    exists ((id, ids) :: pkgs). split.
    + constructor; [|exact F]. exists kvs. split; [reflexivity|]. cbn [fst snd]. split; [exact V|]. apply entries_default. exact I.
    + cbn [flat_map fst snd]. unfold missing at 1. rewrite <- E, <- H2. congruence.
Qed.
Lemma has_files_go ex js pkgs : Forall2 HasFiles js pkgs ->
  has_files_loop (get_all_relationships_without_comments ex) js = Ok ([], flat_map (fun p => missing ex (fst p) RT_CONTAINS RT_CONTAINED_BY (snd p)) pkgs).
Proof.
  induction 1 as [|j [id ids] js pkgs (kvs & -> & V & I) _ IH]; cbn [has_files_loop flat_map fst snd] in *; [reflexivity|].
  rewrite jget_at, jget_or. cbn [bind]. rewrite V. apply entries_default in I. rewrite (dedup_go _ _ I). cbn [bind].
  rewrite (implicit_loop_ok ex id RT_CONTAINS RT_CONTAINED_BY _ eq_refl). cbn [bind]. rewrite IH. reflexivity.
Qed.
Lemma noisy_implicit o t ex l : Noisy (implicit_loop o t ex l).
Proof.
  induction l as [|x l IH]; cbn [implicit_loop]; [apply noisy_ok|]. destruct (implicit_relationship o t x) as [rel|e] eqn:E.
  - apply noisy_bind.
    + unfold check_if_relationship_exists. destruct (rel_in rel ex); [apply noisy_ok|]. apply noisy_bind; [|intro; apply noisy_ok].
      unfold invert_relationship. destruct (invert_type _); [destruct (re_related rel); [apply noisy_ok| |]|]; intros e [= <-]; discriminate.
    + intro. apply noisy_bind; [exact IH|]. intros [m q]. apply noisy_ok.
  - assert (N : Noisy (Raise (A := list pystr * list relationship) e)).
    { intros e' [= <-]. unfold implicit_relationship in E. destruct o, x; cbn in E; try discriminate E; injection E as <-; discriminate. }
    destruct e; try exact N. apply noisy_bind; [exact IH|]. intros [m q]. apply noisy_ok.
Qed.
Lemma noisy_describes o ex l : Noisy (parse_document_describes o ex l).
Proof. apply noisy_bind; [apply noisy_implicit|]. intros [m q]. apply noisy_bind; [apply noisy_named|]. intro. apply noisy_ok. Qed.
Lemma noisy_has_files_loop ex l : Noisy (has_files_loop ex l).
Proof.
  induction l as [|x l IH]; cbn [has_files_loop]; [apply noisy_ok|]. apply noisy_bind; [apply noisy_jget|]. intro. apply noisy_bind; [apply noisy_jget_default|]. intro.
  apply noisy_bind; [apply noisy_dedup|]. intro. apply noisy_bind; [apply noisy_implicit|]. intros [m q]. apply noisy_bind; [exact IH|]. intros [m' q']. apply noisy_ok.
Qed.
Lemma noisy_has_files ex j : Noisy (parse_has_files ex j).
Proof. apply noisy_bind; [apply noisy_jiter|]. intro. apply noisy_bind; [apply noisy_has_files_loop|]. intros [m q]. apply noisy_bind; [apply noisy_named|]. intro. apply noisy_ok. Qed.
Lemma relationship_entry j r : parse_relationship j = Ok r <-> Entry SaysRelationship j r.
Proof. apply obj_entry; [apply relationship_iff|]. intros j0 a0 H. eapply bind_jget_obj. exact H. Qed.
Lemma raise_ok {A} l (k : unit -> result A) a : bind (raise_if l) k = Ok a <-> l = [] /\ k tt = Ok a.
Proof. destruct l; cbn; split; intro H; try discriminate; auto; destruct H; auto; discriminate. Qed.
Lemma has_files_entries k kvs js ex o : EntriesAt k kvs js ->
  parse_field (value_or (JArr []) k kvs) (parse_has_files ex) = Ok ([], o) <->
  (js = [] /\ o = None) \/ (js <> [] /\ exists r, o = Some r /\ has_files_loop ex js = Ok ([], r)).
Proof.
  intro E. rewrite (field_iff _ (fun j r => parse_has_files ex j = Ok r) _ _ (fun x a => iff_refl _) (noisy_has_files ex)). unfold Maybe, value_or, EntriesAt in *.
  assert (K : (jtruthy (match assoc k kvs with Some v => v | None => JArr [] end) = false /\ js = []) \/ (match assoc k kvs with Some v => v | None => JArr [] end = JArr js /\ js <> [])).
  { destruct (assoc k kvs) as [v|]; [|left; auto]. destruct v as [| | | | |l'|]; try (left; exact E). subst l'. destruct js; [left; auto|right; split; [reflexivity|discriminate]]. }
  destruct K as [[-> ->]|[-> N]].
  - destruct o as [r|]; split; intro H; auto; [destruct H; discriminate|]. destruct H as [[_ H]|[H _]]; [discriminate|contradiction].
  - destruct js as [|j js]; [contradiction|]. cbn [jtruthy truthy_list]. destruct o as [r|].
    + split.
      * intros [_ H]. right. split; [discriminate|]. exists r. split; [reflexivity|]. unfold parse_has_files in H. cbn [jiter bind] in H.
        apply bind_ok in H as ([m q] & L & H). cbn iota in H. apply named_ok in H as [-> H]. congruence.
      * intros [[H _]|[_ (r' & E' & H)]]; [discriminate|]. injection E' as <-. split; [reflexivity|]. unfold parse_has_files. cbn [jiter bind]. rewrite H. reflexivity.
    + split; [discriminate|]. intros [[H _]|[_ (r' & E' & _)]]; discriminate.
Qed.
Lemma describes_field doc ex ds o : parse_field (JArr ds) (fun _ => parse_document_describes (JStr doc) (get_all_relationships_without_comments ex) ds) = Ok ([], o) ->
  exists xs, ds = map JStr xs /\ opt_list o = map (simple doc RT_DESCRIBES) (filter (fun x => negb (states ex doc RT_DESCRIBES RT_DESCRIBED_BY x)) xs).
Proof.
  intro H. apply (field_iff _ (fun _ r => parse_document_describes (JStr doc) (get_all_relationships_without_comments ex) ds = Ok r) _ _ (fun x a => iff_refl _)) in H; [|intro; apply noisy_describes].
  unfold Maybe in H. destruct o as [r|].
  - destruct H as [_ H]. unfold parse_document_describes in H. apply bind_ok in H as ([m q] & L & H). cbn iota in H. apply named_ok in H as [-> H].
    destruct (implicit_back _ _ _ _ _ L) as (xs & ->). exists xs. split; [reflexivity|]. rewrite (implicit_loop_ok _ doc RT_DESCRIBES RT_DESCRIBED_BY _ eq_refl) in L. cbn [opt_list]. congruence.
  - destruct ds; [|discriminate]. exists []. auto.
Qed.
Lemma describes_go doc ex ids : exists o,
  parse_field (JArr (map JStr (firsts [] ids))) (fun _ => parse_document_describes (JStr doc) (get_all_relationships_without_comments ex) (map JStr (firsts [] ids))) = Ok ([], o)
  /\ opt_list o = missing ex doc RT_DESCRIBES RT_DESCRIBED_BY ids.
Proof.
  unfold missing. generalize (firsts [] ids). intro xs. destruct xs as [|x xs]; [exists None; split; reflexivity|].
  exists (Some (map (simple doc RT_DESCRIBES) (filter (fun x => negb (states ex doc RT_DESCRIBES RT_DESCRIBED_BY x)) (x :: xs)))). split; [|reflexivity].
  unfold parse_field. cbn [jtruthy map truthy_list negb]. unfold parse_document_describes. change (JStr x :: map JStr xs) with (map JStr (x :: xs)).
  rewrite (implicit_loop_ok _ doc RT_DESCRIBES RT_DESCRIBED_BY _ eq_refl). reflexivity.
Qed.
Theorem relationships_iff kvs doc js l : value_at $"SPDXID" kvs = JStr doc -> EntriesAt $"packages" kvs js -> Forall HasId js ->
  parse_all_relationships (JObj kvs) = Ok l <-> SaysRelationships kvs l.
Proof.
  intros V EP HI. unfold parse_all_relationships, SaysRelationships. rewrite !jget_or, jget_at, V. cbn [bind]. split.
  - intro R. apply bind_ok in R as ([l1 r1] & F1 & R). cbn iota in R. apply bind_ok in R as (ds & D & R). apply bind_ok in R as ([l2 r2] & F2 & R). cbn iota in R.
    apply bind_ok in R as ([l3 r3] & F3 & R). cbn iota in R. apply raise_ok in R as [NL R]. nils.
    apply (field_list_iff _ _ _ _ relationship_entry noisy_relationship) in F1.
    apply describes_field in F2 as (xs & -> & E2). apply dedup_back in D as (ids & I & ->).
    exists (opt_list r1), doc, ids, js.
    assert (K : exists pkgs, Forall2 HasFiles js pkgs /\ opt_list r3 = flat_map (fun p => missing (opt_list r1 ++ opt_list r2) (fst p) RT_CONTAINS RT_CONTAINED_BY (snd p)) pkgs).
    { apply (has_files_entries _ _ _ _ _ EP) in F3 as [[-> ->]|[_ (r & -> & L)]]; [exists []; split; [constructor|reflexivity]|]. apply has_files_back; assumption. }
    destruct K as (pkgs & F & E3). exists pkgs, (opt_list r2). split; [apply list_default, opt_list_iff; eauto|]. split; [reflexivity|]. split; [apply entries_default; exact I|].
    split; [exact EP|]. split; [exact F|]. split; [exact E2|]. rewrite <- E3, app_assoc. congruence.
  - intros (listed & doc' & ids & js' & pkgs & described & L & V' & D & EP' & F & -> & ->).
    assert (doc' = doc) by (unfold SaysText in V'; congruence). subst doc'.
    assert (js' = js). { clear - EP EP'. unfold EntriesAt in *. destruct (assoc _ kvs) as [[]|]; try congruence; destruct EP, EP'; congruence. }
    subst js'. apply list_default, opt_list_iff in L as (o1 & L & <-). apply (field_list_iff _ _ _ _ relationship_entry noisy_relationship) in L.
    apply entries_default in D. apply bind_ok. eexists. split; [exact L|]. cbn iota. apply bind_ok. eexists. split; [apply (dedup_go _ _ D)|].
    destruct (describes_go doc (opt_list o1) ids) as (o2 & G & E2). apply bind_ok. eexists. split; [exact G|]. cbn iota. rewrite E2.
    apply (has_files_go (opt_list o1 ++ missing (opt_list o1) doc RT_DESCRIBES RT_DESCRIBED_BY ids)) in F. set (c := flat_map _ _) in *.
    assert (K : exists o3, parse_field (value_or (JArr []) $"packages" kvs) (parse_has_files (get_all_relationships_without_comments (opt_list o1 ++ missing (opt_list o1) doc RT_DESCRIBES RT_DESCRIBED_BY ids))) = Ok ([], o3) /\ opt_list o3 = c).
    { setoid_rewrite (has_files_entries _ _ _ _ _ EP). destruct js as [|j js].
      - exists None. split; [auto|]. cbn in F. cbn. congruence.
      - exists (Some c). split; [|reflexivity]. right. split; [discriminate|]. eauto. }
    destruct K as (o3 & K & E3). apply bind_ok. eexists. split; [exact K|]. cbn iota. cbn [app]. apply raise_ok. split; [reflexivity|]. rewrite E3, app_assoc. reflexivity.
Qed.
Theorem document_says O : (forall s e, o_lic_parse O s = Raise e -> exists m, e = EExpr m) -> forall kvs d,
  parse_dict O (JObj kvs) = Ok d <->
  SaysCreation kvs (do_ci d) /\ SaysEntries $"packages" (SaysPackage O) kvs (do_packages d) /\ SaysEntries $"files" (SaysFile O) kvs (do_files d)
  /\ SaysEntries $"snippets" (SaysSnippet O) kvs (do_snippets d) /\ SaysEntries $"hasExtractedLicensingInfos" SaysExtracted kvs (do_extracted d)
  /\ SaysAnnotations kvs (do_annotations d) /\ SaysRelationships kvs (do_relationships d).
Proof.
  intros L kvs d. rewrite (document_iff O L kvs d).
  assert (K : SaysCreation kvs (do_ci d) -> SaysEntries $"packages" (SaysPackage O) kvs (do_packages d) ->
     parse_all_relationships (JObj kvs) = Ok (do_relationships d) <-> SaysRelationships kvs (do_relationships d)).
  { intros C (js & EP & F). eapply relationships_iff; [exact (sc_id _ _ C)|exact EP|]. clear - F. induction F as [|j p js ps (pkvs & -> & P) _ IH]; constructor; [|exact IH].
    exists pkvs, (pk_id p). split; [reflexivity|]. exact (sp_id _ _ _ P). }
  split; intros (C & P & H); (split; [exact C|split; [exact P|]]); specialize (K C P); tauto.
Qed.
