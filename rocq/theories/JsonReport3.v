(** C74: mistakes in the creation info, in relationships, annotations and references of packages. *)
From Verif Require Import Py PyFacts Data Oracles Basics ValidationSpec BasicsSpec BasicsFacts Json Construct JsonParse JsonSpec JsonFacts JsonErrors JsonReportSpec JsonReport JsonReport2.

Section WithOracles.
Variable O : oracles.

(** ** Creation info *)
Lemma creation_mistake kvs kvs' c c' k v m r : parse_creation_info (JObj kvs) = Ok r -> assoc $"creationInfo" kvs = Some (JObj c) -> Changed k v c c' -> Changed $"creationInfo" (JObj c') kvs kvs' -> CreationMistake c k v m ->
  parse_creation_info (JObj kvs') = Raise (EParsing [parsing $"Document" m]).
Proof.
  intros R K [Vc Cc] [V C] M. unfold parse_creation_info in R. cbn [jget jget_default bind] in R. rewrite K in R. walk R. apply bind_Ok in R as ([] & N & _). apply named_ok in N. empty_logs N.
  unfold parse_creation_info. cbn [jget jget_default bind]. rewrite V. cbn [jget jget_default bind]. same C kvs'. destruct M as [w v m X W|s N W].
  - destruct X as (pre & old & post & X & ->). apply wrong_actor in W as [W _]. rewrite X in *.
    match goal with E : parse_field_list _ _ = Ok ([], _) |- _ => pose proof (field_list_error _ _ _ _ _ _ _ E W) end. rewrite Vc; same Cc c'; again. reflexivity.
  - assert (Y : parse_field (JStr s) parse_version = Ok ([$"Error while parsing version: " ++ s ++ $" is not a valid version string"], None)).
    { apply field_error. split; [|destruct s; [congruence|reflexivity]]. unfold parse_version, on_str. rewrite version_rejects by exact W. reflexivity. }
    rewrite Vc; same Cc c'; again. reflexivity.
Qed.
Lemma refs_loop_ok l : forall r, external_document_refs_loop l = Ok ([], r) -> forall x, In x l -> exists y, parse_field x parse_external_document_ref = Ok ([], y).
Proof.
  induction l as [|y l IH]; intros r H x I; [destruct I|]. cbn [external_document_refs_loop] in H. destruct (parse_field y parse_external_document_ref) as [[n z]|] eqn:E; [|discriminate H]. cbn [bind] in H.
  destruct (external_document_refs_loop l) as [[ms rs]|] eqn:L; [|discriminate H]. cbn [bind] in H. injection H as H _. apply app_eq_nil in H as [-> ->]. destruct I as [<-|I]; [eauto|exact (IH _ eq_refl x I)].
Qed.
Lemma refs_loop_good l : (forall x, In x l -> exists y, parse_field x parse_external_document_ref = Ok ([], y)) -> exists r, external_document_refs_loop l = Ok ([], r).
Proof.
  induction l as [|y l IH]; intro H; cbn [external_document_refs_loop]; [eauto|]. destruct (H y (or_introl eq_refl)) as (z & ->). destruct IH as (r & ->); [intros x I; apply H; right; exact I|]. cbn [bind]. eauto.
Qed.
Lemma refs_loop_mid a b w m : (forall x, In x (a ++ b) -> exists y, parse_field x parse_external_document_ref = Ok ([], y)) -> parse_field w parse_external_document_ref = Ok ([m], None) ->
  exists r, external_document_refs_loop (a ++ w :: b) = Ok ([m], r).
Proof.
  intros H W. induction a as [|y a IH]; cbn [app external_document_refs_loop] in *.
  - rewrite W. destruct (refs_loop_good b H) as (r & ->). cbn [bind]. eauto.
  - destruct (H y (or_introl eq_refl)) as (z & ->). destruct IH as (r & ->); [intros x I; apply H; right; exact I|]. cbn [bind app]. eauto.
Qed.
Lemma wrong_document_ref v m : WrongDocumentRef v m -> parse_field v parse_external_document_ref = Ok ([m], None).
Proof.
  intros (kvs & c & x & -> & K & W & ->). apply field_error. split; [|destruct kvs; [discriminate K|reflexivity]]. unfold parse_external_document_ref. cbn [jget jget_default bind]. rewrite K.
  assert (T : jtruthy c = true) by (destruct W as ([|? ?] & ? & ? & -> & W & _); [discriminate W|reflexivity]).
  apply wrong_checksum in W. rewrite (field_error parse_checksum c x (conj W T)). reflexivity.
Qed.
Lemma refs_noisy l : forall e, external_document_refs_loop l = Raise e -> caught e = None.
Proof.
  induction l as [|y l IH]; intros e H; [discriminate H|]. cbn [external_document_refs_loop] in H. destruct (parse_field y parse_external_document_ref) as [[n z]|e'] eqn:E; cbn [bind] in H.
  - destruct (external_document_refs_loop l) as [[ms rs]|e'']; [discriminate H|]. injection H as ->. auto.
  - injection H as ->. unfold parse_field in E. destruct (negb (jtruthy y)); [discriminate E|]. destruct (parse_external_document_ref y) as [?|e'']; [discriminate E|]. destruct (caught e'') eqn:Ce; [discriminate E|]. congruence.
Qed.
Lemma refs_error a old b w m y : parse_field (JArr (a ++ old ++ b)) parse_external_document_refs = Ok ([], y) -> WrongDocumentRef w m ->
  parse_field (JArr (a ++ w :: b)) parse_external_document_refs = Ok ([m], None).
Proof.
  intros H W. apply wrong_document_ref in W. assert (K : forall x, In x (a ++ old ++ b) -> exists y, parse_field x parse_external_document_ref = Ok ([], y)).
  { unfold parse_field in H. cbn [jtruthy] in H. destruct (truthy_list (a ++ old ++ b)) eqn:T; [|destruct (a ++ old ++ b); [intros z []|discriminate T]]. cbn [negb] in H. unfold parse_external_document_refs in H. cbn [jiter bind] in H.
    intros z I. destruct (external_document_refs_loop (a ++ old ++ b)) as [[log r]|e] eqn:L; cbn [bind] in H.
    - destruct log; [|discriminate H]. exact (refs_loop_ok _ _ L z I).
    - rewrite (refs_noisy _ _ L) in H. discriminate H. }
  unfold parse_field. cbn [jtruthy]. rewrite truthy_mid. cbn [negb]. unfold parse_external_document_refs. cbn [jiter bind].
  destruct (refs_loop_mid a b w m) as (r & ->); [|exact W|reflexivity]. intros z I. apply K. rewrite !in_app_iff in *. tauto.
Qed.
Lemma reference_mistake kvs kvs' w v m r : parse_creation_info (JObj kvs) = Ok r -> OneOf $"externalDocumentRefs" kvs w v -> Changed $"externalDocumentRefs" v kvs kvs' -> WrongDocumentRef w m ->
  parse_creation_info (JObj kvs') = Raise (EParsing [parsing $"Document" m]).
Proof.
  intros R (pre & old & post & X & ->) [V C] W. unfold parse_creation_info in R. cbn [jget jget_default bind] in R. unfold parse_creation_info. cbn [jget jget_default bind].
  rewrite V. same C kvs'. rewrite X in R. destruct (assoc $"creationInfo" kvs) as [ci|]; [|discriminate R]. destruct ci; try discriminate R. walk R. apply bind_Ok in R as ([] & N & _). apply named_ok in N. empty_logs N.
  match goal with E : parse_field _ parse_external_document_refs = Ok ([], _) |- _ => pose proof (refs_error _ _ _ _ _ _ E W) end. cbn [jget jget_default bind]. again. reflexivity.
Qed.
Ltac rest_same C kvs' := unfold parse_all_annotations, parse_all_relationships; cbn [annotations_loop jget jget_default bind]; same C kvs'; reflexivity.
Lemma annotations_key key v kvs kvs' : In key [$"creationInfo"; $"externalDocumentRefs"; $"relationships"] -> Changed key v kvs kvs' -> parse_all_annotations (JObj kvs') = parse_all_annotations (JObj kvs).
Proof. intros I [_ C]. repeat (destruct I as [<-|I]; [rest_same C kvs'|]). destruct I. Qed.
Lemma relationships_key key v kvs kvs' : In key [$"creationInfo"; $"externalDocumentRefs"; $"annotations"] -> Changed key v kvs kvs' -> parse_all_relationships (JObj kvs') = parse_all_relationships (JObj kvs).
Proof. intros I [_ C]. repeat (destruct I as [<-|I]; [rest_same C kvs'|]). destruct I. Qed.
Lemma creation_top key v w kvs kvs' d m : In key [$"creationInfo"; $"externalDocumentRefs"] -> assoc key kvs = Some w -> Changed key v kvs kvs' -> parse_dict O (JObj kvs) = Ok d -> parse_creation_info (JObj kvs') = Raise (EParsing [m]) ->
  parse_dict O (JObj kvs') = Raise (EParsing [m]).
Proof.
  intros I K X H E'. pose proof X as [V C].
  assert (A : parse_all_annotations (JObj kvs') = parse_all_annotations (JObj kvs)) by (apply (annotations_key key v); [cbn in I |- *; tauto|exact X]).
  assert (B : parse_all_relationships (JObj kvs') = parse_all_relationships (JObj kvs)) by (apply (relationships_key key v); [cbn in I |- *; tauto|exact X]).
  unfold parse_dict in H |- *. rewrite <- (top_same true _ _ _ A (truthy_both _ _ _ _ _ K V)) in H. rewrite <- (top_same true _ _ _ B (truthy_both _ _ _ _ _ K V)) in H.
  walk_top H. apply bind_Ok in H as ([] & N & _). apply if_ok in N. empty_logs N.
  assert (Z : top_field false (JObj kvs') parse_creation_info = Ok ([m], None)) by (unfold top_field; cbn [andb]; rewrite E'; reflexivity).
  cbn [jget jget_default bind]. destruct I as [<-|[<-|[]]]; clear K V; same C kvs'; clear E; top_again; reflexivity.
Qed.
Theorem in_creation_info kvs kvs' d c c' k v m : parse_dict O (JObj kvs) = Ok d -> assoc $"creationInfo" kvs = Some (JObj c) -> Changed k v c c' -> Changed $"creationInfo" (JObj c') kvs kvs' -> CreationMistake c k v m ->
  parse_dict O (JObj kvs') = Raise (EParsing [parsing $"Document" m]).
Proof.
  intros H K Cc X M. pose proof (no_partial_document O kvs d H) as (E & _). apply (creation_top _ _ _ _ _ d _ (or_introl eq_refl) K X H). exact (creation_mistake kvs kvs' c c' k v m _ E K Cc X M).
Qed.
Theorem in_document_reference kvs kvs' d w v m : parse_dict O (JObj kvs) = Ok d -> OneOf $"externalDocumentRefs" kvs w v -> Changed $"externalDocumentRefs" v kvs kvs' -> WrongDocumentRef w m ->
  parse_dict O (JObj kvs') = Raise (EParsing [parsing $"Document" m]).
Proof.
  intros H Y X M. pose proof (no_partial_document O kvs d H) as (E & _). pose proof Y as (a & old & b & K & _). apply (creation_top _ _ _ _ _ d _ (or_intror (or_introl eq_refl)) K X H). exact (reference_mistake kvs kvs' w v m _ E Y X M).
Qed.
(** several creators are wrong *)
Lemma all_wrong ws ms : Forall2 WrongActor ws ms -> ws <> [] -> parse_field_list (JArr ws) j_actor = Ok (ms, None).
Proof.
  intros F N. assert (P : parse_elements (quiet j_actor) ws = Ok (ms, [])).
  { clear N. induction F as [|w m ws ms W F IH]; [reflexivity|]. apply wrong_actor in W as [W _]. cbn [parse_elements quiet]. rewrite W. cbn [caught]. rewrite IH. reflexivity. }
  unfold parse_field_list, parse_field. destruct ws as [|w ws]; [congruence|]. cbn [jtruthy truthy_list negb]. unfold parse_list_of_elements, parse_list_of_elements_log. cbn [jiter bind]. rewrite P. inversion F; subst. reflexivity.
Qed.
Theorem in_creators kvs kvs' d c c' ws ms : parse_dict O (JObj kvs) = Ok d -> assoc $"creationInfo" kvs = Some (JObj c) -> Changed $"creators" (JArr ws) c c' -> Changed $"creationInfo" (JObj c') kvs kvs' ->
  Forall2 WrongActor ws ms -> ws <> [] -> parse_dict O (JObj kvs') = Raise (EParsing [$"Error while parsing Document: [" ++ join $", " (map repr_str ms) ++ $"]"]).
Proof.
  intros H K [Vc Cc] X F N. pose proof (no_partial_document O kvs d H) as (R & _). apply (creation_top _ _ _ _ _ d _ (or_introl eq_refl) K X H). destruct X as [V C]. pose proof (all_wrong ws ms F N) as W.
  unfold parse_creation_info in R. cbn [jget jget_default bind] in R. rewrite K in R. walk R. apply bind_Ok in R as ([] & Nl & _). apply named_ok in Nl. empty_logs Nl.
  unfold parse_creation_info. cbn [jget jget_default bind]. rewrite V. cbn [jget jget_default bind]. same C kvs'. rewrite Vc; same Cc c'; again.
  rewrite !app_nil_r. inversion F as [|w m ws0 ms0]; [congruence|]. reflexivity.
Qed.
End WithOracles.
