(** C74: mistakes in relationships, annotations and references of packages. *)
From Verif Require Import Py PyFacts Data Oracles Basics ValidationSpec BasicsSpec BasicsFacts Json Construct JsonParse JsonSpec JsonFacts JsonErrors JsonRead JsonRead2 JsonRead4 JsonReportSpec JsonReport JsonReport2 JsonReport3.

Section WithOracles.
Variable O : oracles.

(** ** Relationships *)
Lemma implicit_any origin ty ex ex' t : ty = RT_DESCRIBES \/ ty = RT_CONTAINS -> forall r, implicit_loop origin ty ex t = Ok ([], r) -> exists r', implicit_loop origin ty ex' t = Ok ([], r').
Proof.
  intro Ht. induction t as [|x t IH]; intros r H; cbn [implicit_loop] in *; [eauto|].
  destruct (implicit_relationship origin ty x) as [rel|e] eqn:E.
  - destruct (check_if_relationship_exists rel ex) as [b|]; [|discriminate H]. cbn [bind] in H. destruct (implicit_loop origin ty ex t) as [[log r0]|]; [|discriminate H]. cbn [bind] in H. injection H as -> _.
    destruct (IH _ eq_refl) as (r' & ->). assert (K : exists b', check_if_relationship_exists rel ex' = Ok b').
    { unfold check_if_relationship_exists. destruct (rel_in rel ex'); [eauto|]. unfold implicit_relationship in E. destruct origin; try discriminate E; destruct x; try discriminate E. injection E as <-.
      destruct Ht as [->| ->]; cbn [invert_relationship invert_type re_type re_related bind]; eauto. }
    destruct K as (b' & ->). cbn [bind]. eauto.
  - destruct e; try discriminate H. destruct (implicit_loop origin ty ex t) as [[log r0]|]; [|discriminate H]. discriminate H.
Qed.
Lemma has_files_any ex ex' l : forall r, has_files_loop ex l = Ok ([], r) -> exists r', has_files_loop ex' l = Ok ([], r').
Proof.
  induction l as [|x l IH]; intros r H; cbn [has_files_loop] in *; [eauto|].
  destruct (jget $"SPDXID" x) as [i|]; [|discriminate H]. cbn [bind] in *. destruct (jget_default $"hasFiles" (JArr []) x) as [fj|]; [|discriminate H]. cbn [bind] in *.
  destruct (delete_duplicates_from_list fj) as [fs|]; [|discriminate H]. cbn [bind] in *. destruct (implicit_loop i RT_CONTAINS ex fs) as [[log r0]|] eqn:E; [|discriminate H]. cbn [bind] in H.
  destruct (has_files_loop ex l) as [[log' r1]|]; [|discriminate H]. cbn [bind] in H. injection H as H _. apply app_eq_nil in H as [-> ->]. destruct (implicit_any i RT_CONTAINS ex ex' fs (or_intror eq_refl) _ E) as (r' & ->).
  destruct (IH _ eq_refl) as (r'' & ->). cbn [bind]. eauto.
Qed.
Lemma field_quiet {A} j (f : json -> result A) y : Noisy (f j) -> parse_field j f = Ok ([], y) -> jtruthy j = false \/ exists r, f j = Ok r.
Proof.
  intros N H. unfold parse_field in H. destruct (jtruthy j); [|auto]. right. cbn [negb] in H. destruct (f j) as [a|e]; [eauto|]. pose proof (N e eq_refl) as K. destruct (caught e); [|discriminate H]. injection H as -> _. congruence.
Qed.
Lemma field_again {A} j (f g : json -> result A) y : parse_field j f = Ok ([], y) -> Noisy (f j) -> (forall r, f j = Ok r -> exists r', g j = Ok r') -> exists y', parse_field j g = Ok ([], y').
Proof.
  intros H N K. unfold parse_field at 1. destruct (field_quiet j f y N H) as [->|(r & E)]; [cbn [negb]; eauto|]. destruct (K r E) as (r' & ->). destruct (jtruthy j); cbn [negb]; eauto.
Qed.
Lemma relationship_mistake old new v m : Changed $"relationshipType" v old new -> WrongName rel_type_name $"RelationshipType" v m -> parse_relationship (JObj new) = Raise (EParsing [parsing $"Relationship" m]).
Proof.
  intros [V _] (s & -> & N & H & ->). unfold parse_relationship. cbn [jget jget_default bind]. rewrite V.
  rewrite (field_error parse_relationship_type (JStr s) ($"Invalid RelationshipType: " ++ enum_text s)); [reflexivity|]. split; [|destruct s; [congruence|reflexivity]].
  unfold parse_relationship_type, json_str_to_enum_name. cbn [bind]. rewrite lookup_none by exact H. reflexivity.
Qed.
Lemma relationships_mistake kvs kvs' v old m r : parse_all_relationships (JObj kvs) = Ok r -> ChangedIn $"relationships" $"relationshipType" v old kvs kvs' -> WrongName rel_type_name $"RelationshipType" v m ->
  parse_all_relationships (JObj kvs') = Raise (EParsing [parsing $"Relationship" m]).
Proof.
  intros R (a & new & b & K & Cn & [V C]) W. unfold parse_all_relationships in R |- *. cbn [jget jget_default bind] in R |- *. rewrite V. same C kvs'. rewrite K in R.
  destruct (parse_field_list (JArr (a ++ JObj old :: b)) parse_relationship) as [[l1 r1]|] eqn:E1; [|discriminate R]. cbn [bind] in R.
  match type of R with bind ?d _ = _ => destruct d as [describes|]; [|discriminate R] end. cbn [bind] in R |- *.
  match type of R with bind ?d _ = _ => destruct d as [[l2 r2]|] eqn:E2; [|discriminate R] end. cbn [bind] in R.
  match type of R with bind ?d _ = _ => destruct d as [[l3 r3]|] eqn:E3; [|discriminate R] end. cbn [bind] in R. apply bind_Ok in R as ([] & N & _). apply if_ok in N. empty_logs N.
  rewrite (field_list_error parse_relationship a [JObj old] b (JObj new) _ _ E1 (relationship_mistake old new v m Cn W)). cbn [bind opt_list app].
  edestruct (field_again _ _ (fun _ => parse_document_describes match assoc $"SPDXID" kvs with Some v => v | None => JNull end (get_all_relationships_without_comments []) describes) _ E2 ltac:(apply noisy_describes)) as (y2 & Y2).
  { cbv beta. unfold parse_document_describes. intros r0 Hr. destruct (implicit_loop _ RT_DESCRIBES _ describes) as [[log rr]|] eqn:L in Hr; [|discriminate Hr]. cbn [bind] in Hr. destruct log; [|discriminate Hr].
    destruct (implicit_any _ RT_DESCRIBES _ (get_all_relationships_without_comments []) describes (or_introl eq_refl) _ L) as (r' & ->). cbn [bind raise_if_named]. eauto. }
  rewrite Y2. cbn [bind].
  edestruct (field_again _ _ (parse_has_files (get_all_relationships_without_comments (opt_list y2))) _ E3 ltac:(apply noisy_has_files)) as (y3 & Y3).
  { unfold parse_has_files. intros r0 Hr. destruct (jiter _) as [ps|] in Hr |- *; [|discriminate Hr]. cbn [bind] in Hr |- *. destruct (has_files_loop _ ps) as [[log rr]|] eqn:L in Hr; [|discriminate Hr]. cbn [bind] in Hr. destruct log; [|discriminate Hr].
    destruct (has_files_any _ (get_all_relationships_without_comments (opt_list y2)) ps _ L) as (r' & ->). cbn [bind raise_if_named]. eauto. }
  rewrite Y3. reflexivity.
Qed.
Theorem in_relationship kvs kvs' d v old m : parse_dict O (JObj kvs) = Ok d -> ChangedIn $"relationships" $"relationshipType" v old kvs kvs' -> WrongName rel_type_name $"RelationshipType" v m ->
  parse_dict O (JObj kvs') = Raise (EParsing [parsing $"Relationship" m]).
Proof.
  intros H X W. pose proof (no_partial_document O kvs d H) as (_ & _ & R & _). pose proof (relationships_mistake kvs kvs' v old m _ R X W) as E'. destruct X as (a & new & b & K & _ & X). pose proof X as [V C].
  assert (I : In $"relationships" [$"packages"; $"files"; $"snippets"; $"hasExtractedLicensingInfos"; $"relationships"]) by (cbn; auto 6).
  assert (A : parse_all_annotations (JObj kvs') = parse_all_annotations (JObj kvs)) by (eapply (annotations_key $"relationships"); [cbn; tauto|exact X]).
  unfold parse_dict in H |- *. rewrite <- (top_same true _ _ _ A (truthy_both _ _ _ _ _ K V)) in H. rewrite <- (top_same false _ _ _ (creation_same $"relationships" _ kvs kvs' I X) (truthy_both _ _ _ _ _ K V)) in H.
  walk_top H. apply bind_Ok in H as ([] & N & _). apply if_ok in N. empty_logs N.
  assert (Z : top_field true (JObj kvs') parse_all_relationships = Ok ([parsing $"Relationship" m], None)) by (unfold top_field; cbn [andb jtruthy]; rewrite (assoc_truthy _ _ _ V); cbn [negb]; rewrite E'; reflexivity).
  cbn [jget jget_default bind]. same C kvs'. top_again. reflexivity.
Qed.
End WithOracles.
