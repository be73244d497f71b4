(** The checks in the model of the JSON parsers are those of the type-checked constructors. *)
From Verif Require Import Py PyFacts Data Oracles Basics Json Construct JsonParse JsonSpec JsonReadSpec JsonRead Typing TypingSpec TypingFacts.

Definition errs {A} (c : chk A) : list pystr := match c with COk _ => [] | CErr m => m end.
Definition honest {A} (c : chk A) : Prop := match c with COk _ => True | CErr m => m <> [] end.
Lemma honest_ap {A B} (f : chk (A -> B)) x : honest f -> honest x -> honest (f <*> x).
Proof. destruct f, x; cbn; auto. intros H _ E. apply app_eq_nil in E. tauto. Qed.
Lemma errs_ap {A B} (f : chk (A -> B)) x : errs (f <*> x) = errs f ++ errs x.
Proof. destruct f, x; cbn; auto. rewrite app_nil_r. reflexivity. Qed.
Lemma construct_errs {A} cls (c : chk A) : honest c -> match errs c with [] => exists a, construct cls c = Ok a | ms => construct cls c = Raise (EParsing [$"Error while constructing " ++ cls ++ $": " ++ show_list ms]) end.
Proof. destruct c as [a|m]; cbn; [eauto|]. destruct m; [contradiction|reflexivity]. Qed.

(** one field: a value that is fine, or the message of the setter *)
Definition field_agrees {A} (r : nat) (h : hint) (cls fld : pystr) (c : chk A) (v : pyval) : Prop :=
  honest c /\ errs c = if accepts r h v then [] else [setter_message cls fld].
Lemma agrees_str r cls fld j : field_agrees r HStr cls fld (c_str cls fld j) (py j).
Proof. destruct j; split; cbn; try reflexivity; discriminate. Qed.
Lemma agrees_opt_str r cls fld j : field_agrees r (opt HStr) cls fld (c_opt_str cls fld j) (py j).
Proof. destruct j; split; cbn; try reflexivity; discriminate. Qed.
Lemma agrees_bool r cls fld j : field_agrees r HBool cls fld (c_bool cls fld j) (py j).
Proof. destruct j; split; cbn; try reflexivity; discriminate. Qed.
Lemma agrees_nn r h cls fld j : h = str_or_nn \/ h = HOr HStr (HOr NONE NA) -> field_agrees r h cls fld (c_nn cls fld (field_or_nn j)) (py_or_nn j).
Proof.
  intro H. assert (E : accepts r h (py_or_nn j) = accepts r str_or_nn (py_or_nn j)).
  { destruct H as [->| ->]; [reflexivity|]. unfold str_or_nn. cbn [accepts]. f_equal. apply orb_comm. }
  unfold field_agrees. rewrite E. clear H E. unfold field_or_nn, py_or_nn, jis. destruct j as [| | | |s| |]; try (split; cbn; [discriminate|reflexivity]).
  destruct (str_eqb s $"NOASSERTION") eqn:E1; [split; [exact I|reflexivity]|]. destruct (str_eqb s $"NONE") eqn:E2; split; cbn; auto.
Qed.
Lemma agrees_opt_nn r cls fld j : field_agrees r (opt str_or_nn) cls fld (c_opt_nn cls fld (field_or_nn j)) (py_or_nn j).
Proof.
  unfold field_or_nn, py_or_nn, jis. destruct j as [| | | |s| |]; try (split; cbn; [first [discriminate|exact I]|reflexivity]).
  destruct (str_eqb s $"NOASSERTION") eqn:E1; [split; [exact I|reflexivity]|]. destruct (str_eqb s $"NONE") eqn:E2; split; cbn; auto.
Qed.
Lemma agrees_opt_na r cls fld j : field_agrees r (opt (HOr HStr NA)) cls fld (c_opt_na cls fld (field_or_na j)) (py_or_na j).
Proof.
  unfold field_or_na, py_or_na, jis. destruct j as [| | | |s| |]; try (split; cbn; [first [discriminate|exact I]|reflexivity]).
  destruct (str_eqb s $"NOASSERTION") eqn:E1; split; cbn; auto.
Qed.
Lemma all_some_str l : all_some (map j_str l) = None <-> exists k x, nth_error l k = Some x /\ j_str x = None.
Proof.
  induction l as [|x l IH]; cbn [map all_some].
  - split; [discriminate|]. intros (k & x & H & _). destruct k; discriminate.
  - destruct (j_str x) eqn:E.
    + destruct (all_some (map j_str l)) eqn:A.
      * split; [discriminate|]. intros (k & y & H & N). destruct k as [|k]; cbn in H; [congruence|]. assert (None <> Some l0) by discriminate. exfalso. apply H0. symmetry. apply IH. eauto.
      * split; auto. intros _. destruct (proj1 IH eq_refl) as (k & y & H & N). exists (S k), y. auto.
    + split; auto. intros _. exists 0%nat, x. auto.
Qed.
(** for lists of texts the parsers' model is the run in which the ill-typed item is the one that is looked at *)
Definition empty_if_none (v : pyval) : pyval := match v with VNone => VList [] | _ => v end.
Lemma agrees_strs cls fld j : exists r, field_agrees r (HList HStr) cls fld (c_strs cls fld j) (empty_if_none (py j)).
Proof.
  destruct j as [| | | |s|l|kvs]; try (exists 0%nat; split; cbn; [first [discriminate|exact I]|reflexivity]). cbn [c_strs py empty_if_none]. destruct (all_some (map j_str l)) as [ss|] eqn:A.
  - exists 0%nat. split; [exact I|]. cbn [errs]. assert (T : Typed (HList HStr) (VList (map py l))).
    { exists (map py l). split; [reflexivity|]. rewrite Forall_forall. intros v I. apply in_map_iff in I as (x & <- & I). destruct (j_str x) as [s|] eqn:E.
      - destruct x; try discriminate. cbn. eauto.
      - apply In_nth_error in I as (k & K). assert (X : all_some (map j_str l) = None) by (apply all_some_str; eauto). congruence. }
    rewrite (typed_accepts _ _ T). reflexivity.
  - apply all_some_str in A as (k & x & K & N). exists k. split; [discriminate|]. cbn [errs bad]. assert (L : (k < List.length (map py l))%nat) by (rewrite map_length; apply nth_error_Some; congruence).
    assert (E : accepts k (HList HStr) (VList (map py l)) = false); [|rewrite E; reflexivity].
    assert (M : nth_error (map py l) k = Some (py x)) by (apply map_nth_error; exact K). cbn [accepts]. destruct (map py l) as [|y m]; [inversion L|]. rewrite Nat.mod_small by exact L.
    apply nth_error_nth with (d := y) in M. rewrite M. destruct x; try reflexivity. discriminate.
Qed.
(** ** Entries *)
Lemma new_rel rs a t b c : exists i, new rs Relationship [($"spdx_element_id", a); ($"relationship_type", t); ($"related_spdx_element_id", b); ($"comment", c)] =
  match (if accepts (rs 0%nat) HStr a then [] else [setter_message $"Relationship" $"spdx_element_id"])
     ++ (if accepts (rs 1%nat) (HClass $"RelationshipType") t then [] else [setter_message $"Relationship" $"relationship_type"])
     ++ (if accepts (rs 2%nat) (HOr HStr (HOr NONE NA)) b then [] else [setter_message $"Relationship" $"related_spdx_element_id"])
     ++ (if accepts (rs 3%nat) (opt HStr) c then [] else [setter_message $"Relationship" $"comment"]) with
  | [] => Ok i | ms => Raise (EConstructor ms) end.
Proof.
  eexists. rewrite outcome.
  2: { unfold model_classes. do 11 right. left. reflexivity. }
  2: { split; [|vm_compute]; [intros k I; exact I|]. intros p [<-|[<-|[<-|[<-|[]]]]]; cbn; try discriminate; intros _; auto. }
  unfold rejected. cbn [cl_fields cl_params Relationship List.length seq combine flat_map].
  assert (V1 : value_of (required $"spdx_element_id") [($"spdx_element_id", a); ($"relationship_type", t); ($"related_spdx_element_id", b); ($"comment", c)] = a) by (lazy; destruct a; reflexivity).
  assert (V2 : value_of (required $"relationship_type") [($"spdx_element_id", a); ($"relationship_type", t); ($"related_spdx_element_id", b); ($"comment", c)] = t) by (lazy; destruct t; reflexivity).
  assert (V3 : value_of (required $"related_spdx_element_id") [($"spdx_element_id", a); ($"relationship_type", t); ($"related_spdx_element_id", b); ($"comment", c)] = b) by (lazy; destruct b; reflexivity).
  assert (V4 : value_of (optional $"comment") [($"spdx_element_id", a); ($"relationship_type", t); ($"related_spdx_element_id", b); ($"comment", c)] = c) by (lazy; destruct c; reflexivity).
  rewrite V1, V2, V3, V4. change (cl_name Relationship) with $"Relationship".
  destruct (accepts (rs 0%nat) HStr a), (accepts (rs 1%nat) (HClass $"RelationshipType") t), (accepts (rs 2%nat) (HOr HStr (HOr NONE NA)) b), (accepts (rs 3%nat) (opt HStr) c); cbn [app map]; reflexivity.
Qed.
Theorem relationship_entry rs kvs t :
  enum_lookup rel_type_all rel_type_name (upper (replace $"-" $"_" t)) <> None -> t <> [] -> value_at $"relationshipType" kvs = JStr t ->
  match new rs Relationship [($"spdx_element_id", py (value_at $"spdxElementId" kvs)); ($"relationship_type", VObj $"RelationshipType" []);
                             ($"related_spdx_element_id", py_or_nn (value_at $"relatedSpdxElement" kvs)); ($"comment", py (value_at $"comment" kvs))] with
  | Ok _ => exists r, parse_relationship (JObj kvs) = Ok r
  | Raise (EConstructor ms) => parse_relationship (JObj kvs) = Raise (EParsing [$"Error while constructing Relationship: " ++ show_list ms])
  | Raise _ => False
  end.
Proof.
  intros K NE VT. destruct (new_rel rs (py (value_at $"spdxElementId" kvs)) (VObj $"RelationshipType" []) (py_or_nn (value_at $"relatedSpdxElement" kvs)) (py (value_at $"comment" kvs))) as (i & ->).
  unfold parse_relationship. rewrite !jget_at. cbn [bind]. rewrite VT. unfold parse_field. cbn [jtruthy]. destruct t as [|c0 t]; [contradiction|]. cbn [truthy_list negb].
  unfold parse_relationship_type, json_str_to_enum_name. cbn [bind]. destruct (enum_lookup rel_type_all rel_type_name (upper (replace $"-" $"_" (c0 :: t)))) as [ty|]; [|contradiction]. cbn [bind raise_if_named].
  change (accepts (rs 1%nat) (HClass $"RelationshipType") (VObj $"RelationshipType" [])) with true. cbn iota.
  destruct (agrees_str (rs 0%nat) $"Relationship" $"spdx_element_id" (value_at $"spdxElementId" kvs)) as [H1 E1].
  destruct (agrees_nn (rs 2%nat) (HOr HStr (HOr NONE NA)) $"Relationship" $"related_spdx_element_id" (value_at $"relatedSpdxElement" kvs) (or_intror eq_refl)) as [H2 E2].
  destruct (agrees_opt_str (rs 3%nat) $"Relationship" $"comment" (value_at $"comment" kvs)) as [H3 E3].
  rewrite <- E1, <- E2, <- E3. cbv zeta.
  assert (G := construct_errs $"Relationship" (COk Build_relationship <*> c_str $"Relationship" $"spdx_element_id" (value_at $"spdxElementId" kvs) <*> c_req $"Relationship" $"relationship_type" (Some ty)
    <*> c_nn $"Relationship" $"related_spdx_element_id" (field_or_nn (value_at $"relatedSpdxElement" kvs)) <*> c_opt_str $"Relationship" $"comment" (value_at $"comment" kvs))).
  rewrite !errs_ap in G. cbn [errs c_req app] in G. rewrite app_nil_r, <- app_assoc in G. cbn [app].
  destruct (errs (c_str $"Relationship" $"spdx_element_id" (value_at $"spdxElementId" kvs)) ++ errs (c_nn $"Relationship" $"related_spdx_element_id" (field_or_nn (value_at $"relatedSpdxElement" kvs))) ++ errs (c_opt_str $"Relationship" $"comment" (value_at $"comment" kvs))); apply G; repeat apply honest_ap; try assumption; exact I.
Qed.
