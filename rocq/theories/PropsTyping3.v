(** Property theorems: the constructors of the SPDX 3 model (C65). *)
From Verif Require Import Py Data Typing Typing3 Typing3Spec.
From Verif Require Samples Typing3Facts Typing3More.
Import Typing3More.

(** ** C65 *)
(** A constructor called with keyword arguments has exactly two outcomes: an instance that holds the given values and the defaults in all its
    fields, own and inherited; or one error that lists only fields with values of wrong types, each once, among them all those whose types
    have no lists and dictionaries. *)
Theorem C65_outcome :
  forall (d : decl) (ps : list param3) (kwargs : list (pystr * pyval)) (rs : nat -> choice),
  In d classes3 -> d_init d = Some ps -> WellCalled3 ps kwargs ->
  (exists i, new3 classes3 rs (d_name d) kwargs = Ok (VObj (d_name d) i) /\ Holds classes3 d ps kwargs i
     /\ forall f h, scalar3 h -> ~ IllTyped3 classes3 d ps kwargs f h)
  \/ (exists l, new3 classes3 rs (d_name d) kwargs = Raise (EConstructor (map (setter_message (d_name d)) l)) /\ l <> [] /\ NoDup l
        /\ (forall f, In f l -> exists h, IllTyped3 classes3 d ps kwargs f h)
        /\ (forall f h, scalar3 h -> IllTyped3 classes3 d ps kwargs f h -> In f l)).
Proof. exact (fun d ps kwargs rs I HP => Typing3Facts.outcome3 classes3 names3 wf_classes3 d ps kwargs I HP rs). Qed.
Print Assumptions C65_outcome.
(** Well-typed arguments are always accepted, instances of subclasses included. *)
Theorem C65_well_typed :
  forall (d : decl) (ps : list param3) (kwargs : list (pystr * pyval)) (rs : nat -> choice),
  In d classes3 -> d_init d = Some ps -> WellCalled3 ps kwargs -> (forall f h, ~ IllTyped3 classes3 d ps kwargs f h) ->
  exists i, new3 classes3 rs (d_name d) kwargs = Ok (VObj (d_name d) i) /\ Holds classes3 d ps kwargs i.
Proof. exact (fun d ps kwargs rs I HP => Typing3Facts.created3 classes3 names3 wf_classes3 d ps kwargs I HP rs). Qed.
Print Assumptions C65_well_typed.
(** A call with an unknown keyword or without a required argument makes nothing, ... *)
Theorem C65_ill_called :
  forall (rs : nat -> choice) (d : decl) (ps : list param3) (kwargs : list (pystr * pyval)),
  In d classes3 -> d_init d = Some ps -> ~ WellCalled3 ps kwargs -> exists m, new3 classes3 rs (d_name d) kwargs = Raise (EType m).
Proof. exact (Typing3Facts.ill_called3 classes3 names3). Qed.
Print Assumptions C65_ill_called.
(** ... and neither does any call of an abstract class. *)
Theorem C65_abstract :
  forall (rs : nat -> choice) (d : decl) (kwargs : list (pystr * pyval)),
  In d classes3 -> d_init d = None -> exists m, new3 classes3 rs (d_name d) kwargs = Raise (EType m).
Proof. exact (Typing3Facts.abstract3 classes3 names3). Qed.
Print Assumptions C65_abstract.
(** An assignment to a field changes that field only, or raises and changes nothing. *)
Theorem C65_setter :
  forall (d : decl) (r : choice) (f : pystr) (v : pyval) (i i' : instance),
  set_field3 classes3 r (d_name d) (fields_of classes3 (depth classes3) d) f v i = Ok i' ->
  get_field f i' = Ok v /\ forall f', f' <> f -> get_field f' i' = get_field f' i.
Proof. exact (Typing3Facts.setter3 classes3). Qed.
Print Assumptions C65_setter.
(** Whatever is assigned after the construction, the fields whose types have no lists and dictionaries are well-typed. *)
Theorem C65_always_typed :
  forall (d : decl) (ps : list param3) (kwargs : list (pystr * pyval)) (rs : nat -> choice) (i : instance) (ops : list (choice * pystr * pyval))
         (f : pystr) (h : hint3) (v : pyval),
  In d classes3 -> d_init d = Some ps -> WellCalled3 ps kwargs -> new3 classes3 rs (d_name d) kwargs = Ok (VObj (d_name d) i) ->
  Field classes3 d f h -> scalar3 h -> get_field f (assignments3 classes3 d ops i) = Ok v -> Typed3 classes3 h v.
Proof. exact (fun d ps kwargs rs i ops f h v I HP => Typing3Facts.always_typed3 classes3 names3 wf_classes3 d ps kwargs I HP rs i ops f h v). Qed.
Print Assumptions C65_always_typed.
(** Arguments of the types that the signature of the constructor states are accepted, except for assessments of vulnerabilities. *)
Theorem C65_signature :
  forall (rs : nat -> choice) (d : decl) (ps : list param3) (kwargs : list (pystr * pyval)),
  In d classes3 -> ~ In d assessments -> d_init d = Some ps -> WellCalled3 ps kwargs -> FitsSignature classes3 ps kwargs ->
  exists i, new3 classes3 rs (d_name d) kwargs = Ok (VObj (d_name d) i) /\ Holds classes3 d ps kwargs i.
Proof. exact Typing3More.signature3. Qed.
Print Assumptions C65_signature.
(** For assessments of vulnerabilities such arguments are never accepted: the signatures state the relationship types of SPDX 2. *)
Theorem C65_assessments_refuted :
  forall (rs : nat -> choice) (d : decl) (ps : list param3) (kwargs : list (pystr * pyval)),
  In d assessments -> d_init d = Some ps -> WellCalled3 ps kwargs -> FitsSignature classes3 ps kwargs ->
  exists l, new3 classes3 rs (d_name d) kwargs = Raise (EConstructor (map (setter_message (d_name d)) l)) /\ In $"relationship_type" l.
Proof. exact Typing3More.assessments_fail. Qed.
Print Assumptions C65_assessments_refuted.

(** ** Cases *)
Definition first_items : nat -> choice := fun _ => {| ch_list := 0; ch_dict := None |}.
Definition a_hash : pyval := VObj $"Hash" [].
(** a file of a package, with a hash, which is an integrity method *)
Definition C65_file : list (pystr * pyval) :=
  [($"spdx_id", VStr $"https://e.org/f"); ($"name", VStr $"f"); ($"verified_using", VList [a_hash]); ($"built_time", VDatetime Samples.sample_date)].
Ltac called := split; [intros k H; cbn in H; repeat (destruct H as [<-|H]; [vm_compute; tauto|]); destruct H
                      |intros p H D; cbn in H; repeat (destruct H as [<-|H]; [first [discriminate D|vm_compute; tauto]|]); destruct H].
Definition params_of (d : decl) : list param3 := match d_init d with Some ps => ps | None => [] end.
Lemma C65_file_called : WellCalled3 (params_of D_File) C65_file.
Proof. called. Qed.
Example C65_sample : In D_File classes3 /\ ~ In D_File assessments /\ d_init D_File = Some (params_of D_File) /\ WellCalled3 (params_of D_File) C65_file
  /\ FitsSignature classes3 (params_of D_File) C65_file.
Proof.
  split; [unfold classes3; cbn [In]; tauto|]. split.
  { intro H. apply (in_map d_name) in H. assert (B : str_in (d_name D_File) (map d_name assessments) = false) by (vm_compute; reflexivity).
    apply PyFacts.str_in_In in H. congruence. }
  split; [reflexivity|]. split; [exact C65_file_called|].
  intros p v H A. cbn in H. repeat (destruct H as [<-|H]; [vm_compute in A; first [discriminate A|injection A as <-; cbn [p_hint req opt lst Typed3]]|]); try destruct H; eauto.
  left. eexists. split; [reflexivity|]. constructor; [|constructor]. exists $"Hash", []. split; [reflexivity|].
  exact (dr_base classes3 D_Hash $"IntegrityMethod" $"IntegrityMethod" ltac:(unfold classes3; cbn [In]; tauto) eq_refl (dr_same _ _)).
Qed.
(** two wrong values, one of an own field and one of an inherited field *)
Example C65_sample_wrong : WellCalled3 (params_of D_File) [($"spdx_id", VInt 1); ($"name", VStr $"f"); ($"content_type", VBool true)]
  /\ forall rs, new3 classes3 rs $"File" [($"spdx_id", VInt 1); ($"name", VStr $"f"); ($"content_type", VBool true)]
                = Raise (EConstructor (map (setter_message $"File") [$"spdx_id"; $"content_type"])).
Proof. split; [called|]. intro rs. vm_compute. reflexivity. Qed.
Example C65_sample_abstract : In D_Element classes3 /\ d_init D_Element = None /\ In D_License classes3 /\ d_init D_License = None.
Proof. unfold classes3. cbn [In]. repeat split; tauto. Qed.
(** None is accepted for the name of a file, although the signature requires a text: the field is inherited as an optional one. *)
Theorem C65_required_refuted :
  exists rs kwargs i, assoc $"name" kwargs = Some VNone /\ ~ FitsSignature classes3 (params_of D_File) kwargs
    /\ new3 classes3 rs $"File" kwargs = Ok (VObj $"File" i).
Proof.
  assert (T : match new3 classes3 first_items $"File" [($"spdx_id", VStr $"a"); ($"name", VNone)] with Ok (VObj c _) => str_eqb c $"File" | _ => false end = true)
    by (vm_compute; reflexivity).
  destruct (new3 classes3 first_items $"File" [($"spdx_id", VStr $"a"); ($"name", VNone)]) as [v|] eqn:E; [|discriminate]. destruct v; try discriminate.
  apply PyFacts.str_eqb_eq in T. subst cls. exists first_items, [($"spdx_id", VStr $"a"); ($"name", VNone)], fields. split; [reflexivity|]. split; [|exact E].
  intro F. specialize (F (req $"name" TStr) VNone (or_intror (or_introl eq_refl)) eq_refl). destruct F as (s & F). discriminate F.
Qed.
Print Assumptions C65_required_refuted.
(** an assessment whose arguments fit the signature *)
Definition C65_vex : list (pystr * pyval) :=
  [($"spdx_id", VStr $"https://e.org/v"); ($"from_element", VStr $"https://e.org/a"); ($"to", VList [VStr $"https://e.org/b"]);
   ($"relationship_type", VObj $"spdx2.RelationshipType" [])].
Example C65_sample_assessment : In D_VexFixedVulnAssessmentRelationship assessments /\ WellCalled3 (params_of D_VexFixedVulnAssessmentRelationship) C65_vex
  /\ FitsSignature classes3 (params_of D_VexFixedVulnAssessmentRelationship) C65_vex
  /\ is_ok (new3 classes3 first_items $"VexFixedVulnAssessmentRelationship" C65_vex) = false
  /\ is_ok (new3 classes3 first_items $"VexFixedVulnAssessmentRelationship" (dict_set $"relationship_type" (VObj $"RelationshipType" []) C65_vex)) = true.
Proof.
  split; [unfold assessments; cbn [In]; tauto|]. split; [called|]. split; [|split; vm_compute; reflexivity].
  intros p v H A. cbn in H. repeat (destruct H as [<-|H]; [vm_compute in A; first [discriminate A|injection A as <-; cbn [p_hint req opt lst Typed3]]|]); try destruct H; eauto.
  do 2 eexists. split; [reflexivity|constructor].
Qed.
(** a wrong item of a list, or of a dictionary, may be accepted *)
Theorem C65_items_refuted :
  exists rs kwargs f h i, WellCalled3 (params_of D_Build) kwargs /\ IllTyped3 classes3 D_Build (params_of D_Build) kwargs f h
    /\ new3 classes3 rs $"Build" kwargs = Ok (VObj $"Build" i).
Proof.
  set (kw := [($"spdx_id", VStr $"a"); ($"build_type", VStr $"b"); ($"parameters", VDict [(VStr $"k", VInt 1)])]).
  assert (T : match new3 classes3 first_items $"Build" kw with Ok (VObj c _) => str_eqb c $"Build" | _ => false end = true) by (vm_compute; reflexivity).
  destruct (new3 classes3 first_items $"Build" kw) as [v|] eqn:E; [|discriminate]. destruct v; try discriminate. apply PyFacts.str_eqb_eq in T. subst cls.
  exists first_items, kw, $"parameters", (TDict TStr TStr), fields. split; [unfold kw; called|]. split; [|exact E]. split; [apply fd_own; cbn; tauto|].
  exists (VDict [(VStr $"k", VInt 1)]). split; [exists (dct $"parameters" (TDict TStr TStr)); split; [cbn; tauto|split; [reflexivity|vm_compute; reflexivity]]|].
  intros (l & El & F). injection El as <-. apply Forall_inv in F. cbn in F. destruct F as [_ (s & F)]. discriminate F.
Qed.
Print Assumptions C65_items_refuted.
