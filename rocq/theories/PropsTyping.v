(** Property theorems: type-checked constructors (C36). *)
From Verif Require Import Py Data Json JsonParse Construct JsonReadSpec Typing TypingSpec.
From Verif Require TypingFacts TypingJson.

(** ** C36 *)
(** A constructor called with keyword arguments has exactly two outcomes: an instance with the given values and the
    defaults, or one error that lists every field whose value is rejected, in the order of the fields. *)
Theorem C36_outcome :
  forall (rs : nat -> nat) (c : class) (kwargs : list (pystr * pyval)), In c model_classes -> WellCalled c kwargs ->
  new rs c kwargs =
  match rejected rs c kwargs with
  | [] => Ok (VObj (cl_name c) (map (fun p => (pa_name p, value_of p kwargs)) (cl_params c)))
  | l => Raise (EConstructor (map (setter_message (cl_name c)) l))
  end.
Proof. exact TypingFacts.outcome. Qed.
Print Assumptions C36_outcome.
(** A call with an unknown keyword or without a required argument makes nothing. *)
Theorem C36_ill_called :
  forall (rs : nat -> nat) (c : class) (kwargs : list (pystr * pyval)), ~ WellCalled c kwargs ->
  exists m, new rs c kwargs = Raise (EType m).
Proof. exact TypingFacts.ill_called. Qed.
Print Assumptions C36_ill_called.
Example C36_sample_ill_called : ~ WellCalled Actor [($"name", VStr $"Jane")] /\ ~ WellCalled Actor [($"actor_type", VNone); ($"name", VNone); ($"age", VInt 5)].
Proof.
  split; intros [H1 H2].
  - specialize (H2 (required $"actor_type") (or_introl eq_refl) eq_refl). cbn in H2. destruct H2 as [H2|[]]. discriminate H2.
  - specialize (H1 $"age" (or_intror (or_intror (or_introl eq_refl)))). cbn in H1. intuition discriminate.
Qed.
(** Well-typed arguments are always accepted. *)
Theorem C36_well_typed :
  forall (rs : nat -> nat) (c : class) (kwargs : list (pystr * pyval)), In c model_classes -> WellCalled c kwargs ->
  (forall f, ~ IllTyped c kwargs f) ->
  new rs c kwargs = Ok (VObj (cl_name c) (map (fun p => (pa_name p, value_of p kwargs)) (cl_params c))).
Proof. exact TypingFacts.all_typed. Qed.
Print Assumptions C36_well_typed.
(** Only ill-typed fields are reported. *)
Theorem C36_only_ill_typed :
  forall (rs : nat -> nat) (c : class) (kwargs : list (pystr * pyval)) (f : pystr), In f (rejected rs c kwargs) -> IllTyped c kwargs f.
Proof. exact TypingFacts.only_ill_typed. Qed.
Print Assumptions C36_only_ill_typed.
(** An ill-typed field is reported whatever the type checker looks at, if its type has no lists, ... *)
Theorem C36_ill_typed_reported :
  forall (rs : nat -> nat) (c : class) (kwargs : list (pystr * pyval)) (f : pystr) (h : hint) (p : param), In c model_classes ->
  In ((f, h), p) (combine (cl_fields c) (cl_params c)) -> scalar h -> ~ Typed h (value_of p kwargs) -> In f (rejected rs c kwargs).
Proof. exact TypingFacts.scalar_reported. Qed.
Print Assumptions C36_ill_typed_reported.
(** ... and for a list if the value is no list at all or has only ill-typed items, so if it has one item. *)
Theorem C36_ill_typed_list_reported :
  forall (rs : nat -> nat) (c : class) (kwargs : list (pystr * pyval)) (f : pystr) (a : hint) (p : param), In c model_classes ->
  In ((f, HList a), p) (combine (cl_fields c) (cl_params c)) ->
  (forall l, value_of p kwargs = VList l -> l <> [] /\ Forall (fun x => ~ Typed a x) l) -> In f (rejected rs c kwargs).
Proof. exact TypingFacts.list_reported. Qed.
Print Assumptions C36_ill_typed_list_reported.
(** Every ill-typed field can be reported. *)
Theorem C36_ill_typed_can_be_reported :
  forall (c : class) (kwargs : list (pystr * pyval)) (f : pystr), In c model_classes -> IllTyped c kwargs f ->
  exists rs, In f (rejected rs c kwargs).
Proof. exact TypingFacts.ill_typed_possible. Qed.
Print Assumptions C36_ill_typed_can_be_reported.
(** But a list with some ill-typed items may be accepted: the claim as users rely on it is false. *)
Theorem C36_list_items_refuted :
  exists rs kwargs f i, WellCalled PackageVerificationCode kwargs /\ IllTyped PackageVerificationCode kwargs f
    /\ new rs PackageVerificationCode kwargs = Ok i.
Proof.
  exists (fun _ => 0%nat), [($"value", VStr $"d6a770ba38583ed4bb4525bd96e50461655d2758"); ($"excluded_files", VList [VStr $"./a"; VInt 3])], $"excluded_files".
  eexists. split; [|split; [|vm_compute; reflexivity]].
  - split; [intros k H; exact H|]. intros p H D. apply (in_map pa_name) in H. exact H.
  - exists (HList HStr), (listed $"excluded_files"). split; [right; left; reflexivity|]. intros (l & E & F). lazy in E. injection E as <-.
    apply Forall_inv_tail, Forall_inv in F. destruct F as (s & F). discriminate F.
Qed.
Print Assumptions C36_list_items_refuted.
(** An assignment to a field changes that field only, or raises and changes nothing. *)
Theorem C36_setter :
  forall (r : nat) (c : class) (f : pystr) (v : pyval) (i i' : instance), set_field r c f v i = Ok i' ->
  get_field f i' = Ok v /\ forall f', f' <> f -> get_field f' i' = get_field f' i.
Proof. exact TypingFacts.setter. Qed.
Print Assumptions C36_setter.
(** Whatever is assigned after the construction, the fields whose types have no lists are well-typed. *)
Theorem C36_always_typed :
  forall (rs : nat -> nat) (c : class) (kwargs : list (pystr * pyval)) (i : instance) (ops : list (nat * pystr * pyval))
         (f : pystr) (h : hint) (v : pyval),
  In c model_classes -> WellCalled c kwargs -> new rs c kwargs = Ok (VObj (cl_name c) i) ->
  assoc f (cl_fields c) = Some h -> scalar h -> get_field f (assignments c ops i) = Ok v -> Typed h v.
Proof. exact TypingFacts.always_typed. Qed.
Print Assumptions C36_always_typed.
(** Parsing a relationship entry whose type is known: the constructor's messages are reported, all of them. *)
Theorem C36_relationship_entry :
  forall (rs : nat -> nat) (kvs : list (pystr * json)) (t : pystr),
  enum_lookup rel_type_all rel_type_name (upper (replace $"-" $"_" t)) <> None -> t <> [] ->
  value_at $"relationshipType" kvs = JStr t ->
  match new rs Relationship [($"spdx_element_id", py (value_at $"spdxElementId" kvs));
                             ($"relationship_type", VObj $"RelationshipType" []);
                             ($"related_spdx_element_id", py_or_nn (value_at $"relatedSpdxElement" kvs));
                             ($"comment", py (value_at $"comment" kvs))] with
  | Ok _ => exists r, parse_relationship (JObj kvs) = Ok r
  | Raise (EConstructor ms) =>
      parse_relationship (JObj kvs) = Raise (EParsing [$"Error while constructing Relationship: " ++ show_list ms])
  | Raise _ => False
  end.
Proof. exact TypingJson.relationship_entry. Qed.
Print Assumptions C36_relationship_entry.
(** Two bad fields and one good one. *)
Definition C36_args : list (pystr * pyval) :=
  [($"actor_type", VStr $"PERSON"); ($"name", VStr $"Jane"); ($"email", VInt 7)].
Example C36_sample : WellCalled Actor C36_args /\ forall rs, rejected rs Actor C36_args = [$"actor_type"; $"email"].
Proof.
  split; [|reflexivity]. split; [intros k H; exact H|]. intros p H D. apply (in_map pa_name) in H. exact H.
Qed.
Example C36_sample_lists : exists rs rs', rejected rs PackageVerificationCode [($"value", VNone); ($"excluded_files", VList [VStr $"./a"; VInt 3])] = [$"value"]
  /\ rejected rs' PackageVerificationCode [($"value", VNone); ($"excluded_files", VList [VStr $"./a"; VInt 3])] = [$"value"; $"excluded_files"].
Proof. exists (fun _ => 0%nat), (fun _ => 1%nat). split; reflexivity. Qed.
Example C36_sample_defaults : exists i, forall rs, new rs Package [($"spdx_id", VStr $"SPDXRef-A"); ($"name", VStr $"a"); ($"download_location", NONE_VALUE)] = Ok (VObj $"Package" i)
  /\ get_field $"files_analyzed" i = Ok (VBool true) /\ get_field $"checksums" i = Ok (VList []) /\ get_field $"version" i = Ok VNone.
Proof. eexists. intro rs. split; [vm_compute; reflexivity|]. repeat split. Qed.
Example C36_sample_entry : let kvs := [($"relationshipType", JStr $"depends-on"); ($"spdxElementId", JInt 1); ($"relatedSpdxElement", JStr $"NONE"); ($"comment", JArr [])] in
  enum_lookup rel_type_all rel_type_name (upper (replace $"-" $"_" $"depends-on")) <> None /\ value_at $"relationshipType" kvs = JStr $"depends-on"
  /\ match parse_relationship (JObj kvs) with Raise (EParsing _) => True | _ => False end.
Proof. vm_compute. repeat split. discriminate. Qed.
