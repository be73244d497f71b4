(** Specification of C65: subclasses, fields, well-typed values and calls for the classes of the SPDX 3 model. *)
From Verif Require Import Py Data Typing Typing3.

Section Table.
Context (T : list decl).
(** the class is a subclass of the other one, or the same *)
Inductive Derives : pystr -> pystr -> Prop :=
| dr_same c : Derives c c
| dr_base d b c : In d T -> d_base d = Some b -> Derives b c -> Derives (d_name d) c.
(** the class has a field with a type: its own, or that of the base class *)
Inductive Field : decl -> pystr -> hint3 -> Prop :=
| fd_own d f h : In (f, h) (d_fields d) -> Field d f h
| fd_inherited d e f h : ~ In f (map fst (d_fields d)) -> d_base d = Some (d_name e) -> In e T -> Field e f h -> Field d f h.
(** the value has the type that the hint denotes; all items of lists and dictionaries count *)
Fixpoint Typed3 (h : hint3) (v : pyval) : Prop :=
  match h with
  | TNone => v = VNone
  | TStr => exists s, v = VStr s
  | TBool => exists b, v = VBool b
  | TInt => (exists z, v = VInt z) \/ (exists b, v = VBool b)
  | TDatetime => exists d, v = VDatetime d
  | TIs name => exists c fields, v = VObj c fields /\ Derives c name
  | TOr a b => Typed3 a v \/ Typed3 b v
  | TList a => exists l, v = VList l /\ Forall (Typed3 a) l
  | TDict a b => exists l, v = VDict l /\ Forall (fun kv => Typed3 a (fst kv) /\ Typed3 b (snd kv)) l
  end.
(** a hint without lists and dictionaries *)
Fixpoint scalar3 (h : hint3) : Prop :=
  match h with
  | TOr a b => scalar3 a /\ scalar3 b
  | TList _ | TDict _ _ => False
  | _ => True
  end.

(** every keyword argument is a parameter and every parameter without default is given *)
Definition WellCalled3 (ps : list param3) (kwargs : list (pystr * pyval)) : Prop :=
  (forall k, In k (map fst kwargs) -> In k (map p_name ps))
  /\ (forall p, In p ps -> p_default p = None -> In (p_name p) (map fst kwargs)).
(** the value for a parameter: the argument or the default, but empty lists and dictionaries instead of None *)
Definition passed (p : param3) (kwargs : list (pystr * pyval)) : pyval :=
  let v := match assoc (p_name p) kwargs, p_default p with Some v, _ => v | None, Some v => v | None, None => VNone end in
  match v, p_none p with VNone, Some w => w | _, _ => v end.
(** the value for a field *)
Definition Given (ps : list param3) (kwargs : list (pystr * pyval)) (f : pystr) (v : pyval) : Prop :=
  exists p, In p ps /\ p_name p = f /\ v = passed p kwargs.
(** the instance has the values of the call in its fields, and no other fields *)
Definition Holds (d : decl) (ps : list param3) (kwargs : list (pystr * pyval)) (i : instance) : Prop :=
  (forall f h, Field d f h -> exists v, get_field f i = Ok v /\ Given ps kwargs f v)
  /\ (forall f v, get_field f i = Ok v -> exists h, Field d f h).
(** the field gets a value of a wrong type *)
Definition IllTyped3 (d : decl) (ps : list param3) (kwargs : list (pystr * pyval)) (f : pystr) (h : hint3) : Prop :=
  Field d f h /\ exists v, Given ps kwargs f v /\ ~ Typed3 h v.
(** the arguments have the types that the signature of the constructor states *)
Definition FitsSignature (ps : list param3) (kwargs : list (pystr * pyval)) : Prop :=
  forall p v, In p ps -> assoc (p_name p) kwargs = Some v -> Typed3 (p_hint p) v.

(** a history of assignments to fields; an assignment that raises is without effect *)
Fixpoint assignments3 (d : decl) (ops : list (choice * pystr * pyval)) (i : instance) : instance :=
  match ops with
  | [] => i
  | (r, f, v) :: ops' =>
      assignments3 d ops' (match set_field3 T r (d_name d) (fields_of T (depth T) d) f v i with Ok i' => i' | Raise _ => i end)
  end.
End Table.

(** the relationships that assess vulnerabilities *)
Definition assessments : list decl :=
  [D_CvssV2VulnAssessmentRelationship; D_CvssV3VulnAssessmentRelationship; D_EpssVulnAssessmentRelationship;
   D_ExploitCatalogVulnAssessmentRelationship; D_SsvcVulnAssessmentRelationship; D_VexAffectedVulnAssessmentRelationship;
   D_VexFixedVulnAssessmentRelationship; D_VexNotAffectedVulnAssessmentRelationship; D_VexUnderInvestigationVulnAssessmentRelationship].
