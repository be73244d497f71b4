(** Specification of C36: what it means for values to fit type hints, and which values a call gives to the fields. *)
From Verif Require Import Py Data Typing.

(** the value has the type that the hint denotes; all items of a list count *)
Fixpoint Typed (h : hint) (v : pyval) : Prop :=
  match h with
  | HNone => v = VNone
  | HStr => exists s, v = VStr s
  | HBool => exists b, v = VBool b
  | HInt => (exists z, v = VInt z) \/ (exists b, v = VBool b)
  | HDatetime => exists d, v = VDatetime d
  | HLicense => exists e, v = VLicense e
  | HClass name => exists fields, v = VObj name fields
  | HOr a b => Typed a v \/ Typed b v
  | HPair a b => exists x y, v = VTuple [x; y] /\ Typed a x /\ Typed b y
  | HList a => exists l, v = VList l /\ Forall (Typed a) l
  end.
(** a hint without lists *)
Fixpoint scalar (h : hint) : Prop :=
  match h with
  | HOr a b => scalar a /\ scalar b
  | HPair a b => scalar a /\ scalar b
  | HList _ => False
  | _ => True
  end.

(** every keyword argument is a parameter and every parameter without default is given *)
Definition WellCalled (c : class) (kwargs : list (pystr * pyval)) : Prop :=
  (forall k, In k (map fst kwargs) -> In k (map pa_name (cl_params c)))
  /\ (forall p, In p (cl_params c) -> pa_default p = None -> In (pa_name p) (map fst kwargs)).
(** the value for a parameter: the argument or the default; lists that are None are empty *)
Definition argument (p : param) (kwargs : list (pystr * pyval)) : pyval :=
  match assoc (pa_name p) kwargs, pa_default p with
  | Some v, _ => v
  | None, Some v => v
  | None, None => VNone
  end.
Definition value_of (p : param) (kwargs : list (pystr * pyval)) : pyval :=
  match argument p kwargs with
  | VNone => if pa_empty p then VList [] else VNone
  | v => v
  end.
(** the fields whose values the type checker rejects *)
Definition rejected (rs : nat -> nat) (c : class) (kwargs : list (pystr * pyval)) : list pystr :=
  flat_map (fun x => match x with (k, ((f, h), p)) => if accepts (rs k) h (value_of p kwargs) then [] else [f] end)
           (combine (seq 0 (List.length (cl_fields c))) (combine (cl_fields c) (cl_params c))).
(** the fields whose values are ill-typed *)
Definition IllTyped (c : class) (kwargs : list (pystr * pyval)) (f : pystr) : Prop :=
  exists h p, In ((f, h), p) (combine (cl_fields c) (cl_params c)) /\ ~ Typed h (value_of p kwargs).

(** a history of assignments to fields of an instance; an assignment that raises is without effect *)
Fixpoint assignments (c : class) (ops : list (nat * pystr * pyval)) (i : instance) : instance :=
  match ops with
  | [] => i
  | (r, f, v) :: ops' => assignments c ops' (match set_field r c f v i with Ok i' => i' | Raise _ => i end)
  end.

(** ** The checks of the JSON parsers *)
From Verif Require Import Json.
Fixpoint py (j : json) : pyval :=
  match j with
  | JNull => VNone
  | JBool b => VBool b
  | JInt z => VInt z
  | JFloat s => VFloat s
  | JStr s => VStr s
  | JArr l => VList (map py l)
  | JObj kvs => VDict (map (fun kv => (VStr (fst kv), py (snd kv))) kvs)
  end.
Definition NO_ASSERTION_VALUE : pyval := VObj $"SpdxNoAssertion" [].
Definition NONE_VALUE : pyval := VObj $"SpdxNone" [].
(** reserved words of the JSON form are turned into the special values before a constructor is called *)
Definition py_or_nn (j : json) : pyval :=
  match j with
  | JStr s => if str_eqb s $"NOASSERTION" then NO_ASSERTION_VALUE else if str_eqb s $"NONE" then NONE_VALUE else VStr s
  | _ => py j
  end.
Definition py_or_na (j : json) : pyval :=
  match j with
  | JStr s => if str_eqb s $"NOASSERTION" then NO_ASSERTION_VALUE else VStr s
  | _ => py j
  end.
