(** Type-checked constructors: common/typing/type_checks.py, common/typing/dataclass_with_properties.py and the
    constructors of spdx/model/*.py, as seen by the parsers: the arguments are JSON-like values or already parsed
    objects, the outcome is an object or the list of all type errors.

    Simplifications: the text that beartype puts after "SetterError Class: " is not modelled; for List[T] beartype
    looks at one item chosen at random, the model looks at all of them (a list with an ill-typed item may slip
    through the real check, see Typing.v for the property C36). *)
From Verif Require Import Py Data Json.

(** Outcome of check_types_and_set_values: the object, or the messages of all failing setters. *)
Inductive chk (A : Type) := COk (a : A) | CErr (msgs : list pystr).
Arguments COk {A} a.
Arguments CErr {A} msgs.

(** type_checks.py:11-31: the fields are set one after the other, errors are accumulated in field order *)
Definition ap {A B} (f : chk (A -> B)) (x : chk A) : chk B :=
  match f, x with
  | COk g, COk a => COk (g a)
  | COk _, CErr m => CErr m
  | CErr m, COk _ => CErr m
  | CErr m, CErr m' => CErr (m ++ m')
  end.
Notation "f <*> x" := (ap f x) (at level 61, left associativity).

(** dataclass_with_properties.py:29-41: the message of a failing setter *)
Definition bad {A} (cls fld : pystr) : chk A := CErr [$"SetterError " ++ cls ++ $": " ++ fld].

(** one field of the stated type *)
Definition c_str (cls fld : pystr) (j : json) : chk pystr :=
  match j with JStr s => COk s | _ => bad cls fld end.
Definition c_opt_str (cls fld : pystr) (j : json) : chk (option pystr) :=
  match j with JStr s => COk (Some s) | JNull => COk None | _ => bad cls fld end.
Definition c_bool (cls fld : pystr) (j : json) : chk bool :=
  match j with JBool b => COk b | _ => bad cls fld end.

Definition j_str (j : json) : option pystr := match j with JStr s => Some s | _ => None end.
(** isinstance(v, int); bool is a subclass of int *)
Definition j_int (j : json) : option Z :=
  match j with JInt z => Some z | JBool true => Some 1%Z | JBool false => Some 0%Z | _ => None end.

(** all items present *)
Fixpoint all_some {A} (l : list (option A)) : option (list A) :=
  match l with
  | [] => Some []
  | Some a :: l' => match all_some l' with Some r => Some (a :: r) | None => None end
  | None :: _ => None
  end.
(** List[str] with None replaced by [] *)
Definition c_strs (cls fld : pystr) (j : json) : chk (list pystr) :=
  match j with
  | JNull => COk []
  | JArr l => match all_some (map j_str l) with Some r => COk r | None => bad cls fld end
  | _ => bad cls fld
  end.
(** List[T] of parsed items, some of which may be None *)
Definition c_items {A} (cls fld : pystr) (l : list (option A)) : chk (list A) :=
  match all_some l with Some r => COk r | None => bad cls fld end.
(** a parsed value that must not be None *)
Definition c_req {A} (cls fld : pystr) (o : option A) : chk A :=
  match o with Some a => COk a | None => bad cls fld end.
(** Union[str, SpdxNoAssertion, SpdxNone] *)
Definition c_nn (cls fld : pystr) (x : nn json) : chk (nn pystr) :=
  match x with
  | NNoAssertion => COk NNoAssertion
  | NNone => COk NNone
  | NVal (JStr s) => COk (NVal s)
  | NVal _ => bad cls fld
  end.
Definition c_opt_nn (cls fld : pystr) (x : nn json) : chk (option (nn pystr)) :=
  match x with
  | NVal JNull => COk None
  | _ => match c_nn cls fld x with COk v => COk (Some v) | CErr m => CErr m end
  end.
(** Optional[Union[str, SpdxNoAssertion]] *)
Definition c_opt_na (cls fld : pystr) (x : na json) : chk (option (na pystr)) :=
  match x with
  | ANoAssertion => COk (Some ANoAssertion)
  | AVal JNull => COk None
  | AVal (JStr s) => COk (Some (AVal s))
  | AVal _ => bad cls fld
  end.
(** Tuple[int, int]: both items are checked *)
Definition c_range (cls fld : pystr) (r : option (json * json)) : chk (Z * Z) :=
  match r with
  | Some (a, b) => match j_int a, j_int b with Some x, Some y => COk (x, y) | _, _ => bad cls fld end
  | None => bad cls fld
  end.
Definition c_opt_range (cls fld : pystr) (r : option (json * json)) : chk (option (Z * Z)) :=
  match r with
  | None => COk None
  | Some _ => match c_range cls fld r with COk v => COk (Some v) | CErr m => CErr m end
  end.

(** repr() of a string, as str() of a list shows its items (CPython's unicode_repr): double quotes if there is a single quote
    and no double quote, escapes for the quote, the backslash and control characters.  Simplification: characters that are not
    ASCII are shown as they are; CPython escapes those that are not printable. *)
Definition hex_char (n : N) : char := if N.ltb n 10 then (48 + n)%N else (87 + n)%N.
Definition repr_char (q c : char) : pystr :=
  if orb (N.eqb c q) (N.eqb c 92) then [92%N; c]
  else if N.eqb c 9 then [92%N; #"t"] else if N.eqb c 10 then [92%N; #"n"] else if N.eqb c 13 then [92%N; #"r"]
  else if orb (N.ltb c 32) (N.eqb c 127) then [92%N; #"x"; hex_char (c / 16)%N; hex_char (c mod 16)%N]
  else [c].
Definition repr_str (s : pystr) : pystr :=
  let q := if andb (existsb (N.eqb 39) s) (negb (existsb (N.eqb 34) s)) then 34%N else 39%N in
  [q] ++ flat_map (repr_char q) s ++ [q].
(** str(list of messages) *)
Definition show_list (l : list pystr) : pystr := $"[" ++ join $", " (map repr_str l) ++ $"]".

(** parser/parsing_functions.py:11-18  construct_or_raise_parsing_error *)
Definition construct {A} (cls : pystr) (c : chk A) : result A :=
  match c with
  | COk a => Ok a
  | CErr ms => Raise (EParsing [$"Error while constructing " ++ cls ++ $": " ++ show_list ms])
  end.
(** calling the constructor directly *)
Definition construct_raw {A} (c : chk A) : result A :=
  match c with COk a => Ok a | CErr ms => Raise (EConstructor ms) end.
