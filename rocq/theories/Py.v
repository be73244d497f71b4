(** Python strings and results.

    A Python [str] is modelled as the list of its Unicode code points.  Everything in this file models
    CPython built-ins used by the code in /repo (they are not part of the repository itself); the places of
    use are cited in the files that use them. *)
From Coq Require Export List NArith ZArith Bool Lia String Ascii.
From Coq Require Decimal.
From Verif Require Import UniTables.
Export ListNotations.
Open Scope list_scope.

(** A character is a Unicode code point. *)
Definition char := N.
(** A Python [str]. *)
Definition pystr := list char.

(** String literals of the source: [$"abc"] is the Python literal "abc" (ASCII only). *)
Definition lit (s : string) : pystr := map N_of_ascii (list_ascii_of_string s).
Notation "$ s" := (lit s%string) (at level 0, s at level 0, only parsing).

(** Character literal. *)
Definition ch (a : ascii) : char := N_of_ascii a.
Notation "# c" := (ch c%char) (at level 0, c at level 0, only parsing).

(** The line feed character "\n". *)
Definition LF : char := 10%N.

(** [str.__eq__] *)
Fixpoint str_eqb (a b : pystr) : bool :=
  match a, b with
  | [], [] => true
  | x :: a', y :: b' => N.eqb x y && str_eqb a' b'
  | _, _ => false
  end.

(** [str.startswith] *)
Fixpoint startswith (p s : pystr) : bool :=
  match p, s with
  | [], _ => true
  | x :: p', y :: s' => N.eqb x y && startswith p' s'
  | _ :: _, [] => false
  end.

(** [str.endswith] *)
Definition endswith (p s : pystr) : bool := startswith (rev p) (rev s).

(** [c in s] for a one-character string [c] *)
Definition has_char (c : char) (s : pystr) : bool := existsb (N.eqb c) s.

(** [sub in s] *)
Fixpoint contains (sub s : pystr) : bool :=
  startswith sub s || match s with [] => false | _ :: s' => contains sub s' end.

(** [x in l] for a list of strings *)
Definition str_in (x : pystr) (l : list pystr) : bool := existsb (str_eqb x) l.

(** [s.split(c)] for a one-character separator *)
Fixpoint split_on (c : char) (s : pystr) : list pystr :=
  match s with
  | [] => [[]]
  | x :: s' =>
      if N.eqb x c then [] :: split_on c s'
      else match split_on c s' with
           | h :: t => (x :: h) :: t
           | [] => [[x]]
           end
  end.

(** [str.isspace] of one character (also the class [\s] of [re] for [str] patterns) *)
Definition is_space (c : char) : bool :=
  ((9 <=? c) && (c <=? 13) || (28 <=? c) && (c <=? 32) || (c =? 133) || (c =? 160) || (c =? 5760)
   || (8192 <=? c) && (c <=? 8202) || (c =? 8232) || (c =? 8233) || (c =? 8239) || (c =? 8287) || (c =? 12288))%N.

Fixpoint dropwhile (p : char -> bool) (s : pystr) : pystr :=
  match s with
  | [] => []
  | c :: s' => if p c then dropwhile p s' else s
  end.

Fixpoint takewhile (p : char -> bool) (s : pystr) : pystr :=
  match s with
  | [] => []
  | c :: s' => if p c then c :: takewhile p s' else []
  end.

(** [str.lstrip()], [str.rstrip()], [str.strip()] *)
Definition lstrip (s : pystr) : pystr := dropwhile is_space s.
Definition rstrip (s : pystr) : pystr := rev (dropwhile is_space (rev s)).
Definition strip (s : pystr) : pystr := rstrip (lstrip s).

(** [s.replace(old, new)] for a non-empty [old] (all uses in the repository) *)
Fixpoint replace_skip (old new : pystr) (skip : nat) (s : pystr) : pystr :=
  match s with
  | [] => []
  | c :: s' =>
      match skip with
      | S k => replace_skip old new k s'
      | O => if startswith old s then new ++ replace_skip old new (List.length old - 1) s'
             else c :: replace_skip old new O s'
      end
  end.
Definition replace (old new s : pystr) : pystr := replace_skip old new 0 s.

(** [sep.join(l)] *)
Fixpoint join (sep : pystr) (l : list pystr) : pystr :=
  match l with
  | [] => []
  | [x] => x
  | x :: l' => x ++ sep ++ join sep l'
  end.

(** ["".join(s.split())]: removal of all white space *)
Definition remove_ws (s : pystr) : pystr := filter (fun c => negb (is_space c)) s.

(** ASCII classes *)
Definition is_upper (c : char) : bool := ((65 <=? c) && (c <=? 90))%N.
Definition is_lower (c : char) : bool := ((97 <=? c) && (c <=? 122))%N.
Definition is_alpha (c : char) : bool := is_upper c || is_lower c.
Definition is_digit09 (c : char) : bool := ((48 <=? c) && (c <=? 57))%N.

(** [str.upper], [str.lower] per character.  Simplification: only ASCII letters are mapped; the functions are
    applied in /repo to enum member names and to the strings that are looked up among them. *)
Definition upc (c : char) : char := if is_lower c then (c - 32)%N else c.
Definition loc (c : char) : char := if is_upper c then (c + 32)%N else c.
Definition upper (s : pystr) : pystr := map upc s.
Definition lower (s : pystr) : pystr := map loc s.

(** [str.title] (same simplification): a letter is upper-cased when the previous character is not a letter
    and lower-cased otherwise. *)
Fixpoint title_from (prev_alpha : bool) (s : pystr) : pystr :=
  match s with
  | [] => []
  | c :: s' => (if prev_alpha then loc c else upc c) :: title_from (is_alpha c) s'
  end.
Definition title (s : pystr) : pystr := title_from false s.

(** Decimal value of a digit character: ASCII digits and the Unicode category Nd ([\d] of [re], [int()]). *)
Definition digit_val (c : char) : option N :=
  if is_digit09 c then Some (c - 48)%N
  else match find (fun z => (z <=? c) && (c <=? z + 9))%N nd_starts with
       | Some z => Some (c - z)%N
       | None => None
       end.
Definition is_digit (c : char) : bool := match digit_val c with Some _ => true | None => false end.

(** [\w] of [re] *)
Definition is_word (c : char) : bool :=
  is_alpha c || is_digit09 c || (c =? 95)%N || existsb (fun r => (fst r <=? c) && (c <=? snd r))%N alnum_ranges.

(** [int(s)] for a string of digits; [None] when some character is no digit or the string is empty. *)
Fixpoint dec_val_from (acc : N) (s : pystr) : option N :=
  match s with
  | [] => Some acc
  | c :: s' => match digit_val c with
               | Some d => dec_val_from (acc * 10 + d)%N s'
               | None => None
               end
  end.
Definition dec_val (s : pystr) : option N :=
  match s with [] => None | _ => dec_val_from 0 s end.

(** [str(n)] for non-negative integers *)
Fixpoint uint_str (u : Decimal.uint) : pystr :=
  match u with
  | Decimal.Nil => []
  | Decimal.D0 u => 48%N :: uint_str u | Decimal.D1 u => 49%N :: uint_str u | Decimal.D2 u => 50%N :: uint_str u
  | Decimal.D3 u => 51%N :: uint_str u | Decimal.D4 u => 52%N :: uint_str u | Decimal.D5 u => 53%N :: uint_str u
  | Decimal.D6 u => 54%N :: uint_str u | Decimal.D7 u => 55%N :: uint_str u | Decimal.D8 u => 56%N :: uint_str u
  | Decimal.D9 u => 57%N :: uint_str u
  end.
Definition str_of_N (n : N) : pystr := uint_str (N.to_uint n).
(** [str(z)] for integers *)
Definition str_of_Z (z : Z) : pystr :=
  if (z <? 0)%Z then #"-" :: str_of_N (Z.abs_N z) else str_of_N (Z.abs_N z).

(** Exceptions that the modelled code raises or lets through.  Messages are kept as strings. *)
Inductive exn :=
| EParsing (msgs : list pystr)      (* SPDXParsingError(messages) *)
| EConstructor (msgs : list pystr)  (* ConstructorTypeErrors(messages) *)
| EValue (msg : pystr)              (* ValueError *)
| EType (msg : pystr)               (* TypeError *)
| EKey (msg : pystr)                (* KeyError *)
| EAttr (msg : pystr)               (* AttributeError *)
| EOverflow (msg : pystr)           (* OverflowError *)
| EIndex (msg : pystr)              (* IndexError *)
| EFileNotFound (msg : pystr)       (* FileNotFoundError *)
| EExpr (msg : pystr)               (* license_expression.ExpressionError *)
| EExit (logged : pystr)            (* SystemExit(1) raised by sys.exit(1) after logging.error(logged) *)
| ERecursion.                       (* RecursionError *)

(** The outcome of running Python code: a value or an exception. *)
Inductive result (A : Type) := Ok (a : A) | Raise (e : exn).
Arguments Ok {A} a.
Arguments Raise {A} e.

Definition bind {A B} (r : result A) (f : A -> result B) : result B :=
  match r with Ok a => f a | Raise e => Raise e end.
Notation "'do' x <- r ; k" := (bind r (fun x => k)) (at level 200, x pattern, r at level 100, k at level 200).

Definition is_ok {A} (r : result A) : bool := match r with Ok _ => true | Raise _ => false end.

(** Truthiness of optional strings and lists *)
Definition truthy_opt (o : option pystr) : bool :=
  match o with None => false | Some [] => false | Some _ => true end.
Definition truthy_list {A} (l : list A) : bool := match l with [] => false | _ => true end.

(** [l[:i]] style helper: association lists with string keys (dict with insertion order). *)
Fixpoint assoc {A} (k : pystr) (l : list (pystr * A)) : option A :=
  match l with
  | [] => None
  | (k', v) :: l' => if str_eqb k k' then Some v else assoc k l'
  end.

(** [d[k] = v] on an insertion-ordered dict. *)
Fixpoint dict_set {A} (k : pystr) (v : A) (l : list (pystr * A)) : list (pystr * A) :=
  match l with
  | [] => [(k, v)]
  | (k', v') :: l' => if str_eqb k k' then (k', v) :: l' else (k', v') :: dict_set k v l'
  end.
