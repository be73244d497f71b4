(** Python's backtracking [re.match] with capturing groups.

    Used for the patterns of /repo whose groups are read.  In all of them repetition applies to a single
    character class, so [PStar] repeats a class (greedy, with backtracking); everything else is as in [sre]:
    alternatives are tried from left to right, the first success wins. *)
From Verif Require Import Py.

Inductive prx :=
| PEps
| PSet (p : char -> bool)
| PStar (p : char -> bool)       (* [..]*  greedy *)
| PCat (a b : prx)
| PAlt (a b : prx)
| PGroup (k : nat) (a : prx)     (* capturing group number k *)
| PEnd.                          (* $ *)

Definition groups := list (nat * pystr).

(** Remaining input and groups on success. *)
Definition mres := option (pystr * groups).

Section Star.
  Variable p : char -> bool.
  Variable k : pystr -> mres.
  Fixpoint star_bt (s : pystr) : mres :=
    match s with
    | [] => k []
    | c :: s' => if p c then match star_bt s' with
                             | Some r => Some r
                             | None => k s
                             end
                 else k s
    end.
End Star.

Fixpoint pm (r : prx) (s : pystr) (g : groups) (k : pystr -> groups -> mres) : mres :=
  match r with
  | PEps => k s g
  | PSet p => match s with
              | c :: s' => if p c then k s' g else None
              | [] => None
              end
  | PStar p => star_bt p (fun s' => k s' g) s
  | PCat a b => pm a s g (fun s' g' => pm b s' g' k)
  | PAlt a b => match pm a s g k with
                | Some r => Some r
                | None => pm b s g k
                end
  | PGroup n a => pm a s g (fun s' g' => k s' ((n, firstn (List.length s - List.length s') s) :: g'))
  | PEnd => match s with
            | [] => k s g
            | [c] => if N.eqb c LF then k s g else None
            | _ => None
            end
  end.

(** [re.match(r, s)]: groups of the first match found, or None. *)
Definition re_match (r : prx) (s : pystr) : option groups :=
  match pm r s [] (fun s' g' => Some (s', g')) with
  | Some (_, g) => Some g
  | None => None
  end.

(** [re.match(r, s)] together with the input after [match.end()]. *)
Definition re_match_rest (r : prx) (s : pystr) : option (pystr * groups) :=
  pm r s [] (fun s' g' => Some (s', g')).

(** [match.group(n)]; None when the group did not take part in the match. *)
Definition group (n : nat) (g : groups) : option pystr :=
  match find (fun x => Nat.eqb (fst x) n) g with
  | Some (_, v) => Some v
  | None => None
  end.

Fixpoint plit (s : pystr) : prx :=
  match s with [] => PEps | c :: s' => PCat (PSet (N.eqb c)) (plit s') end.
Definition pplus (p : char -> bool) : prx := PCat (PSet p) (PStar p).
Fixpoint pexact (n : nat) (p : char -> bool) : prx :=
  match n with O => PEps | S n' => PCat (PSet p) (pexact n' p) end.
Fixpoint palts (l : list prx) : prx :=
  match l with [] => PSet (fun _ => false) | [r] => r | r :: l' => PAlt r (palts l') end.
Fixpoint pcats (l : list prx) : prx :=
  match l with [] => PEps | [r] => r | r :: l' => PCat r (pcats l') end.
(** [a?] *)
Definition popt (a : prx) : prx := PAlt a PEps.
