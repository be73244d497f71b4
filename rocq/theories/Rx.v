(** Regular expressions as used with Python's [re.match].

    [rx] covers the patterns of /repo that are only used as yes/no tests.  Their truth value depends only on
    the language of the pattern, which [lang] defines; [rx_match] decides it with Brzozowski derivatives. *)
From Verif Require Import Py.

Inductive rx :=
| RNone                      (* matches nothing *)
| REps                       (* empty string *)
| RSet (p : char -> bool)    (* one character of a class *)
| RCat (a b : rx)
| RAlt (a b : rx)
| RStar (a : rx).

(** The language of a pattern (the specification). *)
Inductive lang : rx -> pystr -> Prop :=
| LEps : lang REps []
| LSet : forall (p : char -> bool) c, p c = true -> lang (RSet p) [c]
| LCat : forall a b s t, lang a s -> lang b t -> lang (RCat a b) (s ++ t)
| LAltL : forall a b s, lang a s -> lang (RAlt a b) s
| LAltR : forall a b s, lang b s -> lang (RAlt a b) s
| LStar0 : forall a, lang (RStar a) []
| LStarS : forall a s t, lang a s -> lang (RStar a) t -> lang (RStar a) (s ++ t).

Fixpoint nullable (r : rx) : bool :=
  match r with
  | RNone => false
  | REps => true
  | RSet _ => false
  | RCat a b => nullable a && nullable b
  | RAlt a b => nullable a || nullable b
  | RStar _ => true
  end.

Fixpoint deriv (c : char) (r : rx) : rx :=
  match r with
  | RNone => RNone
  | REps => RNone
  | RSet p => if p c then REps else RNone
  | RCat a b => let l := RCat (deriv c a) b in
                if nullable a then RAlt l (deriv c b) else l
  | RAlt a b => RAlt (deriv c a) (deriv c b)
  | RStar a => RCat (deriv c a) (RStar a)
  end.

(** The whole string is in the language. *)
Fixpoint rx_match (r : rx) (s : pystr) : bool :=
  match s with
  | [] => nullable r
  | c :: s' => rx_match (deriv c r) s'
  end.

(** Some prefix of the string is in the language. *)
Fixpoint rx_prefix (r : rx) (s : pystr) : bool :=
  nullable r || match s with
                | [] => false
                | c :: s' => rx_prefix (deriv c r) s'
                end.

(** [bool(re.match("^r$", s))]: [$] matches at the very end and before a final line feed. *)
Definition match_dollar (r : rx) (s : pystr) : bool :=
  rx_match r s
  || match rev s with
     | c :: s' => N.eqb c LF && rx_match r (rev s')
     | [] => false
     end.

(** [bool(re.match("r", s))] without [$] *)
Definition match_prefix (r : rx) (s : pystr) : bool := rx_prefix r s.

(** Derived pattern forms *)
Definition ropt (r : rx) : rx := RAlt r REps.                       (* r? *)
Definition rplus (r : rx) : rx := RCat r (RStar r).                 (* r+ *)
Fixpoint rexact (n : nat) (r : rx) : rx :=                          (* r{n} *)
  match n with O => REps | S n' => RCat r (rexact n' r) end.
Fixpoint rupto (n : nat) (r : rx) : rx :=                           (* r{0,n} *)
  match n with O => REps | S n' => RAlt (RCat r (rupto n' r)) REps end.
Definition ratleast (n : nat) (r : rx) : rx := RCat (rexact n r) (RStar r).      (* r{n,} *)
Definition rchar (c : char) : rx := RSet (N.eqb c).
Fixpoint rlit (s : pystr) : rx :=                                   (* a literal string *)
  match s with [] => REps | c :: s' => RCat (rchar c) (rlit s') end.
Fixpoint ralts (l : list rx) : rx :=
  match l with [] => RNone | [r] => r | r :: l' => RAlt r (ralts l') end.
Fixpoint rcats (l : list rx) : rx :=
  match l with [] => REps | [r] => r | r :: l' => RCat r (rcats l') end.
(** The class given by an explicit list of characters *)
Definition oneof (s : pystr) (c : char) : bool := has_char c s.
(** [.] matches everything but the line feed *)
Definition dot (c : char) : bool := negb (N.eqb c LF).
