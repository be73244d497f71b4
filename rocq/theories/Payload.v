(** spdx3/payload.py: the container of SPDX 3 elements.

    Python objects are addresses (nat) in a heap of elements; a dict is an insertion-ordered association list. *)
From Verif Require Import Py Data.

(** Dict[str, Element] *)
Definition idmap := list (pystr * nat).

(** The dicts that exist in the program; a Payload is the address of its _spdx_id_map. *)
Definition dicts := list idmap.

(** heap[i] = x *)
Fixpoint set_nth {A} (i : nat) (x : A) (l : list A) : list A :=
  match l, i with
  | [], _ => []
  | _ :: l', O => x :: l'
  | y :: l', S j => y :: set_nth j x l'
  end.

(** the dict at an address *)
Definition dict_at (h : dicts) (p : nat) : idmap := nth p h [].

(** payload.py:12-13  Payload.__init__: a given non-empty dict is used itself, otherwise there is a fresh one *)
Definition payload_init (h : dicts) (arg : option nat) : dicts * nat :=
  match arg with
  | Some a => if truthy_list (dict_at h a) then (h, a) else (h ++ [[]], List.length h)
  | None => (h ++ [[]], List.length h)
  end.

(** payload.py:15-16  add_element; the id of the element is read when it is added *)
Definition payload_add (h : dicts) (p : nat) (id : pystr) (e : nat) : dicts := set_nth p (dict_set id e (dict_at h p)) h.

(** payload.py:18-19  get_element *)
Definition payload_get (h : dicts) (p : nat) (id : pystr) : result nat :=
  match assoc id (dict_at h p) with Some e => Ok e | None => Raise (EKey id) end.

(** payload.py:21-22  get_full_map *)
Definition payload_full_map (h : dicts) (p : nat) : idmap := dict_at h p.
