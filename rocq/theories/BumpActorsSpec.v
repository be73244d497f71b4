(** Which actors a document has. *)
From Verif Require Import Py Data Basics.

(** the actors of a document: creators, suppliers and originators of packages, annotators *)
Definition ActorOf (d : document) (a : actor) : Prop :=
  In a (ci_creators (do_ci d))
  \/ (exists p, In p (do_packages d) /\ (pk_supplier p = Some (AVal a) \/ pk_originator p = Some (AVal a)))
  \/ (exists n, In n (do_annotations d) /\ an_annotator n = a).
