(** What a document read from JSON needs in order to be written and read again without change. *)
From Verif Require Import Py Data Oracles Basics BasicsSpec JsonSpec.
From Verif Require Import Json LoadingSpec Files.
From Verif Require ValidationSpec.

(** the actors of a document *)
Definition ActorOf (d : document) (a : actor) : Prop :=
  In a (ci_creators (do_ci d))
  \/ (exists p, In p (do_packages d) /\ (pk_supplier p = Some (AVal a) \/ pk_originator p = Some (AVal a)))
  \/ (exists n, In n (do_annotations d) /\ an_annotator n = a).
(** a person or organization without e-mail whose name looks like a name with e-mail, as "Jane (Acme)" *)
Definition LooksLikeEmail (a : actor) : Prop :=
  ac_type a <> AT_TOOL /\ ac_email a = None /\ exists x y, ac_name a = x ++ $"(" ++ y ++ $")".
(** the license expressions of a document *)
Definition LicenseOf (d : document) (e : lexpr) : Prop :=
  (exists p, In p (do_packages d) /\ (pk_concluded p = Some (NVal e) \/ pk_declared p = Some (NVal e) \/ In (NVal e) (pk_info p)))
  \/ (exists f, In f (do_files d) /\ (fi_concluded f = Some (NVal e) \/ In (NVal e) (fi_info f)))
  \/ (exists s, In s (do_snippets d) /\ (sn_concluded s = Some (NVal e) \/ In (NVal e) (sn_info s))).
(** the license library reads what it prints for the licenses of the document *)
Definition LicensesRead (O : oracles) (d : document) : Prop := forall e, LicenseOf d e -> LicenseReads O (NVal e).
Definition ActorsRead (d : document) : Prop := forall a, ActorOf d a -> ~ LooksLikeEmail a.
(** no annotation is about an element of another document *)
Definition OwnElements (d : document) : Prop := forall n, In n (do_annotations d) -> ~ ValidationSpec.ExternalId d (an_id n).

(** the encoder of the format turns the value into a text that the decoder reads as the same value *)
Definition Encodes (E : environment) (x : file_format) (j : json) : Prop :=
  match x with
  | F_JSON => PlainObjects j /\ exists t, e_json_dump E j = (t, None) /\ e_json_load E t = inl j
  | F_YAML => exists t, e_yaml_dump E j = (t, None) /\ e_yaml_load E t = inl j
  | _ => False
  end.
