(** C53, C54: the payload has one document, and its actors are actors of the document. *)
From Verif Require Import Py Data Oracles Bump BumpSpec BumpActorsSpec BumpActors BumpOneDoc Samples BumpMore PropsBump.

(** The only document in the payload is the one that is returned, under the id of the document. *)
Theorem C53_one_document :
  forall (d : document) (st : bstate) (doc : nat) (i : pystr) (x : doc3),
  bump_spdx_document d = Ok (st, doc) -> get_element st i = Ok (E3Document x) ->
  i = document_id d /\ nth_error (b_objs st) doc = Some (E3Document x).
Proof. exact BumpOneDoc.one_document. Qed.
Print Assumptions C53_one_document.
Example C53_one_document_sample :
  exists x, bump_spdx_document C39_document = Ok (bumped C39_document, bumped_doc C39_document)
    /\ get_element (bumped C39_document) (document_id C39_document) = Ok (E3Document x).
Proof. eexists. split; [apply bumped_is; vm_compute; reflexivity|]. vm_compute. reflexivity. Qed.

(** Each actor in the payload is a creator, supplier, originator or annotator of the document, with its kind, name and
    e-mail address, and it is found under the id of this actor. *)
Theorem C54_no_others :
  forall (d : document) (st : bstate) (doc : nat) (i : pystr) (x : actor3),
  bump_spdx_document d = Ok (st, doc) -> get_element st i = Ok (E3Actor x) ->
  exists a, ActorOf d a /\ i = actor_id (ci_namespace (do_ci d)) a /\ a3_id x = i /\ ActorSays a (a3_ci x) x.
Proof. exact BumpActors.actors_given. Qed.
Print Assumptions C54_no_others.
Example C54_no_others_sample :
  exists x, bump_spdx_document C39_document = Ok (bumped C39_document, bumped_doc C39_document)
    /\ get_element (bumped C39_document) (actor_id sample_ns sample_tool) = Ok (E3Actor x) /\ a3_kind x = AT_TOOL.
Proof. eexists. split; [apply bumped_is; vm_compute; reflexivity|]. split; vm_compute; reflexivity. Qed.
