(** Writing a document as an RDF graph and reading it back. *)
From Verif Require Import Py PyFacts Data Oracles Basics Rdf RdfWriter RdfParser RdfSpec RdfGraphFacts RdfWriteFacts RdfElemFacts
  RdfDocFacts RdfRoundFacts RdfRename.

Theorem round_trip O lab d L g : RdfDocument O d -> LicenseGrammar O -> RdfLibrary L (ci_namespace (do_ci d)) ->
  Shortens L (g_bound g) (ci_refs (do_ci d)) ->
  forall ts, write_graph O lab d = Ok ts -> SameGraph lab ts (g_triples g) ->
  exists e, translate_graph_to_document O L g = Ok e /\ SameDocument d e.
Proof.
  intros HD HG HL HB ts0 Ew (ND & f & HLab & HE).
  pose proof (rc_namespace _ (rd_ci _ _ HD)) as Hns.
  destruct (doc_written O (fun n => f (lab n)) (proj1 HLab) _ Hns d HD eq_refl) as (ts & n & E & HS & HK).
  apply (graph_reads O HG (fun n => f (lab n)) HLab d HD ts HS HK L HL g ND); [|exact HB].
  intro t. rewrite HE. pose proof (document_rename f O lab d 0) as X. unfold write_graph in Ew.
  destruct (add_document_to_graph O lab d 0) as [[ts1 m]|e]; [|discriminate]. cbn [bind] in Ew. assert (ts0 = fold_left add_triple ts1 []) by congruence. subst.
  rewrite X in E. assert (ts = map (rename f) ts1) by congruence. subst. rewrite !in_map_iff.
  split; intros (x & Ex & Hx); exists x; (split; [exact Ex|]); [apply fold_add_in in Hx as [[]|Hx]; exact Hx|apply fold_add_in; right; exact Hx].
Qed.
