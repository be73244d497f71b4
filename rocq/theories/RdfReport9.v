(** C75: a wrong creator in an RDF graph. *)
From Verif Require Import Py PyRe PyFacts Data Oracles Basics ValidationSpec BasicsSpec BasicsFacts Json Construct JsonParse JsonErrors JsonRead Rdf RdfParser RdfReadSpec RdfIff RdfIff2 RdfIff3 RdfIff4 JsonReportSpec JsonReport RdfReportSpec RdfReportSpec2 RdfReport RdfReport2 RdfReport3 RdfReport4.

Lemma each_stop {A B} (f : A -> result B) a old c n e l : each f (a ++ old ++ c) = Ok l -> f n = Raise e -> each f (a ++ n :: c) = Raise e.
Proof.
  revert l. induction a as [|x a IH]; intros l H X; cbn [app each] in *; [rewrite X; reflexivity|]. destruct (f x) as [y|]; [|discriminate H]. cbn [bind] in *.
  destruct (each f (a ++ old ++ c)) as [r|] eqn:E; [|discriminate H]. rewrite (IH r eq_refl X). reflexivity.
Qed.

Section Top.
Variable O : oracles.
Variable L : rdf_library.
Lemma report_creator g g' d s : translate_graph_to_document O L g = Ok d -> SameBut s (term "creator") (g_triples g) (g_triples g') ->
  forall l a old c n t, Subjects is_a (NUri (term "CreationInfo")) (g_triples g) (s :: l) ->
  Objects s (term "creator") (g_triples g) (a ++ old ++ c) -> Objects s (term "creator") (g_triples g') (a ++ n :: c) ->
  Plain L n t -> (forall x, t <> $"Tool:" ++ x /\ t <> $"Person:" ++ x /\ t <> $"Organization:" ++ x) ->
  translate_graph_to_document O L g' = Raise (EParsing [$"Actor " ++ t ++ $" doesn't match any of person, organization or tool."]).
Proof.
  intros R SB l a old c n t F B0 B P N. apply subjects_iff in F. apply objects_iff in B0, B. change (term "creator") with (spdx "creator") in *.
  assert (X : creator_of L n = Raise (EParsing [$"Actor " ++ t ++ $" doesn't match any of person, organization or tool."])).
  { unfold creator_of. unfold Plain in P. rewrite P. exact (RdfReport2.no_actor (NLit t KPlain) _ (conj N eq_refl)). }
  assert (HEAD : ~ In (spdx "creator") head_asks) by absent.
  unfold translate_graph_to_document in *. destruct (parse_creation_info L g) as [ci|] eqn:C; [|discriminate R]. clear R.
  assert (Y : parse_creation_info L g' = Raise (EParsing [$"Actor " ++ t ++ $" doesn't match any of person, organization or tool."])); [|rewrite Y; reflexivity].
  unfold parse_creation_info in *. rewrite (same_namespace L s _ g g' SB HEAD). destruct (parse_namespace_and_spdx_id L (g_triples g)) as [[[ns id] doc]|]; [|discriminate C]. cbn [bind] in *.
  rewrite !(same_literal _ _ _ _ _ SB _ _ doc) by (try reflexivity; apply (off_document s _ HEAD); member).
  rewrite (sb_subjects _ _ _ _ SB) by differ. change RDF_type with is_a in *. change (spdx "CreationInfo") with (term "CreationInfo") in *. rewrite F in *. cbn [any_value] in *.
  repeat (match type of C with bind _ _ = Ok _ => walk1 C; split_pairs C end). destruct (negb (node_truthy L s)); [discriminate C|].
  rewrite B. rewrite B0 in C. walk_all C. rest SB. replay.
  match goal with E : each _ _ = Ok _ |- _ => rewrite (each_stop _ _ _ _ _ _ _ E X) end. reflexivity.
Qed.
End Top.
