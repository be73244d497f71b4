(** Tag-value files with other line ends. *)
From Verif Require Import Py Data Oracles Basics TvLexer TvParser TvSpec TvTokSpec TvStreamSpec.

Lemma newlines_ends e : In e [[LF]; [CR]; [CR; LF]] -> forall s, ~ In CR s -> universal_newlines (with_line_ends e s) = s.
Proof.
  intros He s. induction s as [|c s IH]; intro H; [reflexivity|]. unfold with_line_ends in *. cbn [flat_map]. 
  assert (Hs : ~ In CR s) by (intro K; apply H; right; exact K). specialize (IH Hs).
  assert (Hc : c <> 13%N) by (intros ->; apply H; left; reflexivity).
  destruct (N.eqb_spec c LF) as [->|E].
  - destruct He as [<-|[<-|[<-|[]]]]; cbn [app].
    + cbn [universal_newlines]. change (N.eqb LF 13) with false. cbn iota. rewrite IH. reflexivity.
    + cbn [universal_newlines]. change (N.eqb CR 13) with true. cbn iota. f_equal.
      destruct s as [|c' s]; [reflexivity|]. cbn [flat_map]. cbn [flat_map] in IH. destruct (N.eqb c' LF) eqn:E'.
      * cbn [app] in *. change (N.eqb CR LF) with false. cbn iota. exact IH.
      * cbn [app] in *. rewrite E'. exact IH.
    + cbn [universal_newlines]. change (N.eqb CR 13) with true. change (N.eqb LF LF) with true. cbn iota. f_equal. exact IH.
  - cbn [app universal_newlines]. destruct (N.eqb_spec c 13) as [E'|_]; [contradiction|]. rewrite IH. reflexivity.
Qed.
Theorem line_ends (O : oracles) text e : ~ In CR text -> In e [[LF]; [CR]; [CR; LF]] ->
  tv_parse_from_file O (with_line_ends e text) = tv_parse O text.
Proof. intros H He. unfold tv_parse_from_file. rewrite (newlines_ends e He text H). reflexivity. Qed.
