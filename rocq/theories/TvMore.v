(** Corollaries of the facts about the tag-value form. *)
From Verif Require Import Py Data Oracles Basics BasicsSpec JsonSpec Samples TvWriter TvLexer TvParser TvSpec TvTokSpec.
From Verif Require Import PyFacts TvFieldFacts TvRaises.

Lemma checksum_comes_back c v : TvChecksum c -> write_checksum_to_tag_value c = Ok v -> tv_parse_checksum v = Ok c.
Proof.
  intros H E. pose proof (parse_sum c H) as K. assert (Ev : v = sum_text c).
  { unfold write_checksum_to_tag_value in E. unfold sum_text. destruct c as [[] h]; cbn in E; injection E as <-; reflexivity. }
  rewrite Ev. exact K.
Qed.

Lemma flat_map_single (A : Type) (f : A -> list A) (l : list A) : (forall x, In x l -> f x = [x]) -> flat_map f l = l.
Proof.
  induction l as [|x l IH]; intro H; [reflexivity|]. cbn [flat_map]. rewrite (H x (or_introl eq_refl)), IH by (intros y Hy; apply H; right; exact Hy). reflexivity.
Qed.

Lemma same_relationships d d' : TvSame d d' ->
  (forall r, In r (do_relationships d) -> packs d r = true -> re_type r = RT_CONTAINS /\ re_comment r = None) ->
  Permutation (do_relationships d) (do_relationships d').
Proof.
  intros HS H. pose proof (sd_relationships d d' HS) as K. rewrite flat_map_single in K; [exact K|].
  intros r Hr. unfold expressed. destruct (packs d r) eqn:E; [|reflexivity]. destruct (H r Hr E) as (H1 & H2).
  assert (T : turned d r = r) by (unfold turned; rewrite H1; reflexivity). unfold plain. rewrite T. destruct r as [i t x c]. cbn in *. subst. reflexivity.
Qed.

Lemma sample_raises s e : o_lic_parse sample_oracles s = Raise e -> exists m, e = EExpr m.
Proof.
  change (o_lic_parse sample_oracles s) with (lexpr_read s). unfold lexpr_read.
  destruct (split_on #" " s) as [|a [|b [|c [|]]]]; try destruct (str_eqb _ _); intro H; try discriminate H.
  all: exists $"?"; apply (f_equal (fun r => match r with Raise x => x | _ => e end)) in H; symmetry; exact H.
Qed.
