(** What a successful match of a pattern means. *)
From Verif Require Import Py PyFacts PyRe PyReFacts.

(** [u] is matched by [r] before [rest]; [gs]: the groups, the last one first *)
Fixpoint Matches (r : prx) (u rest : pystr) (gs : groups) : Prop :=
  match r with
  | PEps => u = [] /\ gs = []
  | PSet p => (exists c, u = [c] /\ p c = true) /\ gs = []
  | PStar p => forallb p u = true /\ gs = []
  | PCat a b => exists u1 u2 g1 g2, u = u1 ++ u2 /\ gs = g2 ++ g1 /\ Matches a u1 (u2 ++ rest) g1 /\ Matches b u2 rest g2
  | PAlt a b => Matches a u rest gs \/ Matches b u rest gs
  | PGroup n a => exists g, gs = (n, u) :: g /\ Matches a u rest g
  | PEnd => u = [] /\ gs = [] /\ (rest = [] \/ rest = [LF])
  end.
Lemma star_sound p k s x : star_bt p k s = Some x -> exists u s', s = u ++ s' /\ forallb p u = true /\ k s' = Some x.
Proof.
  induction s as [|c s IH]; cbn [star_bt]; intro H; [exists [], []; auto|]. destruct (p c) eqn:E; [|exists [], (c :: s); auto].
  destruct (star_bt p k s) as [y|] eqn:F; [|exists [], (c :: s); auto]. destruct (IH H) as (u & s' & -> & A & B). exists (c :: u), s'. cbn. rewrite E. auto.
Qed.
Lemma pm_sound r : forall s g k x, pm r s g k = Some x -> exists u s' gs, s = u ++ s' /\ Matches r u s' gs /\ k s' (gs ++ g) = Some x.
Proof.
  induction r as [|p|p|a IHa b IHb|a IHa b IHb|n a IHa|]; intros s g k x H; cbn [pm Matches] in *.
  - exists [], s, []. auto.
  - destruct s as [|c s]; [discriminate|]. destruct (p c) eqn:E; [|discriminate]. exists [c], s, []. repeat split; eauto.
  - apply star_sound in H as (u & s' & -> & A & B). exists u, s', []. auto.
  - apply IHa in H as (u1 & s1 & g1 & -> & A & H). apply IHb in H as (u2 & s2 & g2 & -> & B & H). exists (u1 ++ u2), s2, (g2 ++ g1). rewrite <- !app_assoc. repeat split; auto.
    exists u1, u2, g1, g2. auto.
  - destruct (pm a s g k) as [y|] eqn:E.
    + injection H as ->. apply IHa in E as (u & s' & gs & A & B & C). exists u, s', gs. auto.
    + apply IHb in H as (u & s' & gs & A & B & C). exists u, s', gs. auto.
  - apply IHa in H as (u & s' & gs & -> & B & C). rewrite firstn_len_app in C. exists u, s', ((n, u) :: gs). repeat split; eauto.
  - exists [], s, []. destruct s as [|c [|d s]]; [| |discriminate].
    + auto 10.
    + destruct (N.eqb c LF) eqn:E; [|discriminate]. apply N.eqb_eq in E. subst c. auto 10.
Qed.
Lemma re_match_sound r s g : re_match r s = Some g -> exists u rest, s = u ++ rest /\ Matches r u rest g.
Proof.
  unfold re_match. destruct (pm r s [] _) as [[s' g']|] eqn:E; [|discriminate]. intro H. injection H as ->.
  apply pm_sound in E as (u & s1 & gs & -> & A & B). rewrite app_nil_r in B. injection B as _ <-. eauto.
Qed.
Lemma re_match_rest_sound r s rest g : re_match_rest r s = Some (rest, g) -> exists u, s = u ++ rest /\ Matches r u rest g.
Proof.
  unfold re_match_rest. intro E. apply pm_sound in E as (u & s1 & gs & -> & A & B). rewrite app_nil_r in B. injection B as -> ->. eauto.
Qed.
Lemma Matches_lit l u rest gs : Matches (plit l) u rest gs -> u = l /\ gs = [].
Proof.
  revert u gs. induction l as [|c l IH]; intros u gs; cbn [plit Matches]; [auto|].
  intros (u1 & u2 & g1 & g2 & -> & -> & ((c' & -> & E) & ->) & H). apply IH in H as [-> ->]. apply N.eqb_eq in E. subst. auto.
Qed.
Lemma Matches_plus p u rest gs : Matches (pplus p) u rest gs -> u <> [] /\ forallb p u = true /\ gs = [].
Proof.
  cbn. intros (u1 & u2 & g1 & g2 & -> & -> & ((c' & -> & E) & ->) & H & ->). repeat split; try discriminate. cbn. rewrite E. exact H.
Qed.
Lemma Matches_exact n p u rest gs : Matches (pexact n p) u rest gs -> List.length u = n /\ forallb p u = true /\ gs = [].
Proof.
  revert u gs. induction n as [|n IH]; intros u gs; cbn [pexact Matches]; [intros [-> ->]; auto|].
  intros (u1 & u2 & g1 & g2 & -> & -> & ((c' & -> & E) & ->) & H). apply IH in H as (<- & A & ->). repeat split; auto. cbn. rewrite E. exact A.
Qed.
Lemma Matches_alts l u rest gs : Matches (palts l) u rest gs -> exists r, In r l /\ Matches r u rest gs.
Proof.
  induction l as [|r l IH]; [intros ((c & _ & H) & _); discriminate|]. destruct l as [|r' l].
  - intro H. exists r. split; [left; auto|exact H].
  - intros [H|H]; [exists r; split; [left; auto|exact H]|]. apply IH in H as (x & A & B). exists x. split; [right; exact A|exact B].
Qed.
