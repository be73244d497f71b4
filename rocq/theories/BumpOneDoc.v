(** C53: the payload of the conversion to SPDX 3 has one document. *)
From Verif Require Import Py PyFacts Data Oracles Basics DocUtils Payload Bump BumpSpec BumpFacts.

Section Invariant.
Variable ns : pystr.
(** the id of the document, and its address *)
Variable D : pystr.
Variable doc : nat.
Definition Good (e : element3) : Prop := match e with E3Document x => d3_id x = D | _ => True end.
Definition Other (e : element3) : Prop := match e with E3Document _ => False | _ => True end.
Definition Keyed (k : pystr) (e : element3) : Prop := match e with E3Document x => d3_id x = k | _ => True end.
Definition Inv (st : bstate) : Prop :=
  (forall i e, nth_error (b_objs st) i = Some e -> Good e /\ (Other e \/ i = doc))
  /\ forall k i, assoc k (b_map st) = Some i -> exists e, nth_error (b_objs st) i = Some e /\ Keyed k e.

Lemma other_good e : Other e -> Good e. Proof. destruct e; intro H; try exact I. destruct H. Qed.
Lemma inv_new st e : Good e -> Other e \/ List.length (b_objs st) = doc -> Inv st -> Inv (fst (new_object st e)).
Proof.
  intros G O [H1 H2]. split; cbn [new_object fst with_objs b_objs b_map].
  - intros i x X. destruct (Nat.lt_ge_cases i (List.length (b_objs st))) as [L|L]; [rewrite nth_error_app1 in X by exact L; exact (H1 i x X)|]. rewrite nth_error_app2 in X by exact L.
    destruct (i - List.length (b_objs st)) as [|q] eqn:Q; [|destruct q; discriminate X]. cbn in X. assert (x = e) by congruence. subst x. split; [exact G|]. destruct O as [O|O]; [left; exact O|right; lia].
  - intros k i K. destruct (H2 k i K) as (x & X & Y). exists x. split; [|exact Y]. rewrite nth_error_app1; [exact X|]. apply nth_error_Some. rewrite X. discriminate.
Qed.
Lemma inv_add st i : Inv st -> Inv (add_element st i).
Proof.
  intros [H1 H2]. unfold add_element. destruct (nth_error (b_objs st) i) as [e|] eqn:E; [|split; assumption]. split; cbn [with_map b_objs b_map]; [exact H1|].
  intros k j K. destruct (list_eq_dec N.eq_dec k (e3_id e)) as [->|N].
  - rewrite assoc_dict_set_same in K. injection K as <-. exists e. split; [exact E|]. destruct e; try exact I. reflexivity.
  - rewrite assoc_dict_set_other in K by exact N. exact (H2 k j K).
Qed.
Lemma inv_add_new st e : Other e -> Inv st -> Inv (add_new st e).
Proof. intros G H. unfold add_new. destruct (new_object st e) as [st' i] eqn:E. apply inv_add. change st' with (fst (st', i)). rewrite <- E. apply inv_new; [apply other_good; exact G|left; exact G|exact H]. Qed.
Lemma inv_cis st c : Inv st -> Inv (with_cis st c). Proof. exact (fun H => H). Qed.
Lemma inv_set st i o e : nth_error (b_objs st) i = Some o -> Good e -> (Other o -> Other e) -> (forall k, Keyed k o -> Keyed k e) -> Inv st -> Inv (with_objs st (set_nth i e (b_objs st))).
Proof.
  intros N G Q K [H1 H2]. assert (L : Nat.ltb i (List.length (b_objs st)) = true) by (apply Nat.ltb_lt, nth_error_Some; rewrite N; discriminate).
  split; cbn [with_objs b_objs b_map].
  - intros j x X. rewrite set_nth_nth, L in X. destruct (Nat.eqb j i) eqn:J; [|exact (H1 j x X)]. apply Nat.eqb_eq in J. subst j. assert (x = e) by congruence. subst x. split; [exact G|].
    destruct (H1 i o N) as [_ [Y|Y]]; [left; exact (Q Y)|right; exact Y].
  - intros k j J. destruct (H2 k j J) as (x & X & Y). rewrite set_nth_nth, L. destruct (Nat.eqb j i) eqn:Z; [|eauto]. apply Nat.eqb_eq in Z. subst j. exists e. split; [reflexivity|]. apply K. congruence.
Qed.
Lemma inv_update f i st : (forall x, d3_id (f x) = d3_id x) -> Inv st -> Inv (update_document f i st).
Proof.
  intros F H. unfold update_document. destruct (nth_error (b_objs st) i) as [[]|] eqn:E; try exact H. apply (inv_set st i _ _ E); [|intros []| |exact H].
  - cbn [Good]. rewrite F. exact (proj1 (proj1 H i _ E)).
  - intros k K. cbn [Keyed] in *. rewrite F. exact K.
Qed.
Lemma inv_import id i st : Inv st -> Inv (import_external id i st).
Proof. intro H. unfold import_external. destruct (has_char _ _); [apply inv_update; [reflexivity|]|]; exact H. Qed.
Lemma inv_actor a ci st : Inv st -> Inv (fst (bump_actor a ns ci st)).
Proof. intro H. unfold bump_actor. cbv zeta. destruct (assoc _ (b_map st)); [exact H|]. cbn [fst]. apply inv_add_new; [exact I|exact H]. Qed.
Lemma inv_optional o st : Inv st -> Inv (fst (bump_optional_actor o ns st)).
Proof. intro H. unfold bump_optional_actor. destruct o as [[a|]|]; try exact H. pose proof (inv_actor a None st H) as X. destruct (bump_actor a ns None st). exact X. Qed.
Lemma inv_creators l : forall ci st cr tl, Inv st -> Inv (fst (fst (bump_creators l ns ci st cr tl))).
Proof.
  induction l as [|a l IH]; intros ci st cr tl H; cbn [bump_creators]; [exact H|]. pose proof (inv_actor a (Some ci) st H) as X. destruct (bump_actor a ns (Some ci) st) as [st1 id].
  destruct (is_agent _); apply IH; exact X.
Qed.
Lemma inv_creation c st st' : ci_namespace c = ns -> D = here ns (ci_id c) -> Inv st -> bump_creation_info c st = Ok (st', doc) -> Inv st'.
Proof.
  intros N ED H E. unfold bump_creation_info in E. destruct (map_result _ _) as [maps|]; [|discriminate E]. cbn [bind] in E. cbn [new_cinfo] in E. rewrite N in E.
  match type of E with context [bump_creators ?l ns ?i ?s ?x ?y] => pose proof (inv_creators l i s x y H) as X; destruct (bump_creators l ns i s x y) as [[st1 cr] tl] end.
  cbn [fst] in X. match type of E with Ok (new_object ?s ?e) = _ => pose proof (inv_new s e) as Y; assert (Q : new_object s e = (st', doc)) by congruence; rewrite Q in Y end.
  cbn [fst] in Y. apply Y; [symmetry; exact ED| |exact X]. right. exact (f_equal snd Q).
Qed.
Lemma inv_package p refs dd st st' : Inv st -> bump_package p ns refs dd st = Ok st' -> Inv st'.
Proof.
  intros H E. unfold bump_package in E. destruct (get_full_element_spdx_id _ _ _) as [id|]; [|discriminate E]. cbn [bind] in E.
  pose proof (inv_optional (pk_supplier p) _ (inv_import (pk_id p) dd st H)) as X. destruct (bump_optional_actor (pk_supplier p) ns _) as [st1 s1]. cbn [fst] in X.
  pose proof (inv_optional (pk_originator p) _ X) as Y. destruct (bump_optional_actor (pk_originator p) ns _) as [st2 s2]. cbn [fst] in Y.
  destruct (map_result _ _) as [hs|]; [|discriminate E]. cbn [bind] in E. destruct (bump_external_refs _ _) as [xr xi].
  match type of E with bind ?P _ = _ => destruct P as [pu|]; [|discriminate E] end. cbn [bind] in E. destruct (check_homepage _) as [ho|]; [|discriminate E]. cbn [bind] in E.
  match type of E with Ok ?s = _ => assert (Q : s = st') by congruence end. rewrite <- Q. apply inv_add_new; [exact I|exact Y].
Qed.
Lemma inv_file f refs dd st st' : Inv st -> bump_file f ns refs dd st = Ok st' -> Inv st'.
Proof.
  intros H E. unfold bump_file in E. destruct (get_full_element_spdx_id _ _ _) as [id|]; [|discriminate E]. cbn [bind] in E. destruct (map_result _ _) as [hs|]; [|discriminate E]. cbn [bind] in E.
  match type of E with Ok ?s = _ => assert (Q : s = st') by congruence end. rewrite <- Q. apply inv_add_new; [exact I|apply inv_import; exact H].
Qed.
Lemma inv_snippet f refs dd st st' : Inv st -> bump_snippet f ns refs dd st = Ok st' -> Inv st'.
Proof.
  intros H E. unfold bump_snippet in E. destruct (get_full_element_spdx_id _ _ _) as [id|]; [|discriminate E]. cbn [bind] in E.
  match type of E with Ok ?s = _ => assert (Q : s = st') by congruence end. rewrite <- Q. apply inv_add_new; [exact I|apply inv_import; exact H].
Qed.
Lemma inv_each {B} (f : B -> bstate -> result bstate) l : (forall x st st', In x l -> Inv st -> f x st = Ok st' -> Inv st') -> forall st st', Inv st -> each f l st = Ok st' -> Inv st'.
Proof.
  induction l as [|x l IH]; intros F st st' H E; cbn [each] in E; [congruence|]. destruct (f x st) as [st1|] eqn:X; [|discriminate E]. cbn [bind] in E.
  apply (IH (fun y s s' J => F y s s' (or_intror J)) st1 st'); [exact (F x st st1 (or_introl eq_refl) H X)|exact E].
Qed.
Lemma inv_generate rs : forall n st g, Inv st -> Inv (fst (generate_relationships rs ns n st g)).
Proof.
  induction rs as [|r rs IH]; intros n st g H; cbn [generate_relationships]; [exact H|]. destruct (bump_relationship r ns n) as [x|]; [|apply IH; exact H].
  pose proof (inv_new st (E3Relationship x) I (or_introl I) H) as X. destruct (new_object st (E3Relationship x)) as [st1 i]. apply IH. exact X.
Qed.
Lemma inv_loop l : forall st to co id, Inv st -> Inv (fst (fst (fst (merge_loop l st to co id)))).
Proof.
  induction l as [|a l IH]; intros st to co id H; cbn [merge_loop]; [exact H|]. destruct (rel_at st a) as [r|]; [|apply IH; exact H]. destruct (truthy_opt _); apply IH; [apply inv_add|]; exact H.
Qed.
Lemma inv_merge l st : Inv st -> Inv (merge_relationships l st).
Proof.
  intro H. unfold merge_relationships. pose proof (inv_loop l st [] None None H) as X. destruct (merge_loop l st [] None None) as [[[st1 to] co] id]. cbn [fst] in X.
  destruct to; [exact X|]. destruct (rev l) as [|i ?]; [exact X|]. unfold rel_at. destruct (nth_error (b_objs st1) i) as [[]|] eqn:E; try exact X. apply inv_add, (inv_set st1 i _ _ E); [exact I|intro; exact I|intros; exact I|exact X].
Qed.
Lemma inv_groups g : forall st, Inv st -> Inv (add_groups g st).
Proof.
  induction g as [|[k l] g IH]; intros st H; cbn [add_groups]; [exact H|]. destruct l as [|a [|b l]]; apply IH; [apply inv_merge|apply inv_add|apply inv_merge]; exact H.
Qed.
Lemma inv_annotations l : forall ci n st st', Inv st -> bump_annotations l ci ns n st = Ok st' -> Inv st'.
Proof.
  induction l as [|a l IH]; intros ci n st st' H E; cbn [bump_annotations] in E; [congruence|]. destruct (bump_annotation a ci ns n st) as [st1|] eqn:X; [|discriminate E]. cbn [bind] in E.
  apply (IH ci (S n) st1 st'); [|exact E]. clear E IH. unfold bump_annotation in X. destruct (nth_error (b_cis st) ci) as [c|]; [|discriminate X]. cbn [new_cinfo] in X.
  match type of X with context [bump_actor ?y ns ?i ?s] => pose proof (inv_actor y i s H) as Y; destruct (bump_actor y ns i s) as [st2 cr] end. cbn [fst] in Y.
  destruct (enum_member _ _) as [t|]; [|discriminate X]. cbn [bind] in X. match type of X with Ok ?s = _ => assert (Q : s = st1) by congruence end. rewrite <- Q. apply inv_add_new; [exact I|]. destruct (is_agent _); exact Y.
Qed.
End Invariant.

Lemma one_document d st doc i x : bump_spdx_document d = Ok (st, doc) -> get_element st i = Ok (E3Document x) -> i = document_id d /\ nth_error (b_objs st) doc = Some (E3Document x).
Proof.
  intros E G. set (ns := ci_namespace (do_ci d)). assert (H : Inv (document_id d) doc st).
  { unfold bump_spdx_document in E. destruct (bump_creation_info (do_ci d) _) as [[st0 doc0]|] eqn:C; [|discriminate E]. cbn [bind] in E. assert (DD : doc0 = doc).
    { cbv zeta in E. repeat match type of E with bind ?X _ = _ => destruct X; [|discriminate E]; cbn [bind] in E end. congruence. }
    subst doc0. apply (inv_creation ns (document_id d) doc) in C; [|reflexivity|reflexivity|split; [intros [|?] ? K; discriminate K|intros ? ? K; discriminate K]].
    cbv zeta in E. fold ns in E.
    match type of E with bind (each ?f ?l ?s) _ = _ => assert (C0 : Inv (document_id d) doc s) by (apply inv_add, inv_update; [reflexivity|exact C]); destruct (each f l s) as [st1|] eqn:E1; [|discriminate E] end. cbn [bind] in E.
    apply (inv_each (document_id d) doc) in E1; [|intros p s s' I Hs; apply inv_package; exact Hs|exact C0].
    match type of E with bind (each ?f ?l ?s) _ = _ => destruct (each f l s) as [st2|] eqn:E2; [|discriminate E] end. cbn [bind] in E.
    apply (inv_each (document_id d) doc) in E2; [|intros p s s' I Hs; apply inv_file; exact Hs|exact E1].
    match type of E with bind (each ?f ?l ?s) _ = _ => destruct (each f l s) as [st3|] eqn:E3; [|discriminate E] end. cbn [bind] in E.
    apply (inv_each (document_id d) doc) in E3; [|intros p s s' I Hs; apply inv_snippet; exact Hs|exact E2].
    match type of E with bind (bump_annotations ?l ?c ns 0 ?s) _ = _ => destruct (bump_annotations l c ns 0 s) as [st4|] eqn:E4; [|discriminate E] end. cbn [bind] in E.
    apply (inv_annotations ns (document_id d) doc) in E4.
    - match type of E with Ok (?s, _) = _ => assert (Q : s = st) by congruence end. rewrite <- Q. apply inv_update; [reflexivity|exact E4].
    - unfold bump_relationships. pose proof (inv_generate ns (document_id d) doc (do_relationships d) 0 st3 [] E3) as X. destruct (generate_relationships _ _ _ _ _) as [st5 gs]. apply inv_groups. exact X. }
  destruct H as [H1 H2]. unfold get_element in G. destruct (assoc i (b_map st)) as [j|] eqn:J; [|discriminate G]. destruct (H2 i j J) as (e & Ee & K). rewrite Ee in G.
  assert (Q : e = E3Document x) by congruence. subst e. cbn [Keyed] in K. destruct (H1 _ _ Ee) as [HG [[]|HG']]. cbn [Good] in HG. subst j. split; [congruence|exact Ee].
Qed.
