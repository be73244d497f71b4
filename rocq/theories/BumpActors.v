(** C54: the conversion to SPDX 3 makes up no actors. *)
From Verif Require Import Py PyFacts Data Oracles Basics DocUtils Payload Bump BumpSpec BumpActorsSpec BumpFacts.

Section Invariant.
Variable ns : pystr.
Variable A : actor -> Prop.
Definition Good (e : element3) : Prop := match e with E3Actor x => exists a, A a /\ a3_id x = actor_id ns a /\ ActorSays a (a3_ci x) x | _ => True end.
Definition Keyed (k : pystr) (e : element3) : Prop := match e with E3Actor x => a3_id x = k | _ => True end.
Definition Inv (st : bstate) : Prop :=
  Forall Good (b_objs st) /\ forall k i, assoc k (b_map st) = Some i -> exists e, nth_error (b_objs st) i = Some e /\ Keyed k e.

Lemma good_set i x l : Forall Good l -> Good x -> Forall Good (set_nth i x l).
Proof.
  intros F X. apply Forall_forall. intros y I. apply In_nth_error in I as [j J]. rewrite set_nth_nth in J.
  destruct (Nat.eqb j i); [destruct (Nat.ltb i (List.length l)); congruence|]. rewrite Forall_forall in F. apply F. exact (nth_error_In _ _ J).
Qed.
Lemma inv_new st e : Good e -> Inv st -> Inv (fst (new_object st e)).
Proof.
  intros G [H1 H2]. split; cbn [new_object fst with_objs b_objs b_map]; [apply Forall_app; split; [exact H1|constructor; [exact G|constructor]]|].
  intros k i K. destruct (H2 k i K) as (x & X & Y). exists x. split; [|exact Y]. rewrite nth_error_app1; [exact X|]. apply nth_error_Some. rewrite X. discriminate.
Qed.
Lemma inv_add st i : Inv st -> Inv (add_element st i).
Proof.
  intros [H1 H2]. unfold add_element. destruct (nth_error (b_objs st) i) as [e|] eqn:E; [|split; assumption]. split; cbn [with_map b_objs b_map]; [exact H1|].
  intros k j K. destruct (list_eq_dec N.eq_dec k (e3_id e)) as [->|D].
  - rewrite assoc_dict_set_same in K. injection K as <-. exists e. split; [exact E|]. destruct e; try exact I. reflexivity.
  - rewrite assoc_dict_set_other in K by exact D. exact (H2 k j K).
Qed.
Lemma inv_add_new st e : Good e -> Inv st -> Inv (add_new st e).
Proof. intros G H. unfold add_new. destruct (new_object st e) as [st' i] eqn:E. apply inv_add. change st' with (fst (st', i)). rewrite <- E. apply inv_new; assumption. Qed.
Lemma inv_cis st c : Inv st -> Inv (with_cis st c). Proof. exact (fun H => H). Qed.
(** an object that is no actor is changed into one that is none *)
Lemma inv_set st i e : (forall k, Keyed k e) -> Good e -> Inv st -> Inv (with_objs st (set_nth i e (b_objs st))).
Proof.
  intros K G [H1 H2]. split; cbn [with_objs b_objs b_map]; [apply good_set; assumption|]. intros k j J. destruct (H2 k j J) as (x & X & Y). rewrite set_nth_nth.
  destruct (Nat.eqb j i) eqn:Q; [|eauto]. apply Nat.eqb_eq in Q. subst j. assert (L : i < List.length (b_objs st)) by (apply nth_error_Some; rewrite X; discriminate).
  apply Nat.ltb_lt in L. rewrite L. exists e. split; [reflexivity|apply K].
Qed.
Lemma inv_update f i st : Inv st -> Inv (update_document f i st).
Proof. intro H. unfold update_document. destruct (nth_error (b_objs st) i) as [[]|]; try exact H. apply inv_set; [intro; exact I|exact I|exact H]. Qed.
Lemma inv_import id i st : Inv st -> Inv (import_external id i st).
Proof. intro H. unfold import_external. destruct (has_char _ _); [apply inv_update|]; exact H. Qed.
Lemma inv_actor a ci st : A a -> Inv st -> Inv (fst (bump_actor a ns ci st)).
Proof.
  intros Ha H. unfold bump_actor. cbv zeta. destruct (assoc _ (b_map st)); [exact H|]. cbn [fst]. apply inv_add_new; [|exact H].
  exists a. split; [exact Ha|]. cbn [a3_id a3_ci]. split; [|unfold ActorSays; cbn [a3_kind a3_name a3_ci a3_extids]; repeat split; destruct (ac_email a) as [[|]|]; reflexivity].
  unfold actor_id, here. destruct (ac_email a) as [[|]|]; reflexivity.
Qed.
Lemma inv_optional o st : (forall a, o = Some (AVal a) -> A a) -> Inv st -> Inv (fst (bump_optional_actor o ns st)).
Proof.
  intros Ha H. unfold bump_optional_actor. destruct o as [[a|]|]; try exact H. pose proof (inv_actor a None st (Ha a eq_refl) H) as X. destruct (bump_actor a ns None st). exact X.
Qed.
Lemma inv_creators l : forall ci st cr tl, (forall a, In a l -> A a) -> Inv st -> Inv (fst (fst (bump_creators l ns ci st cr tl))).
Proof.
  induction l as [|a l IH]; intros ci st cr tl Ha H; cbn [bump_creators]; [exact H|]. pose proof (inv_actor a (Some ci) st (Ha a (or_introl eq_refl)) H) as X. destruct (bump_actor a ns (Some ci) st) as [st1 id].
  destruct (is_agent _); apply IH; try exact X; intros; apply Ha; right; assumption.
Qed.
Lemma inv_creation c st st' doc : ci_namespace c = ns -> (forall a, In a (ci_creators c) -> A a) -> Inv st -> bump_creation_info c st = Ok (st', doc) -> Inv st'.
Proof.
  intros N Ha H E. unfold bump_creation_info in E. destruct (map_result _ _) as [maps|]; [|discriminate E]. cbn [bind] in E. cbn [new_cinfo] in E. rewrite N in E.
  match type of E with context [bump_creators ?l ns ?i ?s ?x ?y] => pose proof (inv_creators l i s x y Ha H) as X; destruct (bump_creators l ns i s x y) as [[st1 cr] tl] end.
  cbn [fst] in X. match type of E with Ok (new_object ?s ?e) = _ => pose proof (inv_new s e I (inv_cis st1 _ X)) as Y; destruct (new_object s e) as [st2 j] end.
  cbn [fst] in Y. assert (Q : st2 = st') by congruence. subst. exact Y.
Qed.
Lemma inv_package p refs doc st st' : (forall a, pk_supplier p = Some (AVal a) \/ pk_originator p = Some (AVal a) -> A a) -> Inv st -> bump_package p ns refs doc st = Ok st' -> Inv st'.
Proof.
  intros Ha H E. unfold bump_package in E. destruct (get_full_element_spdx_id _ _ _) as [id|]; [|discriminate E]. cbn [bind] in E.
  pose proof (inv_optional (pk_supplier p) _ (fun a Q => Ha a (or_introl Q)) (inv_import (pk_id p) doc st H)) as X. destruct (bump_optional_actor (pk_supplier p) ns _) as [st1 s1]. cbn [fst] in X.
  pose proof (inv_optional (pk_originator p) _ (fun a Q => Ha a (or_intror Q)) X) as Y. destruct (bump_optional_actor (pk_originator p) ns _) as [st2 s2]. cbn [fst] in Y.
  destruct (map_result _ _) as [hs|]; [|discriminate E]. cbn [bind] in E. destruct (bump_external_refs _ _) as [xr xi].
  match type of E with bind ?P _ = _ => destruct P as [pu|]; [|discriminate E] end. cbn [bind] in E. destruct (check_homepage _) as [ho|]; [|discriminate E]. cbn [bind] in E.
  match type of E with Ok ?s = _ => assert (Q : s = st') by congruence end. rewrite <- Q. apply inv_add_new; [exact I|exact Y].
Qed.
Lemma inv_file f refs doc st st' : Inv st -> bump_file f ns refs doc st = Ok st' -> Inv st'.
Proof.
  intros H E. unfold bump_file in E. destruct (get_full_element_spdx_id _ _ _) as [id|]; [|discriminate E]. cbn [bind] in E. destruct (map_result _ _) as [hs|]; [|discriminate E]. cbn [bind] in E.
  match type of E with Ok ?s = _ => assert (Q : s = st') by congruence end. rewrite <- Q. apply inv_add_new; [exact I|apply inv_import; exact H].
Qed.
Lemma inv_snippet f refs doc st st' : Inv st -> bump_snippet f ns refs doc st = Ok st' -> Inv st'.
Proof.
  intros H E. unfold bump_snippet in E. destruct (get_full_element_spdx_id _ _ _) as [id|]; [|discriminate E]. cbn [bind] in E.
  match type of E with Ok ?s = _ => assert (Q : s = st') by congruence end. rewrite <- Q. apply inv_add_new; [exact I|apply inv_import; exact H].
Qed.
Lemma inv_each {B} (f : B -> bstate -> result bstate) l : (forall x st st', In x l -> Inv st -> f x st = Ok st' -> Inv st') -> forall st st', Inv st -> each f l st = Ok st' -> Inv st'.
Proof.
  induction l as [|x l IH]; intros F st st' H E; cbn [each] in E; [congruence|]. destruct (f x st) as [st1|] eqn:X; [|discriminate E]. cbn [bind] in E.
  apply (IH (fun y s s' J => F y s s' (or_intror J)) st1 st'); [exact (F x st st1 (or_introl eq_refl) H X)|exact E].
Qed.
Lemma inv_generate rs : forall n st g, Inv st -> Inv (fst (generate_relationships rs ns n st g)).
Proof.
  induction rs as [|r rs IH]; intros n st g H; cbn [generate_relationships]; [exact H|]. destruct (bump_relationship r ns n) as [x|]; [|apply IH; exact H].
  pose proof (inv_new st (E3Relationship x) I H) as X. destruct (new_object st (E3Relationship x)) as [st1 i]. apply IH. exact X.
Qed.
Lemma inv_loop l : forall st to co id, Inv st -> Inv (fst (fst (fst (merge_loop l st to co id)))).
Proof.
  induction l as [|a l IH]; intros st to co id H; cbn [merge_loop]; [exact H|]. destruct (rel_at st a) as [r|]; [|apply IH; exact H]. destruct (truthy_opt _); apply IH; [apply inv_add|]; exact H.
Qed.
Lemma inv_merge l st : Inv st -> Inv (merge_relationships l st).
Proof.
  intro H. unfold merge_relationships. pose proof (inv_loop l st [] None None H) as X. destruct (merge_loop l st [] None None) as [[[st1 to] co] id]. cbn [fst] in X.
  destruct to; [exact X|]. destruct (rev l) as [|i ?]; [exact X|]. destruct (rel_at st1 i); [|exact X]. apply inv_add, inv_set; [intro; exact I|exact I|exact X].
Qed.
Lemma inv_groups g : forall st, Inv st -> Inv (add_groups g st).
Proof.
  induction g as [|[k l] g IH]; intros st H; cbn [add_groups]; [exact H|]. destruct l as [|a [|b l]]; apply IH; [apply inv_merge|apply inv_add|apply inv_merge]; exact H.
Qed.
Lemma inv_annotations l : forall ci n st st', (forall x, In x l -> A (an_annotator x)) -> Inv st -> bump_annotations l ci ns n st = Ok st' -> Inv st'.
Proof.
  induction l as [|a l IH]; intros ci n st st' Ha H E; cbn [bump_annotations] in E; [congruence|]. destruct (bump_annotation a ci ns n st) as [st1|] eqn:X; [|discriminate E]. cbn [bind] in E.
  apply (IH ci (S n) st1 st'); [intros; apply Ha; right; assumption| |exact E]. clear E IH. unfold bump_annotation in X. destruct (nth_error (b_cis st) ci) as [c|]; [|discriminate X]. cbn [new_cinfo] in X.
  match type of X with context [bump_actor ?y ns ?i ?s] => pose proof (inv_actor y i s (Ha a (or_introl eq_refl)) H) as Y; destruct (bump_actor y ns i s) as [st2 cr] end. cbn [fst] in Y.
  destruct (enum_member _ _) as [t|]; [|discriminate X]. cbn [bind] in X. match type of X with Ok ?s = _ => assert (Q : s = st1) by congruence end. rewrite <- Q. apply inv_add_new; [exact I|]. destruct (is_agent _); exact Y.
Qed.
End Invariant.

Lemma actors_given d st doc i x : bump_spdx_document d = Ok (st, doc) -> get_element st i = Ok (E3Actor x) ->
  exists a, ActorOf d a /\ i = actor_id (ci_namespace (do_ci d)) a /\ a3_id x = i /\ ActorSays a (a3_ci x) x.
Proof.
  intros E G. set (ns := ci_namespace (do_ci d)). assert (H : Inv ns (ActorOf d) st).
  { unfold bump_spdx_document in E. destruct (bump_creation_info (do_ci d) _) as [[st0 doc0]|] eqn:C; [|discriminate E]. cbn [bind] in E.
    apply (inv_creation ns (ActorOf d)) in C; [|reflexivity|intros a I; left; exact I|split; [constructor|intros ? ? K; discriminate K]].
    cbv zeta in E. fold ns in E.
    match type of E with bind (each ?f ?l ?s) _ = _ => assert (C0 : Inv ns (ActorOf d) s) by (apply inv_add, inv_update, C); destruct (each f l s) as [st1|] eqn:E1; [|discriminate E] end. cbn [bind] in E.
    apply (inv_each ns (ActorOf d)) in E1; [|intros p s s' I Hs; apply inv_package; [intros a J; right; left; eauto|exact Hs]|exact C0].
    match type of E with bind (each ?f ?l ?s) _ = _ => destruct (each f l s) as [st2|] eqn:E2; [|discriminate E] end. cbn [bind] in E.
    apply (inv_each ns (ActorOf d)) in E2; [|intros p s s' I Hs; apply inv_file; exact Hs|exact E1].
    match type of E with bind (each ?f ?l ?s) _ = _ => destruct (each f l s) as [st3|] eqn:E3; [|discriminate E] end. cbn [bind] in E.
    apply (inv_each ns (ActorOf d)) in E3; [|intros p s s' I Hs; apply inv_snippet; exact Hs|exact E2].
    match type of E with bind (bump_annotations ?l ?c ns 0 ?s) _ = _ => destruct (bump_annotations l c ns 0 s) as [st4|] eqn:E4; [|discriminate E] end. cbn [bind] in E.
    apply (inv_annotations ns (ActorOf d)) in E4.
    - match type of E with Ok (?s, _) = _ => assert (Q : s = st) by congruence end. rewrite <- Q. apply inv_update. exact E4.
    - intros n I. right. right. eauto.
    - unfold bump_relationships. pose proof (inv_generate ns (ActorOf d) (do_relationships d) 0 st3 [] E3) as X. destruct (generate_relationships _ _ _ _ _) as [st5 gs]. apply inv_groups. exact X. }
  destruct H as [H1 H2]. unfold get_element in G. destruct (assoc i (b_map st)) as [j|] eqn:J; [|discriminate G]. destruct (H2 i j J) as (e & Ee & K). rewrite Ee in G.
  assert (Q : e = E3Actor x) by congruence. subst e. cbn [Keyed] in K. rewrite Forall_forall in H1. destruct (H1 _ (nth_error_In _ _ Ee)) as (a & Ha & Hi & Hs). exists a. repeat split; try assumption; try congruence; apply Hs.
Qed.
