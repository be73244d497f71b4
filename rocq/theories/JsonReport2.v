(** C74: the document around the mistake. *)
From Verif Require Import Py PyFacts Data Oracles Basics Json Construct JsonParse JsonSpec JsonFacts JsonErrors JsonReportSpec JsonReport.

Ltac walk_top H := cbn [jget jget_default bind] in H;
  repeat (match type of H with bind (top_field ?o ?j ?f) _ = Ok _ => let E := fresh "E" in destruct (top_field o j f) as [[? ?]|] eqn:E; [|discriminate H] end; cbn [bind] in H).
Ltac top_again := repeat (match goal with E : top_field ?o ?j ?f = Ok _ |- context [top_field ?o ?j ?f] => rewrite E end; cbn [bind]).

Section WithOracles.
Variable O : oracles.

Lemma field_old {A} (f : json -> list pystr * result A) l y : top_field true (JArr l) (parse_list_of_elements_log f) = Ok ([], y) -> exists r, parse_elements f l = Ok ([], r).
Proof.
  unfold top_field. cbn [andb jtruthy]. destruct l as [|z l]; [intros _; exists []; reflexivity|]. cbn [truthy_list negb]. unfold parse_list_of_elements_log. cbn [jiter bind].
  destruct (parse_elements f (z :: l)) as [[log r]|e] eqn:E; cbn [bind].
  - destruct log; [eauto|discriminate].
  - destruct e; try discriminate. intro K. exfalso. clear K. revert E. generalize (z :: l) as w. induction w as [|u w IH]; [discriminate|]. cbn [parse_elements].
    destruct (f u) as [n [v|e'']]; [|destruct (caught e'') eqn:C'; [|intro P; injection P as ->; discriminate C']]; (destruct (parse_elements f w) as [[? ?]|]; [discriminate|]); intro P; injection P as ->; auto.
Qed.
Lemma top_middle {A} (f : json -> list pystr * result A) a old b y new m : top_field true (JArr (a ++ old :: b)) (parse_list_of_elements_log f) = Ok ([], y) -> f new = ([], Raise (EParsing [m])) ->
  top_field true (JArr (a ++ new :: b)) (parse_list_of_elements_log f) = Ok ([m], None).
Proof.
  intros H F. destruct (field_old f _ _ H) as (r & E). unfold top_field. cbn [andb jtruthy]. rewrite truthy_mid. cbn [negb]. unfold parse_list_of_elements_log. cbn [jiter bind].
  destruct (elements_middle f a [old] b r new (EParsing [m]) [] [m] E F eq_refl) as (r' & ->). reflexivity.
Qed.
Lemma top_middle_quiet {A} (f : json -> result A) a old b y new m : top_field true (JArr (a ++ old :: b)) (parse_list_of_elements f) = Ok ([], y) -> f new = Raise (EParsing [m]) ->
  top_field true (JArr (a ++ new :: b)) (parse_list_of_elements f) = Ok ([m], None).
Proof. intros H F. apply (top_middle (quiet f) a old b y new m); [exact H|]. unfold quiet. rewrite F. reflexivity. Qed.

(** ** What does not change *)
Definition far (k : pystr) : Prop := k <> $"SPDXID" /\ k <> $"annotations" /\ k <> $"hasFiles".
Lemma annotations_same k v old new a b : far k -> Changed k v old new -> annotations_loop (a ++ JObj new :: b) = annotations_loop (a ++ JObj old :: b).
Proof.
  intros (F1 & F2 & _) [_ C]. induction a as [|y a IH]; cbn [app annotations_loop].
  - cbn [jget jget_default bind]. rewrite !C by congruence. reflexivity.
  - rewrite IH. reflexivity.
Qed.
Lemma has_files_same ex k v old new a b : far k -> Changed k v old new -> has_files_loop ex (a ++ JObj new :: b) = has_files_loop ex (a ++ JObj old :: b).
Proof.
  intros (F1 & _ & F3) [_ C]. induction a as [|y a IH]; cbn [app has_files_loop].
  - cbn [jget jget_default bind]. rewrite !C by congruence. reflexivity.
  - rewrite IH. reflexivity.
Qed.
Lemma creation_same key v kvs kvs' : In key [$"packages"; $"files"; $"snippets"; $"hasExtractedLicensingInfos"; $"relationships"] -> Changed key v kvs kvs' -> parse_creation_info (JObj kvs') = parse_creation_info (JObj kvs).
Proof.
  intros I [_ C]. unfold parse_creation_info. cbn [jget jget_default bind].
  repeat (destruct I as [<-|I]; [same C kvs'; reflexivity|]). destruct I.
Qed.
Lemma all_annotations_same key k v old kvs kvs' : In key [$"packages"; $"files"; $"snippets"] -> far k -> ChangedIn key k v old kvs kvs' -> parse_all_annotations (JObj kvs') = parse_all_annotations (JObj kvs).
Proof.
  intros I F (a & new & b & K & Cn & [V C]). unfold parse_all_annotations. cbn [annotations_loop jget jget_default bind].
  repeat (destruct I as [<-|I]; [rewrite V, K; same C kvs'; unfold parse_annotations_from_object; cbn [jiter bind]; rewrite (annotations_same k v old new a b F Cn); reflexivity|]). destruct I.
Qed.
Lemma all_relationships_same key k v old kvs kvs' : In key [$"packages"; $"files"; $"snippets"] -> far k -> ChangedIn key k v old kvs kvs' -> parse_all_relationships (JObj kvs') = parse_all_relationships (JObj kvs).
Proof.
  intros I F (a & new & b & K & Cn & [V C]). unfold parse_all_relationships. cbn [jget jget_default bind].
  assert (X : forall ex, parse_field (JArr (a ++ JObj new :: b)) (parse_has_files ex) = parse_field (JArr (a ++ JObj old :: b)) (parse_has_files ex)).
  { intro ex. unfold parse_field, parse_has_files. cbn [jtruthy jiter bind]. rewrite !truthy_mid, (has_files_same ex k v old new a b F Cn). reflexivity. }
  destruct I as [<-|I].
  - rewrite V, K. same C kvs'.
    match goal with |- bind ?r _ = _ => destruct r as [[? ?]|]; [|reflexivity] end. cbn [bind]. match goal with |- bind ?r _ = _ => destruct r; [|reflexivity] end. cbn [bind].
    match goal with |- bind ?r _ = _ => destruct r as [[? ?]|]; [|reflexivity] end. cbn [bind]. rewrite X. reflexivity.
  - repeat (destruct I as [<-|I]; [same C kvs'; reflexivity|]). destruct I.
Qed.

(** ** The document *)
Lemma if_ok log : raise_if log = Ok tt -> log = []. Proof. destruct log; [reflexivity|discriminate]. Qed.
Lemma top_same {A} b j j' (f : json -> result A) : f j' = f j -> jtruthy j' = jtruthy j -> top_field b j' f = top_field b j f.
Proof. intros H T. unfold top_field. rewrite H, T. reflexivity. Qed.
Lemma assoc_truthy {A} k (v : A) l : assoc k l = Some v -> truthy_list l = true. Proof. destruct l; [discriminate|reflexivity]. Qed.
(** the run on the changed document, given what each part yields *)
Lemma truthy_both k v v' kvs kvs' : assoc k kvs = Some v -> assoc k kvs' = Some v' -> jtruthy (JObj kvs') = jtruthy (JObj kvs).
Proof. intros H H'. cbn [jtruthy]. rewrite (assoc_truthy _ _ _ H), (assoc_truthy _ _ _ H'). reflexivity. Qed.
End WithOracles.
Ltac unchanged H key k v p kvs kvs' I Fa X K V C :=
  unfold parse_dict in H |- *;
  let I5 := fresh in assert (I5 : In key [$"packages"; $"files"; $"snippets"; $"hasExtractedLicensingInfos"; $"relationships"]) by (cbn; auto 6);
  rewrite <- (top_same false _ _ _ (creation_same key _ kvs kvs' I5 (conj V C)) (truthy_both _ _ _ _ _ K V)) in H;
  rewrite <- (top_same true _ _ _ (all_annotations_same _ k v p kvs kvs' I Fa X) (truthy_both _ _ _ _ _ K V)) in H;
  rewrite <- (top_same true _ _ _ (all_relationships_same _ k v p kvs kvs' I Fa X) (truthy_both _ _ _ _ _ K V)) in H.
Section WithOracles.
Variable O : oracles.
Theorem in_package kvs kvs' d k v p m : parse_dict O (JObj kvs) = Ok d -> ChangedIn $"packages" k v p kvs kvs' -> PackageMistake O p k v m ->
  parse_dict O (JObj kvs') = Raise (EParsing [parsing $"Package" m]).
Proof.
  intros H X M. pose proof (no_partial_document O kvs d H) as (_ & _ & _ & (l & EA & F) & _). pose proof X as (a & new & b & K & Cn & [V C]). unfold EntriesAt in EA. rewrite K in EA. subst l.
  assert (P : exists pk, parse_package O (JObj p) = ([], Ok pk)).
  { apply Forall2_app_inv_l in F as (? & ? & _ & F & _). inversion F as [|? pk ? ? Hp]; subst. exists pk. exact Hp. }
  destruct P as (pk & P). pose proof (package_mistake O p new k v m pk P Cn M) as E'.
  assert (Fa : far k) by (unfold far; destruct M as [? ? ? I|? ? ? I|? ? ?|? ?|? ? ?]; try (destruct I as [<-|[<-|[]]]); repeat split; discriminate).
  unchanged H $"packages" k v p kvs kvs' (@or_introl ($"packages" = $"packages") (In $"packages" [$"files"; $"snippets"]) eq_refl) Fa X K V C.
  walk_top H. apply bind_Ok in H as ([] & N & _). apply if_ok in N. empty_logs N. rewrite K in *.
  match goal with E : top_field true (JArr _) _ = Ok ([], _) |- _ => pose proof (top_middle _ _ _ _ _ _ _ E E') end.
  cbn [jget jget_default bind]. rewrite V. same C kvs'. top_again. reflexivity.
Qed.
Theorem in_file kvs kvs' d k v p m : parse_dict O (JObj kvs) = Ok d -> ChangedIn $"files" k v p kvs kvs' -> FileMistake O p k v m ->
  parse_dict O (JObj kvs') = Raise (EParsing [parsing $"File" m]).
Proof.
  intros H X M. pose proof (no_partial_document O kvs d H) as (_ & _ & _ & _ & (l & EA & F) & _). pose proof X as (a & new & b & K & Cn & [V C]). unfold EntriesAt in EA. rewrite K in EA. subst l.
  assert (P : exists pk, parse_file O (JObj p) = Ok pk).
  { apply Forall2_app_inv_l in F as (? & ? & _ & F & _). inversion F as [|? pk ? ? Hp]; subst. exists pk. injection Hp. auto. }
  destruct P as (pk & P). pose proof (file_mistake O p new k v m pk P Cn M) as E'.
  assert (Fa : far k) by (unfold far; destruct M; repeat split; discriminate).
  unchanged H $"files" k v p kvs kvs' (@or_intror ($"packages" = $"files") (In $"files" [$"files"; $"snippets"]) (or_introl eq_refl)) Fa X K V C.
  walk_top H. apply bind_Ok in H as ([] & N & _). apply if_ok in N. empty_logs N. rewrite K in *.
  match goal with E : top_field true (JArr _) _ = Ok ([], _) |- _ => pose proof (top_middle_quiet _ _ _ _ _ _ _ E E') end.
  cbn [jget jget_default bind]. rewrite V. same C kvs'. top_again. reflexivity.
Qed.
Theorem in_snippet kvs kvs' d k v p m : parse_dict O (JObj kvs) = Ok d -> ChangedIn $"snippets" k v p kvs kvs' -> SnippetMistake O p k v m ->
  parse_dict O (JObj kvs') = Raise (EParsing [parsing $"snippet" m]).
Proof.
  intros H X M. pose proof (no_partial_document O kvs d H) as (_ & _ & _ & _ & _ & (l & EA & F) & _). pose proof X as (a & new & b & K & Cn & [V C]). unfold EntriesAt in EA. rewrite K in EA. subst l.
  assert (P : exists pk, parse_snippet O (JObj p) = Ok pk).
  { apply Forall2_app_inv_l in F as (? & ? & _ & F & _). inversion F as [|? pk ? ? Hp]; subst. exists pk. injection Hp. auto. }
  destruct P as (pk & P). pose proof (snippet_mistake O p new k v m pk P Cn M) as E'.
  assert (Fa : far k) by (unfold far; destruct M; repeat split; discriminate).
  unchanged H $"snippets" k v p kvs kvs' (@or_intror ($"packages" = $"snippets") (In $"snippets" [$"files"; $"snippets"]) (or_intror (or_introl eq_refl))) Fa X K V C.
  walk_top H. apply bind_Ok in H as ([] & N & _). apply if_ok in N. empty_logs N. rewrite K in *.
  match goal with E : top_field true (JArr _) _ = Ok ([], _) |- _ => pose proof (top_middle_quiet _ _ _ _ _ _ _ E E') end.
  cbn [jget jget_default bind]. rewrite V. same C kvs'. top_again. reflexivity.
Qed.
End WithOracles.
