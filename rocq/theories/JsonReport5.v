(** C74: mistakes in annotations and references of packages. *)
From Verif Require Import Py PyFacts Data Oracles Basics ValidationSpec BasicsSpec BasicsFacts Json Construct JsonParse JsonSpec JsonFacts JsonErrors JsonRead JsonRead2 JsonRead4 JsonReportSpec JsonReport JsonReport2 JsonReport3 JsonReport4.

Section WithOracles.
Variable O : oracles.

(** ** Annotations *)
Lemma annotation_mistake parent old new k v m r : parse_annotation parent (JObj old) = Ok r -> Changed k v old new -> AnnotationMistake k v m -> parse_annotation parent (JObj new) = Raise (EParsing [parsing $"Annotation" m]).
Proof.
  intros R [V C] M. unfold parse_annotation in R. walk R. apply bind_Ok in R as ([] & N & _). apply named_ok in N. empty_logs N. unfold parse_annotation. cbn [jget jget_default bind]. destruct M as [s N W|v m W].
  - assert (Y : parse_field (JStr s) parse_annotation_type = Ok ([$"Invalid AnnotationType: " ++ s], None)).
    { apply field_error. split; [|destruct s; [congruence|reflexivity]]. unfold parse_annotation_type, enum_item. cbn [hashable negb bind]. rewrite lookup_none by exact W. reflexivity. }
    rewrite V; same C new; again. reflexivity.
  - apply wrong_actor, field_error in W. rewrite V; same C new; again. reflexivity.
Qed.
Lemma elements_each {A} (f : json -> result A) l : (forall x, Noisy (f x)) -> forall r, parse_elements (quiet f) l = Ok ([], r) -> forall x, In x l -> exists y, f x = Ok y.
Proof.
  intro N. induction l as [|z l IH]; intros r H x I; [destruct I|]. cbn [parse_elements quiet] in H. destruct (f z) as [y|e] eqn:E.
  - destruct (parse_elements (quiet f) l) as [[ms s]|]; [|discriminate H]. cbn [bind app] in H. injection H as -> _. destruct I as [<-|I]; [eauto|exact (IH _ eq_refl x I)].
  - destruct (caught e) as [ms'|] eqn:Ce; [|discriminate H]. destruct (parse_elements (quiet f) l) as [[ms s]|]; [|discriminate H]. cbn [bind app] in H. injection H as H _. apply app_eq_nil in H as [-> _]. destruct (N z e E Ce).
Qed.
Lemma field_list_each {A} (f : json -> result A) l y : (forall x, Noisy (f x)) -> parse_field_list (JArr l) f = Ok ([], y) -> forall x, In x l -> exists z, f x = Ok z.
Proof.
  intros N H. destruct (field_quiet _ _ _ (noisy_elements_list f (JArr l)) H) as [T|(r & E)]; [destruct l; [intros x []|discriminate T]|].
  unfold parse_list_of_elements, parse_list_of_elements_log in E. cbn [jiter bind] in E. destruct (parse_elements (quiet f) l) as [[log s]|] eqn:P; [|discriminate E]. cbn [bind] in E. destruct log; [|discriminate E]. exact (elements_each f l N s P).
Qed.
Lemma annotations_mid a b e e' k v old m r : annotations_loop (a ++ JObj e :: b) = Ok ([], r) -> ChangedIn $"annotations" k v old e e' -> AnnotationMistake k v m ->
  exists r', annotations_loop (a ++ JObj e' :: b) = Ok ([parsing $"Annotation" m], r').
Proof.
  intros H (x & new & y & K & Cn & [V C]) M. revert r H. induction a as [|z a IH]; intros r H; cbn [app annotations_loop] in *.
  - cbn [jget jget_default bind] in *. rewrite V, (C $"SPDXID") by discriminate. rewrite K in H. destruct (parse_field_list _ _) as [[l0 r0]|] eqn:E in H; [|discriminate H]. cbn [bind] in H.
    destruct (annotations_loop b) as [[ms rs]|]; [|discriminate H]. cbn [bind] in H. injection H as H _. apply app_eq_nil in H as [-> ->].
    destruct (field_list_each _ _ _ (fun x => noisy_annotation _ x) E (JObj old) (in_elt _ _ _)) as (an & A).
    rewrite (field_list_error _ x [JObj old] y (JObj new) (parsing $"Annotation" m) _ E (annotation_mistake _ old new k v m an A Cn M)). cbn [bind app]. eauto.
  - destruct (jget $"SPDXID" z) as [i|]; [|discriminate H]. cbn [bind] in *. destruct (jget_default $"annotations" (JArr []) z) as [an|]; [|discriminate H]. cbn [bind] in *.
    destruct (parse_field_list an (parse_annotation i)) as [[l0 r0]|]; [|discriminate H]. cbn [bind] in *. destruct (annotations_loop (a ++ JObj e :: b)) as [[ms rs]|]; [|discriminate H]. cbn [bind] in H.
    injection H as H _. apply app_eq_nil in H as [-> ->]. destruct (IH _ eq_refl) as (r' & ->). cbn [bind app]. eauto.
Qed.
Ltac ann_walk R :=
  repeat (match type of R with
          | bind (annotations_loop ?l) _ = Ok _ => let E := fresh "E" in destruct (annotations_loop l) as [[? ?]|] eqn:E; [|discriminate R]
          | bind (parse_annotations_from_object ?l) _ = Ok _ => let E := fresh "E" in destruct (parse_annotations_from_object l) as [[? ?]|] eqn:E; [|discriminate R]
          | bind (parse_elements ?f ?l) _ = Ok _ => let E := fresh "E" in destruct (parse_elements f l) as [[? ?]|] eqn:E; [|discriminate R]
          | bind (jiter ?l) _ = Ok _ => let E := fresh "E" in destruct (jiter l) eqn:E; [|discriminate R]
          end; cbn [bind] in R).
Ltac ann_again := repeat (match goal with E : annotations_loop ?l = Ok _ |- context [annotations_loop ?l] => rewrite E
   | E : parse_annotations_from_object ?l = Ok _ |- context [parse_annotations_from_object ?l] => rewrite E
   | E : parse_elements ?f ?l = Ok _ |- context [parse_elements ?f ?l] => rewrite E
   | E : jiter ?l = Ok _ |- context [jiter ?l] => rewrite E end; cbn [bind]).
Lemma all_annotations_mistake kvs kvs' k v old m r : parse_all_annotations (JObj kvs) = Ok r -> ChangedIn $"annotations" k v old kvs kvs' -> AnnotationMistake k v m ->
  parse_all_annotations (JObj kvs') = Raise (EParsing [parsing $"annotations" (parsing $"Annotation" m)]).
Proof.
  intros R X M. pose proof X as (a & new & b & K & Cn & [V C]). unfold parse_all_annotations in R |- *. cbn [jget jget_default bind] in R |- *. ann_walk R. apply bind_Ok in R as ([] & N & _). apply named_ok in N. empty_logs N.
  destruct (annotations_mid [] [] kvs kvs' k v old m _ E X M) as (r' & E'). cbn [app] in E'. same C kvs'. ann_again. reflexivity.
Qed.
Lemma element_annotations_mistake key kvs kvs' a e e' b k v old m r : In key [$"packages"; $"files"; $"snippets"] -> parse_all_annotations (JObj kvs) = Ok r ->
  assoc key kvs = Some (JArr (a ++ JObj e :: b)) -> ChangedIn $"annotations" k v old e e' -> Changed key (JArr (a ++ JObj e' :: b)) kvs kvs' -> AnnotationMistake k v m ->
  parse_all_annotations (JObj kvs') = Raise (EParsing [parsing $"annotations" (parsing $"Annotation" m)]).
Proof.
  intros I R K X [V C] M. unfold parse_all_annotations in R |- *. cbn [annotations_loop jget jget_default] in R |- *.
  destruct I as [<-|[<-|[<-|[]]]]; rewrite V; same C kvs'; rewrite K in R; cbn [bind] in R |- *;
    (match type of R with bind ?q _ = Ok _ => destruct q as [[? ?]|]; [|discriminate R] end); cbn [bind] in R |- *; ann_walk R; apply bind_Ok in R as ([] & N & _); apply named_ok in N; empty_logs N;
    match goal with E : parse_annotations_from_object (JArr _) = Ok ([], _) |- _ => destruct (annotations_mid a b e e' k v old m _ E X M) as (y' & E'); change (parse_annotations_from_object (JArr (a ++ JObj e' :: b)) = Ok ([parsing $"Annotation" m], y')) in E' end; cbn [bind]; ann_again; reflexivity.
Qed.
(** annotations of the document *)
Lemma creation_key key v kvs kvs' : key = $"annotations" -> Changed key v kvs kvs' -> parse_creation_info (JObj kvs') = parse_creation_info (JObj kvs).
Proof. intros -> [_ C]. unfold parse_creation_info. cbn [jget jget_default bind]. same C kvs'. reflexivity. Qed.
Theorem in_annotation kvs kvs' d k v old m : parse_dict O (JObj kvs) = Ok d -> ChangedIn $"annotations" k v old kvs kvs' -> AnnotationMistake k v m ->
  parse_dict O (JObj kvs') = Raise (EParsing [parsing $"annotations" (parsing $"Annotation" m)]).
Proof.
  intros H X W. pose proof (no_partial_document O kvs d H) as (_ & R & _). pose proof (all_annotations_mistake kvs kvs' k v old m _ R X W) as E'. destruct X as (a & new & b & K & _ & X). pose proof X as [V C].
  assert (B : parse_all_relationships (JObj kvs') = parse_all_relationships (JObj kvs)) by (eapply (relationships_key $"annotations"); [cbn; tauto|exact X]).
  unfold parse_dict in H |- *. rewrite <- (top_same true _ _ _ B (truthy_both _ _ _ _ _ K V)) in H. rewrite <- (top_same false _ _ _ (creation_key $"annotations" _ kvs kvs' eq_refl X) (truthy_both _ _ _ _ _ K V)) in H.
  walk_top H. apply bind_Ok in H as ([] & N & _). apply if_ok in N. empty_logs N.
  assert (Z : top_field true (JObj kvs') parse_all_annotations = Ok ([parsing $"annotations" (parsing $"Annotation" m)], None)) by (unfold top_field; cbn [andb jtruthy]; rewrite (assoc_truthy _ _ _ V); cbn [negb]; rewrite E'; reflexivity).
  cbn [jget jget_default bind]. same C kvs'. top_again. reflexivity.
Qed.

(** ** References of packages: the message about one is not enclosed in a message about the package *)
Lemma package_ref_wrong v m : WrongPackageRef v m -> parse_external_ref v = Raise (EParsing [m]).
Proof.
  intros (kvs & c & x & -> & K & (s & -> & N & W & ->) & ->). unfold parse_external_ref. cbn [jget jget_default bind]. rewrite K.
  rewrite (field_error parse_external_ref_category (JStr s) ($"Invalid ExternalPackageRefCategory: " ++ enum_text s)); [reflexivity|]. split; [|destruct s; [congruence|reflexivity]].
  unfold parse_external_ref_category, json_str_to_enum_name. cbn [bind]. rewrite lookup_none by exact W. reflexivity.
Qed.
Lemma refs_field_error a old b w m y : parse_field (JArr (a ++ old ++ b)) parse_external_refs = Ok ([], y) -> match y with Some r => fst r | None => [] end = [] -> WrongPackageRef w m ->
  exists r, parse_field (JArr (a ++ w :: b)) parse_external_refs = Ok ([], Some ([m], r)).
Proof.
  intros H Y W. apply package_ref_wrong in W. assert (K : exists r, parse_elements (quiet parse_external_ref) (a ++ old ++ b) = Ok ([], r)).
  { unfold parse_field in H. cbn [jtruthy] in H. destruct (a ++ old ++ b) as [|z l]; [exists []; reflexivity|]. cbn [truthy_list negb] in H. unfold parse_external_refs in H. cbn [jiter bind] in H.
    destruct (parse_elements (quiet parse_external_ref) (z :: l)) as [[log r]|e] eqn:E; [injection H as <-; cbn [fst] in Y; subst log; eauto|]. pose proof (noisy_elements _ _ e E) as N. destruct (caught e); [|discriminate H]. injection H as -> _. congruence. }
  destruct K as (r & K). unfold parse_field. cbn [jtruthy]. rewrite truthy_mid. cbn [negb]. unfold parse_external_refs. cbn [jiter bind].
  destruct (elements_middle (quiet parse_external_ref) a old b r w (EParsing [m]) [] [m] K) as (r' & ->); [unfold quiet; rewrite W; reflexivity|reflexivity|]. cbn [app]. eauto.
Qed.
Lemma ap_ok {A B} (f : chk (A -> B)) x y : f <*> x = COk y -> exists g a, f = COk g /\ x = COk a. Proof. destruct f, x; try discriminate. eauto. Qed.
Lemma package_ref_mistake p p' w v m pk : parse_package O (JObj p) = ([], Ok pk) -> OneOf $"externalRefs" p w v -> Changed $"externalRefs" v p p' -> WrongPackageRef w m ->
  exists pk', parse_package O (JObj p') = ([m], Ok pk').
Proof.
  intros H (a & old & b & X & ->) [V C] W. unfold parse_package in H. destruct (parse_package_raw O (JObj p)) as [[own r]|] eqn:R; [|discriminate H]. injection H as -> ->.
  unfold parse_package_raw in R. walk R. destruct (match o1 with Some r => r | None => ([], []) end) as [own refs] eqn:Eo. apply pair_ok in R as [-> R]. apply bind_Ok in R as ([] & N & R). apply named_ok in N. empty_logs N. rewrite X in *.
  assert (Y : match o1 with Some r => fst r | None => [] end = []) by (destruct o1 as [[? ?]|]; [injection Eo as -> _; reflexivity|reflexivity]).
  match goal with E : parse_field (JArr _) parse_external_refs = Ok ([], _) |- _ => destruct (refs_field_error _ _ _ _ _ _ E Y W) as (refs' & Y') end.
  unfold parse_package, parse_package_raw. cbn [jget jget_default bind]. rewrite V; same C p'; again. cbn [app raise_if_named bind].
  match type of R with construct _ ?c = _ => destruct c as [q|] eqn:Q; [|discriminate R] end. clear R.
  repeat (match type of Q with ?f <*> ?x = COk _ => apply ap_ok in Q as (? & ? & Q & ?) end).
  repeat match goal with E : ?c _ _ _ = COk _ |- _ => rewrite E; clear E end. eexists. reflexivity.
Qed.
Lemma elements_told {A} (f : json -> list pystr * result A) a old b r x m y : parse_elements f (a ++ old :: b) = Ok ([], r) -> f x = ([m], Ok y) -> exists r', parse_elements f (a ++ x :: b) = Ok ([m], r').
Proof.
  intros H F. revert r H. induction a as [|z a IH]; intros r H; cbn [app parse_elements] in *.
  - rewrite F. destruct (f old) as [n [v|e]]; [|destruct (caught e); [|discriminate H]]; (destruct (parse_elements f b) as [[ms s]|]; [|discriminate H]); cbn [bind] in H |- *; injection H as H _; apply app_eq_nil in H as [_ H]; [|apply app_eq_nil in H as [_ H]]; subst ms; cbn [app]; eauto.
  - destruct (f z) as [n [v|e]]; [|destruct (caught e); [|discriminate H]]; (destruct (parse_elements f (a ++ old :: b)) as [[ms s]|]; [|discriminate H]); cbn [bind] in H; injection H as H _; apply app_eq_nil in H as [-> H]; [|apply app_eq_nil in H as [-> H]]; subst ms;
      destruct (IH _ eq_refl) as (r' & ->); cbn [bind app]; eauto.
Qed.
Theorem in_package_reference kvs kvs' d p w v m : parse_dict O (JObj kvs) = Ok d -> ChangedIn $"packages" $"externalRefs" v p kvs kvs' -> OneOf $"externalRefs" p w v -> WrongPackageRef w m ->
  parse_dict O (JObj kvs') = Raise (EParsing [m]).
Proof.
  intros H X Y M. pose proof (no_partial_document O kvs d H) as (_ & _ & _ & (l & EA & F) & _). pose proof X as (a & new & b & K & Cn & [V C]). unfold EntriesAt in EA. rewrite K in EA. subst l.
  assert (P : exists pk, parse_package O (JObj p) = ([], Ok pk)).
  { apply Forall2_app_inv_l in F as (? & ? & _ & F & _). inversion F as [|? pk ? ? Hp]; subst. exists pk. exact Hp. }
  destruct P as (pk & P). destruct (package_ref_mistake p new w v m pk P Y Cn M) as (pk' & E').
  assert (Fa : far $"externalRefs") by (repeat split; discriminate).
  unchanged H $"packages" $"externalRefs" v p kvs kvs' (@or_introl ($"packages" = $"packages") (In $"packages" [$"files"; $"snippets"]) eq_refl) Fa X K V C.
  walk_top H. apply bind_Ok in H as ([] & N & _). apply if_ok in N. empty_logs N. rewrite K in *.
  match goal with E : top_field true (JArr _) _ = Ok ([], _) |- _ => destruct (field_old _ _ _ E) as (r & Er) end. destruct (elements_told _ _ _ _ _ _ _ _ Er E') as (r' & Er').
  assert (Z : top_field true (JArr (a ++ JObj new :: b)) (parse_list_of_elements_log (parse_package O)) = Ok ([m], None)).
  { unfold top_field. cbn [andb jtruthy]. rewrite truthy_mid. cbn [negb]. unfold parse_list_of_elements_log. cbn [jiter bind]. rewrite Er'. reflexivity. }
  cbn [jget jget_default bind]. rewrite V. same C kvs'. top_again. reflexivity.
Qed.

(** annotations of packages, files and snippets *)
Lemma package_same v e e' : Changed $"annotations" v e e' -> parse_package O (JObj e') = parse_package O (JObj e).
Proof. intros [_ C]. unfold parse_package, parse_package_raw. cbn [jget jget_default bind]. same C e'. reflexivity. Qed.
Lemma file_same v e e' : Changed $"annotations" v e e' -> parse_file O (JObj e') = parse_file O (JObj e).
Proof. intros [_ C]. unfold parse_file. cbn [jget jget_default bind]. same C e'. reflexivity. Qed.
Lemma snippet_same v e e' : Changed $"annotations" v e e' -> parse_snippet O (JObj e') = parse_snippet O (JObj e).
Proof. intros [_ C]. unfold parse_snippet. cbn [jget jget_default bind]. same C e'. reflexivity. Qed.
Lemma elements_same {A} (f : json -> list pystr * result A) a x y b : f y = f x -> parse_elements f (a ++ y :: b) = parse_elements f (a ++ x :: b).
Proof. intro H. induction a as [|z a IH]; cbn [app parse_elements]; [rewrite H|rewrite IH]; reflexivity. Qed.
Lemma top_elements_same {A} (f : json -> list pystr * result A) a x y b : f y = f x ->
  top_field true (JArr (a ++ y :: b)) (parse_list_of_elements_log f) = top_field true (JArr (a ++ x :: b)) (parse_list_of_elements_log f).
Proof. intro H. apply top_same; [|cbn [jtruthy]; rewrite !truthy_mid; reflexivity]. unfold parse_list_of_elements_log. cbn [jiter bind]. rewrite (elements_same f a x y b H). reflexivity. Qed.
Lemma has_files_ann ex v e e' a b : Changed $"annotations" v e e' -> has_files_loop ex (a ++ JObj e' :: b) = has_files_loop ex (a ++ JObj e :: b).
Proof.
  intros [_ C]. induction a as [|y a IH]; cbn [app has_files_loop].
  - cbn [jget jget_default bind]. rewrite !C by discriminate. reflexivity.
  - rewrite IH. reflexivity.
Qed.
Lemma relationships_ann key v e e' a b kvs kvs' : In key [$"packages"; $"files"; $"snippets"] -> Changed $"annotations" v e e' -> assoc key kvs = Some (JArr (a ++ JObj e :: b)) -> Changed key (JArr (a ++ JObj e' :: b)) kvs kvs' ->
  parse_all_relationships (JObj kvs') = parse_all_relationships (JObj kvs).
Proof.
  intros I Cn K [V C]. unfold parse_all_relationships. cbn [jget jget_default bind].
  assert (X : forall ex, parse_field (JArr (a ++ JObj e' :: b)) (parse_has_files ex) = parse_field (JArr (a ++ JObj e :: b)) (parse_has_files ex)).
  { intro ex. unfold parse_field, parse_has_files. cbn [jtruthy jiter bind]. rewrite !truthy_mid, (has_files_ann ex v e e' a b Cn). reflexivity. }
  destruct I as [<-|I].
  - rewrite V, K. same C kvs'.
    match goal with |- bind ?r _ = _ => destruct r as [[? ?]|]; [|reflexivity] end. cbn [bind]. match goal with |- bind ?r _ = _ => destruct r; [|reflexivity] end. cbn [bind].
    match goal with |- bind ?r _ = _ => destruct r as [[? ?]|]; [|reflexivity] end. cbn [bind]. rewrite X. reflexivity.
  - repeat (destruct I as [<-|I]; [same C kvs'; reflexivity|]). destruct I.
Qed.
Theorem in_element_annotation kvs kvs' d key a e e' b k v old m : parse_dict O (JObj kvs) = Ok d -> In key [$"packages"; $"files"; $"snippets"] ->
  assoc key kvs = Some (JArr (a ++ JObj e :: b)) -> Changed key (JArr (a ++ JObj e' :: b)) kvs kvs' -> ChangedIn $"annotations" k v old e e' -> AnnotationMistake k v m ->
  parse_dict O (JObj kvs') = Raise (EParsing [parsing $"annotations" (parsing $"Annotation" m)]).
Proof.
  intros H I K X Y W. pose proof (no_partial_document O kvs d H) as (_ & R & _). pose proof (element_annotations_mistake key kvs kvs' a e e' b k v old m _ I R K Y X W) as E'.
  destruct Y as (x & new & y & Ka & _ & Ye). pose proof X as [V C].
  pose proof (relationships_ann key _ e e' a b kvs kvs' I Ye K X) as B.
  assert (I5 : In key [$"packages"; $"files"; $"snippets"; $"hasExtractedLicensingInfos"; $"relationships"]) by (cbn in I |- *; tauto).
  unfold parse_dict in H |- *. rewrite <- (top_same true _ _ _ B (truthy_both _ _ _ _ _ K V)) in H. rewrite <- (top_same false _ _ _ (creation_same key _ kvs kvs' I5 X) (truthy_both _ _ _ _ _ K V)) in H.
  walk_top H. apply bind_Ok in H as ([] & N & _). apply if_ok in N. empty_logs N.
  assert (Z : top_field true (JObj kvs') parse_all_annotations = Ok ([parsing $"annotations" (parsing $"Annotation" m)], None)) by (unfold top_field; cbn [andb jtruthy]; rewrite (assoc_truthy _ _ _ V); cbn [negb]; rewrite E'; reflexivity).
  pose proof (top_elements_same (parse_package O) a (JObj e) (JObj e') b (package_same _ _ _ Ye)) as T1.
  assert (T2 : top_field true (JArr (a ++ JObj e' :: b)) (parse_list_of_elements (parse_file O)) = top_field true (JArr (a ++ JObj e :: b)) (parse_list_of_elements (parse_file O))).
  { apply (top_elements_same (quiet (parse_file O))). unfold quiet. rewrite (file_same _ _ _ Ye). reflexivity. }
  assert (T3 : top_field true (JArr (a ++ JObj e' :: b)) (parse_list_of_elements (parse_snippet O)) = top_field true (JArr (a ++ JObj e :: b)) (parse_list_of_elements (parse_snippet O))).
  { apply (top_elements_same (quiet (parse_snippet O))). unfold quiet. rewrite (snippet_same _ _ _ Ye). reflexivity. }
  cbn [jget jget_default bind]. destruct I as [<-|[<-|[<-|[]]]]; rewrite K in *; rewrite V; same C kvs'; first [rewrite T1|rewrite T2|rewrite T3]; top_again; reflexivity.
Qed.
End WithOracles.
