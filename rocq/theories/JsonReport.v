(** C74: one mistake in a JSON document gives one message. *)
From Verif Require Import Py PyFacts PyRe Data Oracles Basics BasicsFacts ActorFacts Json Construct JsonParse JsonReportSpec.

(** the steps of a successful run, with empty logs *)
Ltac walk R :=
  cbn [jget jget_default bind] in R;
  repeat (match type of R with
          | bind (parse_field ?j ?f) _ = Ok _ => let E := fresh "E" in destruct (parse_field j f) as [[? ?]|] eqn:E; [|discriminate R]
          | bind (parse_field_list ?j ?f) _ = Ok _ => let E := fresh "E" in destruct (parse_field_list j f) as [[? ?]|] eqn:E; [|discriminate R]
          | bind (convert_range_from_str ?r) _ = Ok _ => let E := fresh "E" in destruct (convert_range_from_str r) eqn:E; [|discriminate R]
          end; cbn [bind] in R).
Ltac empty_logs N := repeat (apply app_eq_nil in N as [? N]); subst.
(** the same run with the changed field *)
Ltac same C p := repeat match goal with |- context [assoc ?k p] => rewrite (C k) by discriminate end.
Ltac again := repeat (match goal with E : parse_field ?j ?f = Ok _ |- context [parse_field ?j ?f] => rewrite E
                               | E : parse_field_list ?j ?f = Ok _ |- context [parse_field_list ?j ?f] => rewrite E
                               | E : convert_range_from_str ?r = Ok _ |- context [convert_range_from_str ?r] => rewrite E end; cbn [bind]).

Section WithOracles.
Variable O : oracles.

(** ** Lists *)
Lemma elements_middle {A} (f : json -> list pystr * result A) a old b r x e m m' :
  parse_elements f (a ++ old ++ b) = Ok ([], r) -> f x = (m, Raise e) -> caught e = Some m' -> exists r', parse_elements f (a ++ x :: b) = Ok (m ++ m', r').
Proof.
  intros H F C. revert r H. induction a as [|y a IH]; intros r H; cbn [app parse_elements] in H |- *.
  - rewrite F, C. assert (K : exists r', parse_elements f b = Ok ([], r')).
    { revert r H. induction old as [|z old IHo]; intros r H; [exists r; exact H|]. cbn [app parse_elements] in H. destruct (f z) as [n [v|e']].
      - destruct (parse_elements f (old ++ b)) as [[ms s]|]; [|discriminate H]. cbn [bind] in H. injection H as H _. apply app_eq_nil in H as [_ ->]. eapply IHo. reflexivity.
      - destruct (caught e'); [|discriminate H]. destruct (parse_elements f (old ++ b)) as [[ms s]|]; [|discriminate H]. cbn [bind] in H. injection H as H _. apply app_eq_nil in H as [_ H]. apply app_eq_nil in H as [_ ->]. eapply IHo. reflexivity. }
    destruct K as (r' & ->). cbn [bind]. rewrite app_nil_r. eauto.
  - destruct (f y) as [n [v|e']].
    + destruct (parse_elements f (a ++ old ++ b)) as [[ms s]|] eqn:E; [|discriminate H]. cbn [bind] in H. injection H as H _. apply app_eq_nil in H as [-> ->].
      destruct (IH _ eq_refl) as (r' & ->). cbn [bind app]. eauto.
    + destruct (caught e'); [|discriminate H]. destruct (parse_elements f (a ++ old ++ b)) as [[ms s]|] eqn:E; [|discriminate H]. cbn [bind] in H. injection H as H _. apply app_eq_nil in H as [-> H]. apply app_eq_nil in H as [-> ->].
      destruct (IH _ eq_refl) as (r' & ->). cbn [bind app]. eauto.
Qed.
Lemma elements_error {A} (f : json -> result A) a old b r x m :
  parse_list_of_elements f (JArr (a ++ old ++ b)) = Ok r -> f x = Raise (EParsing [m]) -> parse_list_of_elements f (JArr (a ++ x :: b)) = Raise (EParsing [m]).
Proof.
  unfold parse_list_of_elements, parse_list_of_elements_log. cbn [jiter bind]. intros H F. destruct (parse_elements (quiet f) (a ++ old ++ b)) as [[log s]|] eqn:E; [|discriminate H].
  cbn [bind] in H. destruct log; [|discriminate H]. destruct (elements_middle (quiet f) a old b s x (EParsing [m]) [] [m] E) as (r' & ->); [unfold quiet; rewrite F; reflexivity|reflexivity|]. reflexivity.
Qed.
Lemma truthy_mid {A} (a : list A) x b : truthy_list (a ++ x :: b) = true. Proof. destruct a; reflexivity. Qed.
Lemma field_list_error {A} (f : json -> result A) a old b x m y : parse_field_list (JArr (a ++ old ++ b)) f = Ok ([], y) -> f x = Raise (EParsing [m]) ->
  parse_field_list (JArr (a ++ x :: b)) f = Ok ([m], None).
Proof.
  unfold parse_field_list, parse_field. cbn [jtruthy]. rewrite truthy_mid. cbn [negb]. intros H F.
  assert (K : exists r, parse_list_of_elements f (JArr (a ++ old ++ b)) = Ok r).
  { destruct (a ++ old ++ b) as [|z l]; [exists []; reflexivity|]. cbn [truthy_list negb] in H. destruct (parse_list_of_elements f (JArr (z :: l))) as [r|e] eqn:E; [eauto|].
    exfalso. unfold parse_list_of_elements, parse_list_of_elements_log in E. cbn [jiter bind] in E. destruct (parse_elements (quiet f) (z :: l)) as [[log s]|e'] eqn:P; cbn [bind] in E.
    - destruct log as [|n log]; [discriminate E|]. injection E as <-. discriminate H.
    - injection E as ->. destruct (caught e) eqn:C; [|discriminate H]. clear H. revert P. generalize (z :: l) as w. induction w as [|u w IH]; [discriminate|]. cbn [parse_elements quiet].
      destruct (f u) as [v|e'']; [|destruct (caught e'') eqn:C'; [|intro P; injection P as ->; congruence]]; (destruct (parse_elements (quiet f) w) as [[? ?]|]; [discriminate|]); intro P; injection P as ->; auto. }
  destruct K as (r & K). rewrite (elements_error f a old b r x m K F). reflexivity.
Qed.

(** ** Values *)
Lemma wrong_actor v m : WrongActor v m -> j_actor v = Raise (EParsing [m]) /\ jtruthy v = true.
Proof.
  intros (s & -> & N & H & ->). split; [|destruct s; [congruence|reflexivity]]. unfold j_actor, on_str, parse_actor.
  assert (X : forall p, (forall t, s <> p ++ t) -> startswith p s = false) by (intros p K; destruct (startswith p s) eqn:E; [|reflexivity]; apply startswith_spec in E as (t & E); destruct (K t E)).
  rewrite tool_match_no by (apply X; intro t; apply (H t)). unfold person_re, org_re. rewrite !person_or_org_match. rewrite (X $"Person:"), (X $"Organization:") by (intro t; apply (H t)). reflexivity.
Qed.
Lemma wrong_license v m : WrongLicense O v m -> parse_license_expression O v = Raise (EParsing [m]) /\ jtruthy v = true.
Proof.
  intros (s & x & -> & N & H1 & H2 & P & ->). split; [|destruct s; [destruct N; reflexivity|reflexivity]]. unfold parse_license_expression. apply str_eqb_neq in H1, H2. rewrite H1, H2. cbn [licensing_parse].
  destruct (strip s) as [|c r]; [congruence|]. rewrite P. reflexivity.
Qed.
Lemma lookup_none {A} (l : list A) name s : (forall x, name x <> s) -> enum_lookup l name s = None.
Proof. intro H. induction l as [|x l IH]; [reflexivity|]. unfold enum_lookup in *. cbn [find]. destruct (str_eqb (name x) s) eqn:E; [|exact IH]. apply str_eqb_eq in E. destruct (H x E). Qed.
Lemma wrong_purpose v m : WrongName purpose_name $"PrimaryPackagePurpose" v m -> parse_primary_package_purpose v = Raise (EParsing [m]) /\ jtruthy v = true.
Proof.
  intros (s & -> & N & H & ->). split; [|destruct s; [congruence|reflexivity]]. unfold parse_primary_package_purpose, json_str_to_enum_name. cbn [bind]. rewrite lookup_none by exact H. reflexivity.
Qed.
Lemma wrong_checksum v m : WrongChecksum v m -> parse_checksum v = Raise (EParsing [m]).
Proof.
  intros (kvs & a & x & -> & K & (s & -> & N & H & ->) & ->). unfold parse_checksum. cbn [jget_default]. rewrite K. cbn [bind json_str_to_enum_name]. rewrite lookup_none by exact H. reflexivity.
Qed.
Lemma field_error {A} (f : json -> result A) v m : f v = Raise (EParsing [m]) /\ jtruthy v = true -> parse_field v f = Ok ([m], None).
Proof. intros [H T]. unfold parse_field. rewrite T, H. reflexivity. Qed.

Lemma types_loop_ok l : forall r, file_types_loop l = Ok ([], r) -> forall x, In x l -> hashable x = true /\ exists t, enum_item file_type_all file_type_name x = Ok (Some t).
Proof.
  induction l as [|y l IH]; intros r H x I; [destruct I|]. cbn [file_types_loop] in H. destruct (enum_item file_type_all file_type_name y) as [[t|]|] eqn:E; cbn [bind] in H; try discriminate H;
    (destruct (file_types_loop l) as [[ms r']|] eqn:L; [|discriminate H]); cbn [bind] in H; [|discriminate H].
  injection H as -> _. destruct I as [<-|I]; [|exact (IH _ eq_refl x I)]. split; [|eauto]. unfold enum_item in E. destruct (hashable y); [reflexivity|discriminate E].
Qed.
Lemma types_loop_good l : (forall x, In x l -> exists t, enum_item file_type_all file_type_name x = Ok (Some t)) -> exists r, file_types_loop l = Ok ([], r).
Proof.
  induction l as [|y l IH]; intro H; [exists []; reflexivity|]. cbn [file_types_loop]. destruct (H y (or_introl eq_refl)) as (t & ->). destruct IH as (r & ->); [intros x I; apply H; right; exact I|]. cbn [bind]. eauto.
Qed.
Lemma types_loop_mid a b s : (forall x, In x (a ++ b) -> exists t, enum_item file_type_all file_type_name x = Ok (Some t)) -> (forall x, file_type_name x <> s) ->
  exists r, file_types_loop (a ++ JStr s :: b) = Ok ([$"Invalid FileType: " ++ s], r).
Proof.
  intros H W. induction a as [|y a IH]; cbn [app file_types_loop] in *.
  - unfold enum_item at 1. cbn [hashable negb]. rewrite lookup_none by exact W. cbn [bind]. destruct (types_loop_good b H) as (r & ->). cbn [bind]. eauto.
  - destruct (H y (or_introl eq_refl)) as (t & ->). destruct IH as (r & ->); [intros x I; apply H; right; exact I|]. cbn [bind]. eauto.
Qed.
Lemma types_error a old b s y : parse_field (JArr (a ++ old ++ b)) parse_file_types = Ok ([], y) -> (forall x, file_type_name x <> s) ->
  parse_field (JArr (a ++ JStr s :: b)) parse_file_types = Ok ([parsing $"FileType" ($"Invalid FileType: " ++ s)], None).
Proof.
  intros H W. assert (K : forall x, In x (a ++ old ++ b) -> exists t, enum_item file_type_all file_type_name x = Ok (Some t)).
  { unfold parse_field in H. cbn [jtruthy] in H. destruct (truthy_list (a ++ old ++ b)) eqn:T; [|destruct (a ++ old ++ b); [intros x []|discriminate T]]. cbn [negb] in H. unfold parse_file_types in H. cbn [jiter bind] in H.
    intros x I. destruct (file_types_loop (a ++ old ++ b)) as [[log r]|e] eqn:L; cbn [bind] in H.
    - destruct log; [|discriminate H]. exact (proj2 (types_loop_ok _ _ L x I)).
    - exfalso. destruct (caught e) as [ms|] eqn:Ce; [|discriminate H]. injection H as -> _. clear I x y T. revert L. generalize (a ++ old ++ b) as w. induction w as [|u w IH]; [discriminate|]. cbn [file_types_loop].
      unfold enum_item. destruct (negb (hashable u)); cbn [bind]; [intro L; injection L as <-; discriminate Ce|]. destruct (file_types_loop w) as [[? ?]|]; cbn [bind]; [discriminate|]. intro L. apply IH. exact L. }
  unfold parse_field. cbn [jtruthy]. rewrite truthy_mid. cbn [negb]. unfold parse_file_types. cbn [jiter bind].
  destruct (types_loop_mid a b s) as (r & ->); [|exact W|reflexivity]. intros x I. apply K. rewrite !in_app_iff in *. tauto.
Qed.

Definition one_range (x : json) : result (range_type * (json * json)) := do t <- validate_range_and_get_type x; do v <- get_start_end_tuple x t; Ok (t, v).
Lemma ranges_loop_ok l : forall log acc r, ranges_loop l log acc = Ok ([], r) -> log = [] /\ forall x, In x l -> exists y, one_range x = Ok y.
Proof.
  induction l as [|y l IH]; intros log acc r H; cbn [ranges_loop] in H; [injection H as -> _; split; [reflexivity|intros x []]|]. change (bind _ _) with (one_range y) in H. destruct (one_range y) as [[t v]|e] eqn:E.
  - destruct (IH _ _ _ H) as [-> K]. split; [reflexivity|]. intros x [<-|I]; eauto.
  - destruct e; try discriminate H. apply IH in H as [H _]. apply app_eq_nil in H as [_ H]. discriminate H.
Qed.
Lemma ranges_loop_good l : (forall x, In x l -> exists y, one_range x = Ok y) -> forall log acc, exists r, ranges_loop l log acc = Ok (log, r).
Proof.
  induction l as [|y l IH]; intros H log acc; cbn [ranges_loop]; [eauto|]. change (bind (validate_range_and_get_type y) _) with (one_range y). destruct (H y (or_introl eq_refl)) as ([t v] & ->). apply IH. intros x I. apply H. right. exact I.
Qed.
Lemma ranges_loop_mid a b w m : (forall x, In x (a ++ b) -> exists y, one_range x = Ok y) -> one_range w = Raise (EValue m) -> forall acc, exists r, ranges_loop (a ++ w :: b) [] acc = Ok ([m], r).
Proof.
  intros H W. induction a as [|y a IH]; intro acc; cbn [app ranges_loop] in *.
  - change (bind (validate_range_and_get_type w) _) with (one_range w). rewrite W. cbn [app]. apply ranges_loop_good. exact H.
  - change (bind (validate_range_and_get_type y) _) with (one_range y). destruct (H y (or_introl eq_refl)) as ([t v] & ->). apply IH. intros x I. apply H. right. exact I.
Qed.
Lemma one_range_noisy x : one_range x <> Raise (EParsing []).
Proof.
  unfold one_range, validate_range_and_get_type, validate_pointer_and_get_type, get_start_end_tuple, jitem, jin.
  repeat (match goal with |- context [match ?e with _ => _ end] => destruct e eqn:? | _ => cbn [bind] end; try discriminate).
Qed.
Lemma ranges_loop_noisy l : forall log acc, ranges_loop l log acc <> Raise (EParsing []).
Proof.
  induction l as [|y l IH]; intros log acc; cbn [ranges_loop]; [discriminate|]. change (bind (validate_range_and_get_type y) _) with (one_range y).
  pose proof (one_range_noisy y) as N. destruct (one_range y) as [[t v]|e]; [apply IH|]. destruct e; try discriminate; try apply IH. intro K. apply N. congruence.
Qed.
Lemma one_range_wrong rg x : (assoc $"startPointer" rg = None /\ x = $"Startpointer missing in snippet ranges.")
     \/ (assoc $"startPointer" rg <> None /\ assoc $"endPointer" rg = None /\ x = $"Endpointer missing in snippet ranges.") -> one_range (JObj rg) = Raise (EValue x).
Proof.
  unfold one_range, validate_range_and_get_type. cbn [jin bind]. intros [[-> ->]|(N & -> & ->)]; [reflexivity|]. destruct (assoc $"startPointer" rg); [reflexivity|congruence].
Qed.
Lemma ranges_error a old b rg x y : parse_field (JArr (a ++ old ++ b)) parse_ranges = Ok ([], y) ->
  (assoc $"startPointer" rg = None /\ x = $"Startpointer missing in snippet ranges.")
     \/ (assoc $"startPointer" rg <> None /\ assoc $"endPointer" rg = None /\ x = $"Endpointer missing in snippet ranges.") ->
  parse_field (JArr (a ++ JObj rg :: b)) parse_ranges = Ok ([parsing $"snippet ranges" x], None).
Proof.
  intros H W. apply one_range_wrong in W. assert (K : forall x, In x (a ++ old ++ b) -> exists y, one_range x = Ok y).
  { unfold parse_field in H. cbn [jtruthy] in H. destruct (truthy_list (a ++ old ++ b)) eqn:T; [|destruct (a ++ old ++ b); [intros z []|discriminate T]]. cbn [negb] in H. unfold parse_ranges in H. cbn [jiter bind] in H.
    intros z I. destruct (ranges_loop (a ++ old ++ b) [] no_ranges) as [[log r]|e] eqn:L; cbn [bind] in H.
    - destruct log; [|discriminate H]. exact (proj2 (ranges_loop_ok _ _ _ _ L) z I).
    - exfalso. destruct (caught e) as [ms|] eqn:Ce; [|discriminate H]. injection H as -> _. destruct e; cbn in Ce; try discriminate Ce. injection Ce as ->. revert L. apply ranges_loop_noisy. }
  unfold parse_field. cbn [jtruthy]. rewrite truthy_mid. cbn [negb]. unfold parse_ranges. cbn [jiter bind].
  destruct (ranges_loop_mid a b (JObj rg) x) with (acc := no_ranges) as (r & ->); [|exact W|reflexivity]. intros z I. apply K. rewrite !in_app_iff in *. tauto.
Qed.

(** ** Elements *)
Lemma bind_Ok {A B} (r : result A) (f : A -> result B) b : bind r f = Ok b -> exists a, r = Ok a /\ f a = Ok b.
Proof. destruct r; [eauto|discriminate]. Qed.
Lemma pair_ok {A B} (a a' : A) (b b' : B) : Ok (a, b) = Ok (a', b') -> a = a' /\ b = b'. Proof. intro H. injection H. auto. Qed.
Lemma named_ok log n : raise_if_named log n = Ok tt -> log = []. Proof. destruct log; [reflexivity|discriminate]. Qed.
Lemma named_err m n {A} (k : unit -> result A) : bind (raise_if_named [m] n) k = Raise (EParsing [parsing n m]). Proof. reflexivity. Qed.

Lemma package_mistake p p' k v m pk : parse_package O (JObj p) = ([], Ok pk) -> Changed k v p p' -> PackageMistake O p k v m ->
  parse_package O (JObj p') = ([], Raise (EParsing [parsing $"Package" m])).
Proof.
  intros H [V C] M. unfold parse_package in H. destruct (parse_package_raw O (JObj p)) as [[own r]|] eqn:R; [|discriminate H]. injection H as -> ->.
  unfold parse_package_raw in R. walk R.
  destruct (match o1 with Some r => r | None => ([], []) end) as [own refs] eqn:Eo. apply pair_ok in R as [-> R]. apply bind_Ok in R as ([] & N & _). apply named_ok in N. empty_logs N.
  unfold parse_package, parse_package_raw. cbn [jget jget_default bind].
  destruct M as [k v m Hk Hn W|k v m Hk W|w v m X W|v m W|w v m X W].
  - apply wrong_actor in W as [W T].
    assert (Y : parse_field v actor_or_no_assertion = Ok ([m], None)).
    { apply field_error. split; [|exact T]. unfold actor_or_no_assertion. assert (J : jis v $"NOASSERTION" = false) by (destruct v; try reflexivity; cbn [jis]; apply str_eqb_neq; congruence). rewrite J, W. reflexivity. }
    destruct Hk as [<-|[<-|[]]]; rewrite V; same C p'; again; rewrite Eo; reflexivity.
  - apply wrong_license, field_error in W. destruct Hk as [<-|[<-|[]]]; rewrite V; same C p'; again; rewrite Eo; reflexivity.
  - destruct X as (a & old & b & X & ->). apply wrong_license in W as [W _]. rewrite X in *.
    match goal with E : parse_field_list _ _ = Ok ([], _) |- _ => pose proof (field_list_error _ _ _ _ _ _ _ E W) end. rewrite V; same C p'; again; rewrite Eo; reflexivity.
  - apply wrong_purpose, field_error in W. rewrite V; same C p'; again; rewrite Eo; reflexivity.
  - destruct X as (a & old & b & X & ->). apply wrong_checksum in W. rewrite X in *.
    match goal with E : parse_field_list _ _ = Ok ([], _) |- _ => pose proof (field_list_error _ _ _ _ _ _ _ E W) end. rewrite V; same C p'; again; rewrite Eo; reflexivity.
Qed.
Lemma file_mistake f f' k v m r : parse_file O (JObj f) = Ok r -> Changed k v f f' -> FileMistake O f k v m -> parse_file O (JObj f') = Raise (EParsing [parsing $"File" m]).
Proof.
  intros R [V C] M. unfold parse_file in R. walk R. apply bind_Ok in R as ([] & N & _). apply named_ok in N. empty_logs N.
  unfold parse_file. cbn [jget jget_default bind]. destruct M as [v m W|w v m X W|v m W|w v m X W].
  - apply wrong_license, field_error in W. rewrite V; same C f'; again. reflexivity.
  - destruct X as (a & old & b & X & ->). apply wrong_license in W as [W _]. rewrite X in *.
    match goal with E : parse_field_list _ _ = Ok ([], _) |- _ => pose proof (field_list_error _ _ _ _ _ _ _ E W) end. rewrite V; same C f'; again. reflexivity.
  - destruct W as (s & (a & old & b & X & ->) & W & ->). rewrite X in *. match goal with E : parse_field _ parse_file_types = Ok ([], _) |- _ => pose proof (types_error _ _ _ _ _ E W) end. rewrite V; same C f'; again. reflexivity.
  - destruct X as (a & old & b & X & ->). apply wrong_checksum in W. rewrite X in *.
    match goal with E : parse_field_list _ _ = Ok ([], _) |- _ => pose proof (field_list_error _ _ _ _ _ _ _ E W) end. rewrite V; same C f'; again. reflexivity.
Qed.
Lemma snippet_mistake f f' k v m r : parse_snippet O (JObj f) = Ok r -> Changed k v f f' -> SnippetMistake O f k v m -> parse_snippet O (JObj f') = Raise (EParsing [parsing $"snippet" m]).
Proof.
  intros R [V C] M. unfold parse_snippet in R. walk R. apply bind_Ok in R as ([] & N & _). apply named_ok in N. empty_logs N.
  unfold parse_snippet. cbn [jget jget_default bind]. destruct M as [v m W|w v m X W|v m W].
  - apply wrong_license, field_error in W. rewrite V; same C f'; again. reflexivity.
  - destruct X as (pre & old & post & X & ->). apply wrong_license in W as [W _]. rewrite X in *.
    match goal with E : parse_field_list _ _ = Ok ([], _) |- _ => pose proof (field_list_error _ _ _ _ _ _ _ E W) end. rewrite V; same C f'; again. reflexivity.
  - destruct W as (rg & x & (pre & old & post & X & ->) & -> & W). rewrite X in *. match goal with E : parse_field _ parse_ranges = Ok ([], _) |- _ => pose proof (ranges_error _ _ _ _ _ _ E W) end.
    rewrite V; same C f'; again. cbn [rg_byte rg_line no_ranges convert_range_from_str bind]. again. reflexivity.
Qed.
End WithOracles.
