(** Snippet ranges (C46) and implicit relationships (C15). *)
From Verif Require Import Py Data Oracles Basics DocUtils Json Construct JsonConv JsonParse PyFacts BasicsSpec JsonSpec JsonFacts.

(** ** C46 *)
Definition kind (k : bool) : range_type := if k then RANGE_BYTE else RANGE_LINE.
Definition range_step (x : json) : result (range_type * (json * json)) :=
  do t <- validate_range_and_get_type x; do v <- get_start_end_tuple x t; Ok (t, v).
Lemma pointer_type p t : validate_pointer_and_get_type p = Ok t ->
  match p with
  | JObj kvs => exists k v, t = kind k /\ assoc (kind_key k) kvs = Some v /\ assoc (kind_key (negb k)) kvs = None
  | _ => True
  end.
Proof.
  unfold validate_pointer_and_get_type. destruct p as [| | | | | |kvs]; auto. cbn [jin bind].
  destruct (assoc $"offset" kvs) as [v|] eqn:A, (assoc $"lineNumber" kvs) as [w|] eqn:B; cbn [andb negb]; try discriminate; intros [= <-].
  - exists true, v. repeat split; assumption.
  - exists false, w. repeat split; assumption.
Qed.
Lemma pointer_type_ok k p v : IsPointer k p v -> validate_pointer_and_get_type p = Ok (kind k).
Proof.
  intros (kvs & -> & A & B). unfold validate_pointer_and_get_type. cbn [jin bind]. destruct k; cbn [kind_key negb] in A, B; rewrite A, B; reflexivity.
Qed.
Lemma range_step_ok x k v : IsRange x (k, v) -> range_step x = Ok (kind k, v).
Proof.
  intros (kvs & sp & ep & -> & A & B & P & Q). cbn [fst snd] in P, Q. destruct v as [a b]. cbn [fst snd] in P, Q.
  unfold range_step, validate_range_and_get_type. cbn [jin jitem bind]. rewrite A, B. cbn [negb bind]. rewrite (pointer_type_ok _ _ _ P). cbn [bind].
  rewrite (pointer_type_ok _ _ _ Q). cbn [bind]. replace (negb (range_type_eqb (kind k) (kind k))) with false by (destruct k; reflexivity). cbn [bind].
  unfold get_start_end_tuple. cbn [jitem bind]. rewrite A, B. cbn [bind]. destruct P as (kp & -> & P1 & _), Q as (kq & -> & Q1 & _).
  replace (match kind k with RANGE_BYTE => $"offset" | RANGE_LINE => $"lineNumber" end) with (kind_key k) by (destruct k; reflexivity).
  cbn [jitem bind]. rewrite P1, Q1. reflexivity.
Qed.
Lemma range_step_inv x t v : range_step x = Ok (t, v) -> exists k, t = kind k /\ IsRange x (k, v).
Proof.
  unfold range_step, validate_range_and_get_type. destruct (jin $"startPointer" x) as [s|] eqn:S; cbn [bind]; [|discriminate].
  destruct (negb s); cbn [bind]; [discriminate|]. destruct (jin $"endPointer" x) as [e|]; cbn [bind]; [|discriminate]. destruct (negb e); cbn [bind]; [discriminate|].
  destruct x as [| | | | | |kvs]; cbn [jitem]; try (cbn [bind]; discriminate).
  destruct (assoc $"startPointer" kvs) as [sp|] eqn:A; cbn [bind]; [|discriminate].
  destruct (validate_pointer_and_get_type sp) as [st|] eqn:P; cbn [bind]; [|discriminate].
  destruct (assoc $"endPointer" kvs) as [ep|] eqn:B; cbn [bind]; [|discriminate].
  destruct (validate_pointer_and_get_type ep) as [et|] eqn:Q; cbn [bind]; [|discriminate].
  destruct (range_type_eqb st et) eqn:T; cbn [negb bind]; [|discriminate].
  unfold get_start_end_tuple. cbn [jitem bind]. rewrite A, B. cbn [bind].
  destruct sp as [| | | | | |kp]; cbn [jitem bind]; try discriminate. apply pointer_type in P. destruct P as (k & v1 & -> & P1 & P2).
  replace (match kind k with RANGE_BYTE => $"offset" | RANGE_LINE => $"lineNumber" end) with (kind_key k) by (destruct k; reflexivity).
  rewrite P1. cbn [bind]. destruct ep as [| | | | | |kq]; cbn [jitem bind]; try discriminate. apply pointer_type in Q. destruct Q as (k' & v2 & -> & Q1 & Q2).
  assert (k' = k) by (destruct k, k'; try discriminate; reflexivity). subst k'. rewrite Q1. cbn [bind]. intros [= <- <-].
  exists k. split; [reflexivity|]. exists kvs, (JObj kp), (JObj kq). repeat split; try assumption; cbn [fst snd]; eexists; repeat split; eauto.
Qed.
Definition or_else {A} (a b : option A) : option A := match a with Some x => Some x | None => b end.
Lemma ranges_loop_ok l ks : Forall2 IsRange l ks -> forall log acc,
  ranges_loop l log acc = Ok (log, {| rg_byte := or_else (last_of true ks) (rg_byte acc); rg_line := or_else (last_of false ks) (rg_line acc) |}).
Proof.
  induction 1 as [|x [k v] l ks R F IH]; intros log acc; cbn [ranges_loop last_of].
  - destruct acc; reflexivity.
  - change (do t <- validate_range_and_get_type x; do v <- get_start_end_tuple x t; Ok (t, v)) with (range_step x).
    rewrite (range_step_ok _ _ _ R). rewrite IH. f_equal. f_equal. destruct k; cbn [kind set_range rg_byte rg_line Bool.eqb];
      destruct (last_of true ks), (last_of false ks); reflexivity.
Qed.
Lemma ranges_loop_inv l : forall log acc r, ranges_loop l log acc = Ok ([], r) -> log = [] /\ exists ks, Forall2 IsRange l ks.
Proof.
  induction l as [|x l IH]; intros log acc r; cbn [ranges_loop].
  - intros [= -> _]. split; [reflexivity|]. exists []. constructor.
  - change (do t <- validate_range_and_get_type x; do v <- get_start_end_tuple x t; Ok (t, v)) with (range_step x).
    destruct (range_step x) as [[t v]|e] eqn:E.
    + intro H. destruct (IH _ _ _ H) as (L & ks & F). split; [exact L|]. destruct (range_step_inv _ _ _ E) as (k & -> & R). exists ((k, v) :: ks). constructor; assumption.
    + destruct e; try discriminate. intro H. destruct (IH _ _ _ H) as (L & _). destruct log; discriminate.
Qed.
Theorem parse_ranges_spec items r : parse_ranges (JArr items) = Ok r <->
  exists ks, Forall2 IsRange items ks /\ rg_byte r = last_of true ks /\ rg_line r = last_of false ks.
Proof.
  unfold parse_ranges. cbn [jiter bind]. split.
  - destruct (ranges_loop items [] no_ranges) as [[log r']|] eqn:E; cbn [bind]; [|discriminate]. destruct log; cbn [raise_if_named bind]; [|discriminate].
    intros [= ->]. destruct (ranges_loop_inv _ _ _ _ E) as (_ & ks & F). exists ks. rewrite (ranges_loop_ok _ _ F) in E. injection E as <-. split; [exact F|].
    cbn. destruct (last_of true ks), (last_of false ks); split; reflexivity.
  - intros (ks & F & B & L). rewrite (ranges_loop_ok _ _ F). cbn [bind raise_if_named]. f_equal. destruct r as [b l]; cbn in B, L |- *. subst.
    destruct (last_of true ks), (last_of false ks); reflexivity.
Qed.
Lemma pointer_obj kvs : exists m, validate_pointer_and_get_type (JObj kvs) = Raise (EValue m) \/ exists t, validate_pointer_and_get_type (JObj kvs) = Ok t.
Proof.
  unfold validate_pointer_and_get_type. cbn [jin bind]. destruct (assoc $"offset" kvs), (assoc $"lineNumber" kvs); cbn [andb negb]; eexists; try (left; reflexivity); right; eexists; reflexivity.
  Unshelve. all: exact [].
Qed.
Lemma range_step_obj x : ObjectRange x -> (exists m, range_step x = Raise (EValue m)) \/ exists r, range_step x = Ok r.
Proof.
  intros (kvs & -> & H). unfold range_step, validate_range_and_get_type. cbn [jin jitem bind].
  destruct (assoc $"startPointer" kvs) as [sp|] eqn:A; cbn [negb bind]; [|left; eexists; reflexivity].
  destruct (assoc $"endPointer" kvs) as [ep|] eqn:B; cbn [negb bind]; [|left; eexists; reflexivity].
  destruct (H _ _ (or_introl eq_refl) A) as (kp & ->). destruct (H _ _ (or_intror (or_introl eq_refl)) B) as (kq & ->).
  destruct (pointer_obj kp) as (m & [P|(st & P)]); rewrite P; cbn [bind]; [left; eexists; reflexivity|].
  destruct (pointer_obj kq) as (m' & [Q|(et & Q)]); rewrite Q; cbn [bind]; [left; eexists; reflexivity|].
  destruct (range_type_eqb st et) eqn:T; cbn [negb bind]; [|left; eexists; reflexivity].
  apply pointer_type in P, Q. destruct P as (k & v1 & -> & P1 & _), Q as (k' & v2 & -> & Q1 & _).
  assert (k' = k) by (destruct k, k'; try discriminate; reflexivity). subst k'. unfold get_start_end_tuple. cbn [jitem bind]. rewrite A, B. cbn [bind].
  replace (match kind k with RANGE_BYTE => $"offset" | RANGE_LINE => $"lineNumber" end) with (kind_key k) by (destruct k; reflexivity).
  cbn [jitem]. rewrite P1, Q1. cbn [bind]. right. eexists. reflexivity.
Qed.
Lemma ranges_loop_obj l : Forall ObjectRange l -> forall log acc, exists log' acc', ranges_loop l log acc = Ok (log ++ log', acc').
Proof.
  induction 1 as [|x l R F IH]; intros log acc; cbn [ranges_loop].
  - exists [], acc. rewrite app_nil_r. reflexivity.
  - change (do t <- validate_range_and_get_type x; do v <- get_start_end_tuple x t; Ok (t, v)) with (range_step x).
    destruct (range_step_obj x R) as [(m & ->)|([t v] & ->)].
    + destruct (IH (log ++ [m]) acc) as (l' & a' & ->). exists (m :: l'), a'. rewrite <- app_assoc. reflexivity.
    + apply IH.
Qed.
Theorem parse_ranges_rejects items : Forall ObjectRange items -> ~ (exists ks, Forall2 IsRange items ks) -> exists m, parse_ranges (JArr items) = Raise (EParsing [m]).
Proof.
  intros F N. destruct (parse_ranges (JArr items)) as [r|e] eqn:E.
  - apply parse_ranges_spec in E. destruct E as (ks & K & _). exfalso. eauto.
  - unfold parse_ranges in E. cbn [jiter bind] in E. destruct (ranges_loop_obj items F [] no_ranges) as (log & acc & L). rewrite L in E. cbn [bind app] in E.
    destruct log; cbn [raise_if_named bind] in E; [discriminate|]. injection E as <-. eexists. reflexivity.
Qed.
Theorem ranges_round_trip s : parse_ranges (convert_ranges s) =
  Ok {| rg_byte := Some (JInt (fst (sn_bytes s)), JInt (snd (sn_bytes s)));
        rg_line := match sn_lines s with Some (a, b) => Some (JInt a, JInt b) | None => None end |}.
Proof. destruct s as [? ? [a b] [[c d]|] ? ? ? ? ? ? ?]; reflexivity. Qed.

(** ** C15 *)
Lemma fromkeys_firsts ids : forall seen acc, (forall x, existsb (key_eqb (JStr x)) acc = str_in x seen) ->
  fromkeys (map JStr ids) acc = Ok (acc ++ map JStr (firsts seen ids)).
Proof.
  induction ids as [|x ids IH]; intros seen acc H; cbn [map fromkeys firsts hashable negb].
  - rewrite app_nil_r. reflexivity.
  - rewrite H. destruct (str_in x seen) eqn:E.
    + apply IH. exact H.
    + rewrite (IH (x :: seen)).
      * rewrite <- app_assoc. reflexivity.
      * intro y. rewrite existsb_app, H. cbn [existsb key_eqb]. unfold str_in. cbn [existsb]. rewrite orb_false_r. apply orb_comm.
Qed.
Lemma dedup_strings ids : delete_duplicates_from_list (JArr (map JStr ids)) = Ok (map JStr (firsts [] ids)).
Proof. unfold delete_duplicates_from_list. cbn [jiter bind]. rewrite (fromkeys_firsts ids []); [reflexivity|]. reflexivity. Qed.
Lemma firsts_In ids : forall seen x, In x (firsts seen ids) <-> In x ids /\ ~ In x seen.
Proof.
  induction ids as [|y ids IH]; intros seen x; cbn [firsts]; [cbn; tauto|]. destruct (str_in y seen) eqn:E.
  - rewrite IH. apply str_in_In in E. cbn. split; [tauto|]. intros [[->|H] K]; [contradiction|tauto].
  - apply str_in_false in E. cbn. rewrite IH. cbn. split.
    + intros [->|[H K]]; tauto.
    + intros [[->|H] K]; [auto|]. destruct (str_eqb y x) eqn:F; [apply str_eqb_eq in F; auto|]. right. split; [exact H|]. intros [->|L]; [|contradiction].
      rewrite str_eqb_refl in F. discriminate.
Qed.
Lemma firsts_NoDup ids : forall seen, NoDup (firsts seen ids).
Proof.
  induction ids as [|y ids IH]; intros seen; cbn [firsts]; [constructor|]. destruct (str_in y seen); [apply IH|]. constructor; [|apply IH].
  rewrite firsts_In. cbn. tauto.
Qed.
Lemma rel_in_says o t x l : rel_in (simple o t x) (get_all_relationships_without_comments l) = existsb (says o t x) l.
Proof.
  unfold rel_in, get_all_relationships_without_comments. induction l as [|r l IH]; cbn [map existsb]; [reflexivity|]. rewrite IH. f_equal.
  unfold eqb_of, says, simple, without_comment, rel_type_eqb. destruct relationship_eq_dec as [E|E].
  - injection E as <- <- <-. rewrite !str_eqb_refl. destruct (rel_type_eq_dec t t); [reflexivity|contradiction].
  - symmetry. apply not_true_iff_false. intro H. apply andb_prop in H. destruct H as [H H3]. apply andb_prop in H. destruct H as [H1 H2].
    apply str_eqb_eq in H1. destruct (rel_type_eq_dec (re_type r) t) as [H2'|]; [|discriminate]. destruct (re_related r) as [| |y] eqn:R; try discriminate.
    apply str_eqb_eq in H3. subst. apply E. reflexivity.
Qed.
Lemma states_split l o t t' x : states l o t t' x = existsb (says o t x) l || existsb (says x t' o) l.
Proof.
  unfold states. induction l as [|r l IH]; cbn [existsb]; [reflexivity|]. rewrite IH. destruct (says o t x r), (says x t' o r), (existsb (says o t x) l); reflexivity.
Qed.
Lemma exists_states l o t t' x : invert_type t = Some t' ->
  check_if_relationship_exists (simple o t x) (get_all_relationships_without_comments l) = Ok (states l o t t' x).
Proof.
  intro I. unfold check_if_relationship_exists, invert_relationship. cbn [simple re_type re_related re_id re_comment]. rewrite I. fold (simple o t x).
  change {| re_id := x; re_type := t'; re_related := NVal o; re_comment := None |} with (simple x t' o). cbn [bind].
  rewrite !rel_in_says, states_split. destruct (existsb (says o t x) l); reflexivity.
Qed.
Lemma implicit_loop_ok l o t t' xs : invert_type t = Some t' ->
  implicit_loop (JStr o) t (get_all_relationships_without_comments l) (map JStr xs)
  = Ok ([], map (simple o t) (filter (fun x => negb (states l o t t' x)) xs)).
Proof.
  intro I. induction xs as [|x xs IH]; cbn [map implicit_loop filter]; [reflexivity|].
  unfold implicit_relationship. cbn [c_str c_nn ap construct_raw]. change {| re_id := o; re_type := t; re_related := NVal x; re_comment := None |} with (simple o t x).
  rewrite (exists_states l o t t' x I). cbn [bind]. rewrite IH. cbn [bind]. destruct (states l o t t' x); reflexivity.
Qed.
Lemma array_get k kvs l : ArrayAt k kvs l -> jget_default k (JArr []) (JObj kvs) = Ok (JArr l).
Proof. unfold ArrayAt, jget_default. destruct (assoc k kvs); intros ->; reflexivity. Qed.
Lemma has_files_ok l pkgs pjs : Forall2 PackageEntry pkgs pjs ->
  has_files_loop (get_all_relationships_without_comments l) pjs
  = Ok ([], flat_map (fun p => missing l (fst p) RT_CONTAINS RT_CONTAINED_BY (snd p)) pkgs).
Proof.
  induction 1 as [|[id xs] j pkgs pjs (kvs & -> & A & B) F IH]; cbn [has_files_loop flat_map fst snd]; [reflexivity|]. cbn [fst snd] in A, B.
  unfold jget. unfold jget_default at 1. rewrite A. cbn [bind]. rewrite (array_get _ _ _ B). cbn [bind]. rewrite dedup_strings. cbn [bind].
  rewrite (implicit_loop_ok l id RT_CONTAINS RT_CONTAINED_BY _ eq_refl). cbn [bind]. rewrite IH. reflexivity.
Qed.
Theorem relationships_spec kvs rjs listed doc ids pjs pkgs :
  ArrayAt $"relationships" kvs rjs -> Forall2 (fun j r => parse_relationship j = Ok r) rjs listed ->
  assoc $"SPDXID" kvs = Some (JStr doc) -> ArrayAt $"documentDescribes" kvs (map JStr ids) ->
  ArrayAt $"packages" kvs pjs -> Forall2 PackageEntry pkgs pjs ->
  let described := missing listed doc RT_DESCRIBES RT_DESCRIBED_BY ids in
  let contained := flat_map (fun p => missing (listed ++ described) (fst p) RT_CONTAINS RT_CONTAINED_BY (snd p)) pkgs in
  parse_all_relationships (JObj kvs) = Ok (listed ++ described ++ contained).
Proof.
  intros R1 R2 D1 D2 P1 P2 described contained. unfold parse_all_relationships. rewrite (array_get _ _ _ R1). cbn [bind].
  assert (L : exists o, parse_field_list (JArr rjs) parse_relationship = Ok ([], o) /\ opt_list o = listed).
  { unfold parse_field_list, parse_field. cbn [jtruthy]. destruct rjs as [|j rjs]; cbn [truthy_list negb].
    - inversion R2; subst. exists None. split; reflexivity.
    - exists (Some listed). unfold parse_list_of_elements, parse_list_of_elements_log. cbn [jiter bind]. rewrite (parse_elements_ok _ _ _ R2). split; reflexivity. }
  destruct L as (o & -> & <-). cbn [bind]. rewrite (array_get _ _ _ D2). cbn [bind]. rewrite dedup_strings. cbn [bind].
  unfold jget. unfold jget_default at 1. rewrite D1. cbn [bind].
  assert (K : exists o2, parse_field (JArr (map JStr (firsts [] ids)))
     (fun _ => parse_document_describes (JStr doc) (get_all_relationships_without_comments (opt_list o)) (map JStr (firsts [] ids))) = Ok ([], o2) /\ opt_list o2 = described).
  { unfold parse_field. cbn [jtruthy]. destruct (map JStr (firsts [] ids)) as [|j js] eqn:E; cbn [truthy_list negb].
    - exists None. split; [reflexivity|]. unfold described, missing. destruct (firsts [] ids); [reflexivity|discriminate].
    - rewrite <- E. exists (Some described). unfold parse_document_describes. rewrite (implicit_loop_ok _ doc RT_DESCRIBES RT_DESCRIBED_BY _ eq_refl). split; reflexivity. }
  destruct K as (o2 & -> & K2). cbn [bind]. rewrite K2. rewrite (array_get _ _ _ P1). cbn [bind].
  assert (M : exists o3, parse_field (JArr pjs) (parse_has_files (get_all_relationships_without_comments (opt_list o ++ described))) = Ok ([], o3) /\ opt_list o3 = contained).
  { unfold parse_field. cbn [jtruthy]. destruct pjs as [|j pjs]; cbn [truthy_list negb].
    - exists None. split; [reflexivity|]. inversion P2; subst. reflexivity.
    - exists (Some contained). unfold parse_has_files. cbn [jiter bind]. rewrite (has_files_ok _ _ _ P2). split; reflexivity. }
  destruct M as (o3 & -> & M2). cbn [bind app raise_if]. rewrite M2, app_assoc. reflexivity.
Qed.
Lemma states_In l o t t' x : states l o t t' x = true <-> exists r, In r l /\ (says o t x r = true \/ says x t' o r = true).
Proof. unfold states. rewrite existsb_exists. setoid_rewrite orb_true_iff. reflexivity. Qed.
Lemma says_simple o t x : says o t x (simple o t x) = true.
Proof. unfold says, simple. cbn. rewrite !str_eqb_refl. unfold rel_type_eqb. destruct (rel_type_eq_dec t t); [reflexivity|contradiction]. Qed.
Lemma missing_In l o t t' xs r : In r (missing l o t t' xs) <-> exists x, r = simple o t x /\ In x xs /\ states l o t t' x = false.
Proof.
  unfold missing. rewrite in_map_iff. setoid_rewrite filter_In. setoid_rewrite firsts_In. setoid_rewrite negb_true_iff. split.
  - intros (x & <- & (H & _) & S). eauto.
  - intros (x & -> & H & S). exists x. cbn. tauto.
Qed.
Lemma missing_NoDup l o t t' xs : NoDup (missing l o t t' xs).
Proof. unfold missing. apply FinFun.Injective_map_NoDup; [|apply NoDup_filter, firsts_NoDup]. intros a b [= ->]. reflexivity. Qed.
(** afterwards everything is stated *)
Lemma missing_states l o t t' xs x m : In x xs -> (forall r, In r (missing l o t t' xs) -> In r m) -> (forall r, In r l -> In r m) -> states m o t t' x = true.
Proof.
  intros H K L. destruct (states l o t t' x) eqn:S.
  - apply states_In in S. destruct S as (r & A & B). apply states_In. eauto.
  - apply states_In. exists (simple o t x). split; [|left; apply says_simple]. apply K, missing_In. eauto.
Qed.
Lemma NoDup_app {A} (l m : list A) : NoDup l -> NoDup m -> (forall x, In x l -> In x m -> False) -> NoDup (l ++ m).
Proof.
  induction 1 as [|x l H N IH]; cbn; intros M D; [exact M|]. constructor.
  - rewrite in_app_iff. intros [K|K]; [contradiction|]. apply (D x); [left; reflexivity|exact K].
  - apply IH; [exact M|]. intros y K. apply D. right. exact K.
Qed.
Theorem implicit_once listed doc ids pkgs :
  let described := missing listed doc RT_DESCRIBES RT_DESCRIBED_BY ids in
  let contained := flat_map (fun p => missing (listed ++ described) (fst p) RT_CONTAINS RT_CONTAINED_BY (snd p)) pkgs in
  NoDup (map fst pkgs) ->
  NoDup (described ++ contained)
  /\ (forall r, In r (described ++ contained) -> forall r', In r' listed -> ~ (re_id r' = re_id r /\ re_type r' = re_type r /\ re_related r' = re_related r))
  /\ (forall x, In x ids -> states (listed ++ described ++ contained) doc RT_DESCRIBES RT_DESCRIBED_BY x = true)
  /\ (forall p x, In p pkgs -> In x (snd p) -> states (listed ++ described ++ contained) (fst p) RT_CONTAINS RT_CONTAINED_BY x = true).
Proof.
  intros described contained N. split; [|split; [|split]].
  - assert (C : NoDup contained).
    { unfold contained. generalize (listed ++ described). intro l. clear -N. induction pkgs as [|p pkgs IH]; cbn [flat_map]; [constructor|].
      cbn [map] in N. apply NoDup_cons_iff in N. destruct N as [N1 N2]. apply NoDup_app; [apply missing_NoDup|apply IH; exact N2|].
      intros r A B. apply missing_In in A. destruct A as (x & -> & _). apply in_flat_map in B. destruct B as (q & Q1 & Q2). apply missing_In in Q2.
      destruct Q2 as (y & Y & _). apply N1. injection Y as Y _. rewrite Y. apply in_map. exact Q1. }
    apply NoDup_app; [apply missing_NoDup|exact C|]. intros r A B. apply missing_In in A. destruct A as (x & -> & _). apply in_flat_map in B.
    destruct B as (q & _ & Q). apply missing_In in Q. destruct Q as (y & Y & _). discriminate Y.
  - intros r H r' L (E1 & E2 & E3). apply in_app_iff in H.
    assert (G : forall l o t t' xs, In r (missing l o t t' xs) -> In r' l -> False).
    { intros l o t t' xs M I. apply missing_In in M. destruct M as (x & -> & _ & S). cbn in E1, E2, E3. assert (T : states l o t t' x = true); [|congruence].
      apply states_In. exists r'. split; [exact I|]. left. unfold says. rewrite E1, E2, E3, !str_eqb_refl. unfold rel_type_eqb. destruct (rel_type_eq_dec t t); [reflexivity|contradiction]. }
    destruct H as [H|H]; [exact (G _ _ _ _ _ H L)|]. apply in_flat_map in H. destruct H as (p & _ & Q). apply (G _ _ _ _ _ Q). apply in_app_iff. auto.
  - intros x H. apply (missing_states listed doc _ _ ids); [exact H| |]; intros r I; rewrite !in_app_iff; auto.
  - intros p x H I. apply (missing_states (listed ++ described) (fst p) _ _ (snd p)); [exact I| |]; intros r K; rewrite !in_app_iff.
    + right. right. apply in_flat_map. eauto.
    + rewrite in_app_iff in K. tauto.
Qed.
