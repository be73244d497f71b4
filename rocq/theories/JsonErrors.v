(** Parsing of JSON-like dictionaries: errors (C16), implicit relationships (C15), ranges (C46). *)
From Verif Require Import Py Data Oracles Basics DocUtils Json Construct JsonConv JsonParse PyFacts BasicsSpec JsonSpec JsonFacts.

(** ** Failures always leave a message *)
Definition Noisy {A} (r : result A) : Prop := forall e, r = Raise e -> caught e <> Some [].
Lemma noisy_ok {A} (a : A) : Noisy (Ok a).
Proof. intros e [=]. Qed.
Lemma noisy_bind {A B} (r : result A) (f : A -> result B) : Noisy r -> (forall a, Noisy (f a)) -> Noisy (bind r f).
Proof. intros H K e E. destruct r as [a|x]; cbn in E; [exact (K a e E)|]. injection E as ->. exact (H e eq_refl). Qed.
Lemma noisy_jget k j : Noisy (jget k j).
Proof. intros e. destruct j; cbn; intros [= <-]; discriminate. Qed.
Lemma noisy_jget_default k d j : Noisy (jget_default k d j).
Proof. intros e. destruct j; cbn; intros [= <-]; discriminate. Qed.
Lemma noisy_field {A} j (f : json -> result A) : Noisy (parse_field j f).
Proof.
  intros e. unfold parse_field. destruct (negb (jtruthy j)); [intros [=]|]. destruct (f j) as [a|x]; [intros [=]|].
  destruct (caught x) eqn:C; intros [= <-]. congruence.
Qed.
Lemma noisy_field_list {A} j (f : json -> result A) : Noisy (parse_field_list j f).
Proof. apply noisy_field. Qed.
Lemma noisy_named log n : Noisy (raise_if_named log n).
Proof. intros e. destruct log; cbn; intros [= <-]. discriminate. Qed.
Lemma noisy_construct {A} cls (c : chk A) : Noisy (construct cls c).
Proof. intros e. destruct c; cbn; intros [= <-]. discriminate. Qed.
Lemma noisy_bound j : Noisy (convert_bound j).
Proof.
  intros e. destruct j; cbn; try (intros [=]; fail). destruct (isdigit s); [|intros [=]]. destruct (dec_val s); intros [= <-]. discriminate.
Qed.
Lemma noisy_range r : Noisy (convert_range_from_str r).
Proof.
  destruct r as [[a b]|]; [|apply noisy_ok]. cbn. apply noisy_bind; [apply noisy_bound|]. intro. apply noisy_bind; [apply noisy_bound|].
  intro. apply noisy_ok.
Qed.
Ltac noisy := repeat first
  [ apply noisy_bind; [first [apply noisy_jget | apply noisy_jget_default | apply noisy_field | apply noisy_field_list | apply noisy_named | apply noisy_range]|intro]
  | progress cbn beta iota zeta
  | match goal with |- Noisy (match ?x with _ => _ end) => destruct x end
  | apply noisy_construct | apply noisy_ok ].
Lemma noisy_extracted j : Noisy (parse_extracted j).
Proof. unfold parse_extracted. noisy. Qed.
Lemma noisy_file O j : Noisy (parse_file O j).
Proof. unfold parse_file. noisy. Qed.
Lemma noisy_snippet O j : Noisy (parse_snippet O j).
Proof. unfold parse_snippet. noisy. Qed.
Lemma noisy_relationship j : Noisy (parse_relationship j).
Proof. unfold parse_relationship. noisy. Qed.
Definition NoisyPair {A} (r : result (list pystr * result A)) : Prop :=
  match r with Ok (_, x) => Noisy x | Raise e => caught e <> Some [] end.
Lemma noisy_pair_bind {A B} (r : result B) (f : B -> result (list pystr * result A)) : Noisy r -> (forall a, NoisyPair (f a)) -> NoisyPair (bind r f).
Proof. intros H K. destruct r as [a|x]; cbn [bind]; [exact (K a)|]. exact (H x eq_refl). Qed.
Lemma noisy_package_raw O j : NoisyPair (parse_package_raw O j).
Proof.
  unfold parse_package_raw.
  repeat (apply noisy_pair_bind; [first [apply noisy_jget | apply noisy_jget_default | apply noisy_field | apply noisy_field_list]|intro];
          try match goal with |- NoisyPair (let '(_, _) := ?p in _) => destruct p end).
  unfold NoisyPair. apply noisy_bind; [apply noisy_named|]. intro. apply noisy_construct.
Qed.
Lemma noisy_package O j : Noisy (snd (parse_package O j)).
Proof.
  unfold parse_package. generalize (noisy_package_raw O j). unfold NoisyPair. destruct (parse_package_raw O j) as [[log r]|x]; [exact (fun h => h)|].
  cbn [snd]. intros H e [= <-]. exact H.
Qed.

(** ** C16 *)
Lemma complaints_caught {A} m (r : result A) : complaints (m, r) = m ++ match r with Raise e => match caught e with Some l => l | None => [] end | Ok _ => [] end.
Proof. unfold complaints. cbn [fst snd]. destruct r as [a|[]]; reflexivity. Qed.
Lemma parse_elements_log {A} (f : json -> list pystr * result A) l : (forall x, Noisy (snd (f x))) -> forall log rs,
  parse_elements f l = Ok (log, rs) ->
  log = flat_map (fun x => complaints (f x)) l /\ (log = [] -> Forall2 (Parses f) l rs).
Proof.
  intro N. induction l as [|x l IH]; cbn [parse_elements flat_map]; intros log rs.
  - intros [= <- <-]. split; [reflexivity|]. constructor.
  - specialize (N x). destruct (f x) as [m [a|e]] eqn:E; cbn [snd] in N.
    + destruct (parse_elements f l) as [[ms r]|]; cbn [bind]; [|discriminate]. intros [= <- <-]. destruct (IH _ _ eq_refl) as [I1 I2].
      rewrite complaints_caught, app_nil_r, I1. split; [reflexivity|]. intro Z. apply app_eq_nil in Z. destruct Z as [Z1 Z2]. constructor; [|apply I2; congruence].
      unfold Parses. rewrite E. congruence.
    + destruct (caught e) as [m'|] eqn:C; [|discriminate].
      destruct (parse_elements f l) as [[ms r]|]; cbn [bind]; [|discriminate]. intros [= <- <-]. destruct (IH _ _ eq_refl) as [I1 I2].
      rewrite complaints_caught, C, I1, app_assoc. split; [reflexivity|]. intro Z. apply app_eq_nil in Z. destruct Z as [Z1 Z2].
      apply app_eq_nil in Z1. destruct Z1 as [_ ->]. exfalso. exact (N e eq_refl C).
Qed.
Definition at_key (k : pystr) (kvs : list (pystr * json)) : json := match assoc k kvs with Some v => v | None => JNull end.
Lemma top_list {A} (f : json -> list pystr * result A) k kvs : (forall x, Noisy (snd (f x))) -> (forall s, exists e, f (JStr s) = ([], Raise e) /\ caught e = None) ->
  forall log o, top_field true (at_key k kvs) (parse_list_of_elements_log f) = Ok (log, o) ->
  exists l, EntriesAt k kvs l /\ log = flat_map (fun x => complaints (f x)) l /\ (log = [] -> Forall2 (Parses f) l (opt_list o)).
Proof.
  intros N S log o. unfold top_field, EntriesAt, at_key. destruct (assoc k kvs) as [v|]; cbn [andb].
  2: { intros [= <- <-]. exists []. repeat split. constructor. }
  destruct (jtruthy v) eqn:T; cbn [negb].
  2: { intros [= <- <-]. exists []. split; [destruct v; auto; destruct l; [reflexivity|discriminate]|]. split; [reflexivity|constructor]. }
  unfold parse_list_of_elements_log. destruct v as [|b|z|r|s|l|kv]; cbn [jiter bind]; try discriminate.
  - destruct s as [|c s]; [discriminate|]. cbn [map parse_elements]. destruct (S [c]) as (e & -> & C). rewrite C. cbn [bind]. destruct e; discriminate.
  - destruct (parse_elements f l) as [[lg rs]|e] eqn:E; cbn [bind].
    + destruct (parse_elements_log f l N _ _ E) as [P1 P2]. intro H. exists l. split; [reflexivity|]. destruct lg as [|m lg]; cbn [raise_if bind] in H.
      * injection H as <- <-. split; [exact P1|]. intros _. apply P2. reflexivity.
      * injection H as <- <-. split; [exact P1|]. discriminate.
    + assert (C : caught e = None); [|destruct e; discriminate].
      clear - E. induction l as [|x l IH]; [discriminate|]. cbn [parse_elements] in E. destruct (f x) as [m [a|e']].
      * destruct (parse_elements f l) as [[ms r]|e'']; cbn [bind] in E; [discriminate|]. apply IH. injection E as ->. reflexivity.
      * destruct (caught e') eqn:C; [|injection E as <-; exact C].
        destruct (parse_elements f l) as [[ms r]|e'']; cbn [bind] in E; [discriminate|]. apply IH. injection E as ->. reflexivity.
  - destruct kv as [|[k0 v0] kv]; [discriminate|]. cbn [map parse_elements fst]. destruct (S k0) as (e & -> & C). rewrite C. cbn [bind]. destruct e; discriminate.
Qed.
Lemma top_one {A} opt j (f : json -> result A) log o : jtruthy j = true \/ opt = false -> top_field opt j f = Ok (log, o) ->
  log = complaints ([], f j) /\ (log = [] -> Noisy (f j) -> exists a, f j = Ok a /\ o = Some a).
Proof.
  intros T. unfold top_field. replace (opt && negb (jtruthy j)) with false by (destruct T as [-> | ->]; [rewrite andb_false_r|]; reflexivity).
  destruct (f j) as [a|[]]; try discriminate; intros [= <- <-].
  - split; [reflexivity|]. intros _ _. eauto.
  - split; [reflexivity|]. intros -> N. exfalso. exact (N _ eq_refl eq_refl).
Qed.
Lemma noisy_jiter j : Noisy (jiter j).
Proof. intros e. destruct j; cbn; intros [= <-]; discriminate. Qed.
Lemma noisy_elements {A} (f : json -> list pystr * result A) l : Noisy (parse_elements f l).
Proof.
  induction l as [|x l IH]; cbn [parse_elements]; [apply noisy_ok|]. destruct (f x) as [m [a|e]].
  - apply noisy_bind; [exact IH|]. intros [ms r]. apply noisy_ok.
  - destruct (caught e) eqn:C.
    + apply noisy_bind; [exact IH|]. intros [ms r]. apply noisy_ok.
    + intros e' [= <-]. congruence.
Qed.
Lemma noisy_annotations_loop l : Noisy (annotations_loop l).
Proof.
  induction l as [|x l IH]; cbn [annotations_loop]; [apply noisy_ok|]. apply noisy_bind; [apply noisy_jget|]. intro. apply noisy_bind; [apply noisy_jget_default|].
  intro. apply noisy_bind; [apply noisy_field_list|]. intros [m r]. apply noisy_bind; [exact IH|]. intros [ms rs]. apply noisy_ok.
Qed.
Lemma noisy_annotations_from j : Noisy (parse_annotations_from_object j).
Proof. apply noisy_bind; [apply noisy_jiter|]. intro. apply noisy_annotations_loop. Qed.
Lemma noisy_raise_if l : Noisy (raise_if l).
Proof. intros e. destruct l; cbn; intros [= <-]. discriminate. Qed.
Lemma noisy_fromkeys l : forall acc, Noisy (fromkeys l acc).
Proof.
  induction l as [|x l IH]; intro acc; cbn [fromkeys]; [apply noisy_ok|]. destruct (negb (hashable x)); [|apply IH]. intros e [= <-]. discriminate.
Qed.
Lemma noisy_dedup j : Noisy (delete_duplicates_from_list j).
Proof. apply noisy_bind; [apply noisy_jiter|]. intro. apply noisy_fromkeys. Qed.
Ltac noisy2 := repeat (cbv zeta; first
  [ apply noisy_bind; [first [apply noisy_jget | apply noisy_jget_default | apply noisy_field | apply noisy_field_list | apply noisy_named | apply noisy_raise_if
                             | apply noisy_jiter | apply noisy_elements | apply noisy_annotations_loop | apply noisy_annotations_from | apply noisy_dedup]|intro]
  | match goal with |- Noisy (let '(_, _) := ?p in _) => destruct p end
  | apply noisy_construct | apply noisy_ok ]).
Lemma noisy_creation_info j : Noisy (parse_creation_info j).
Proof.
  unfold parse_creation_info. do 5 (apply noisy_bind; [apply noisy_jget|intro]). match goal with |- Noisy (match ?c with _ => _ end) => destruct c end.
  - intros e [= <-]. discriminate.
  - noisy2.
  - noisy2.
  - noisy2.
  - noisy2.
  - noisy2.
  - noisy2.
Qed.
Lemma noisy_all_annotations j : Noisy (parse_all_annotations j).
Proof. unfold parse_all_annotations. noisy2. Qed.
Lemma noisy_all_relationships j : Noisy (parse_all_relationships j).
Proof. unfold parse_all_relationships. noisy2. Qed.

Lemma strings_escape {A} (parse : json -> list pystr * result A) :
  (exists k f, forall j, parse j = match jget k j with Ok v => f j v | Raise e => ([], Raise e) end) -> forall s, exists e, parse (JStr s) = ([], Raise e) /\ caught e = None.
Proof. intros (k & f & E) s. rewrite E. cbn. eexists. split; reflexivity. Qed.

Lemma top_field_err {A} opt j (f : json -> result A) e : top_field opt j f = Raise e -> forall ms, e <> EParsing ms.
Proof. unfold top_field. destruct (opt && negb (jtruthy j)); [discriminate|]. destruct (f j) as [a|[]]; intros [= <-]; discriminate. Qed.
Lemma top_object {A} kvs (f : json -> result A) log o : is_ok (f (JObj [])) = true ->
  top_field true (JObj kvs) f = Ok (log, o) -> Noisy (f (JObj kvs)) ->
  log = complaints ([], f (JObj kvs)) /\ (log = [] -> exists a, f (JObj kvs) = Ok a /\ (o = Some a \/ kvs = [] /\ o = None)).
Proof.
  intros K T N. destruct kvs as [|kv kvs].
  - unfold top_field in T. cbn in T. injection T as <- <-. destruct (f (JObj [])) as [a|]; [|discriminate]. split; [reflexivity|]. eauto.
  - destruct (top_one true (JObj (kv :: kvs)) f log o (or_introl eq_refl) T) as [A1 A2]. split; [exact A1|]. intro Z. destruct (A2 Z N) as (a & -> & ->). eauto.
Qed.
Definition all_complaints (O : oracles) (kvs : list (pystr * json)) (ps fs ss es : list json) : list pystr :=
  complaints (silent parse_creation_info (JObj kvs))
  ++ flat_map (fun j => complaints (parse_package O j)) ps
  ++ flat_map (fun j => complaints (silent (parse_file O) j)) fs
  ++ complaints (silent parse_all_annotations (JObj kvs))
  ++ flat_map (fun j => complaints (silent (parse_snippet O) j)) ss
  ++ complaints (silent parse_all_relationships (JObj kvs))
  ++ flat_map (fun j => complaints (silent parse_extracted j)) es.
Lemma dict_cases O kvs :
  (exists e, parse_dict O (JObj kvs) = Raise e /\ forall ms, e <> EParsing ms)
  \/ exists ps fs ss es, EntriesAt $"packages" kvs ps /\ EntriesAt $"files" kvs fs /\ EntriesAt $"snippets" kvs ss
      /\ EntriesAt $"hasExtractedLicensingInfos" kvs es
      /\ let log := all_complaints O kvs ps fs ss es in
         (log <> [] /\ parse_dict O (JObj kvs) = Raise (EParsing log))
         \/ (log = [] /\ exists d, parse_dict O (JObj kvs) = Ok d
              /\ parse_creation_info (JObj kvs) = Ok (do_ci d)
              /\ parse_all_annotations (JObj kvs) = Ok (do_annotations d)
              /\ parse_all_relationships (JObj kvs) = Ok (do_relationships d)
              /\ Forall2 (Parses (parse_package O)) ps (do_packages d)
              /\ Forall2 (Parses (silent (parse_file O))) fs (do_files d)
              /\ Forall2 (Parses (silent (parse_snippet O))) ss (do_snippets d)
              /\ Forall2 (Parses (silent parse_extracted)) es (do_extracted d)).
Proof.
  unfold parse_dict. unfold jget, jget_default. cbn [bind].
  change (match assoc $"packages" kvs with Some v => v | None => JNull end) with (at_key $"packages" kvs).
  change (match assoc $"files" kvs with Some v => v | None => JNull end) with (at_key $"files" kvs).
  change (match assoc $"snippets" kvs with Some v => v | None => JNull end) with (at_key $"snippets" kvs).
  change (match assoc $"hasExtractedLicensingInfos" kvs with Some v => v | None => JNull end) with (at_key $"hasExtractedLicensingInfos" kvs).
  change (parse_list_of_elements (parse_file O)) with (parse_list_of_elements_log (silent (parse_file O))).
  change (parse_list_of_elements (parse_snippet O)) with (parse_list_of_elements_log (silent (parse_snippet O))).
  change (parse_list_of_elements parse_extracted) with (parse_list_of_elements_log (silent parse_extracted)).
  destruct (top_field false (JObj kvs) parse_creation_info) as [[l1 ci]|e] eqn:E1; cbn [bind]; [|left; exists e; split; [reflexivity|exact (top_field_err _ _ _ _ E1)]].
  destruct (top_field true (at_key $"packages" kvs) (parse_list_of_elements_log (parse_package O))) as [[l2 packages]|e] eqn:E2; cbn [bind]; [|left; exists e; split; [reflexivity|exact (top_field_err _ _ _ _ E2)]].
  destruct (top_field true (at_key $"files" kvs) (parse_list_of_elements_log (silent (parse_file O)))) as [[l3 files]|e] eqn:E3; cbn [bind]; [|left; exists e; split; [reflexivity|exact (top_field_err _ _ _ _ E3)]].
  destruct (top_field true (JObj kvs) parse_all_annotations) as [[l4 annotations]|e] eqn:E4; cbn [bind]; [|left; exists e; split; [reflexivity|exact (top_field_err _ _ _ _ E4)]].
  destruct (top_field true (at_key $"snippets" kvs) (parse_list_of_elements_log (silent (parse_snippet O)))) as [[l5 snippets]|e] eqn:E5; cbn [bind]; [|left; exists e; split; [reflexivity|exact (top_field_err _ _ _ _ E5)]].
  destruct (top_field true (JObj kvs) parse_all_relationships) as [[l6 relationships]|e] eqn:E6; cbn [bind]; [|left; exists e; split; [reflexivity|exact (top_field_err _ _ _ _ E6)]].
  destruct (top_field true (at_key $"hasExtractedLicensingInfos" kvs) (parse_list_of_elements_log (silent parse_extracted))) as [[l7 infos]|e] eqn:E7; cbn [bind]; [|left; exists e; split; [reflexivity|exact (top_field_err _ _ _ _ E7)]].
  right.
  destruct (top_one _ _ _ _ _ (or_intror eq_refl) E1) as [A1 B1].
  destruct (top_list (parse_package O) _ _ (noisy_package O) (fun s => ex_intro _ _ (conj eq_refl eq_refl)) _ _ E2) as (ps & H2 & A2 & B2).
  destruct (top_list (silent (parse_file O)) _ _ (noisy_file O) (fun s => ex_intro _ _ (conj eq_refl eq_refl)) _ _ E3) as (fs & H3 & A3 & B3).
  destruct (top_object kvs parse_all_annotations l4 annotations eq_refl E4 (noisy_all_annotations _)) as [A4 B4].
  destruct (top_list (silent (parse_snippet O)) _ _ (noisy_snippet O) (fun s => ex_intro _ _ (conj eq_refl eq_refl)) _ _ E5) as (ss & H5 & A5 & B5).
  destruct (top_object kvs parse_all_relationships l6 relationships eq_refl E6 (noisy_all_relationships _)) as [A6 B6].
  destruct (top_list (silent parse_extracted) _ _ noisy_extracted (fun s => ex_intro _ _ (conj eq_refl eq_refl)) _ _ E7) as (es & H7 & A7 & B7).
  exists ps, fs, ss, es. do 4 (split; [assumption|]). cbv zeta.
  replace (all_complaints O kvs ps fs ss es) with (l1 ++ l2 ++ l3 ++ l4 ++ l5 ++ l6 ++ l7) by (rewrite A1, A2, A3, A4, A5, A6, A7; reflexivity).
  destruct (l1 ++ l2 ++ l3 ++ l4 ++ l5 ++ l6 ++ l7) as [|m ms] eqn:L.
  2: { left. cbn [raise_if bind]. split; [discriminate|reflexivity]. }
  right. split; [reflexivity|]. cbn [raise_if bind].
  repeat match goal with H : _ ++ _ = [] |- _ => apply app_eq_nil in H; destruct H end.
  destruct (B1 ltac:(assumption) (noisy_creation_info _)) as (c & C1 & ->).
  destruct (B4 ltac:(assumption)) as (anns & C4 & D4). destruct (B6 ltac:(assumption)) as (rels & C6 & D6).
  eexists. split; [reflexivity|]. cbn [do_ci do_packages do_files do_snippets do_annotations do_relationships do_extracted].
  split; [exact C1|]. split.
  { rewrite C4. f_equal. destruct D4 as [-> |[-> ->]]; [reflexivity|]. vm_compute in C4. injection C4 as <-. reflexivity. }
  split.
  { rewrite C6. f_equal. destruct D6 as [-> |[-> ->]]; [reflexivity|]. vm_compute in C6. injection C6 as <-. reflexivity. }
  repeat split; auto.
Qed.
Theorem no_partial_document O kvs d : parse_dict O (JObj kvs) = Ok d ->
  parse_creation_info (JObj kvs) = Ok (do_ci d)
  /\ parse_all_annotations (JObj kvs) = Ok (do_annotations d)
  /\ parse_all_relationships (JObj kvs) = Ok (do_relationships d)
  /\ (exists l, EntriesAt $"packages" kvs l /\ Forall2 (Parses (parse_package O)) l (do_packages d))
  /\ (exists l, EntriesAt $"files" kvs l /\ Forall2 (Parses (silent (parse_file O))) l (do_files d))
  /\ (exists l, EntriesAt $"snippets" kvs l /\ Forall2 (Parses (silent (parse_snippet O))) l (do_snippets d))
  /\ (exists l, EntriesAt $"hasExtractedLicensingInfos" kvs l /\ Forall2 (Parses (silent parse_extracted)) l (do_extracted d)).
Proof.
  intro H. destruct (dict_cases O kvs) as [(e & E & _)|(ps & fs & ss & es & H1 & H2 & H3 & H4 & [[_ E]|(_ & d' & E & R)])]; try congruence.
  assert (d' = d) by congruence. subst d'. destruct R as (R1 & R2 & R3 & R4 & R5 & R6 & R7). repeat split; eauto.
Qed.
Theorem all_reported O kvs ms : parse_dict O (JObj kvs) = Raise (EParsing ms) ->
  ms <> [] /\ exists ps fs ss es, EntriesAt $"packages" kvs ps /\ EntriesAt $"files" kvs fs /\ EntriesAt $"snippets" kvs ss
      /\ EntriesAt $"hasExtractedLicensingInfos" kvs es
      /\ ms = complaints (silent parse_creation_info (JObj kvs))
              ++ flat_map (fun j => complaints (parse_package O j)) ps
              ++ flat_map (fun j => complaints (silent (parse_file O) j)) fs
              ++ complaints (silent parse_all_annotations (JObj kvs))
              ++ flat_map (fun j => complaints (silent (parse_snippet O) j)) ss
              ++ complaints (silent parse_all_relationships (JObj kvs))
              ++ flat_map (fun j => complaints (silent parse_extracted j)) es.
Proof.
  intro H. destruct (dict_cases O kvs) as [(e & E & N)|(ps & fs & ss & es & H1 & H2 & H3 & H4 & [[N E]|(_ & d' & E & R)])]; try congruence.
  assert (X : ms = all_complaints O kvs ps fs ss es) by congruence. rewrite X. split; [exact N|]. exists ps, fs, ss, es. do 4 (split; [assumption|]). reflexivity.
Qed.
