(** Which exceptions the tag-value parser raises. *)
From Verif Require Import Py PyFacts PyRe PyReFacts PyReSound Data Oracles Basics BasicsSpec Json Construct JsonConv JsonParse JsonSpec
  TvWriter TvLexer TvSpec TvTokSpec TvLexFacts TvLexValues TvParser TvParseFacts TvErrors TvRepeat.

Definition Parsing (e : exn) : Prop := exists ms, e = EParsing ms.
Definition Quiet {A} (r : result A) : Prop := match r with Ok _ => True | Raise e => Parsing e end.
Lemma quiet_parsing {A} ms : Quiet (A:=A) (Raise (EParsing ms)).
Proof. exists ms. reflexivity. Qed.

(** ** Values *)
Lemma find_map_some {A} n (gs : list (nat * A)) v : In (n, v) gs -> exists w, find (fun x => Nat.eqb (fst x) n) gs = Some w.
Proof.
  induction gs as [|[m x] gs IH]; [intros []|]. intros [H|H]; cbn [find fst].
  - injection H as -> ->. rewrite Nat.eqb_refl. eauto.
  - destruct (Nat.eqb m n); eauto.
Qed.
Lemma group_present n (gs : groups) v : In (n, v) gs -> exists w, group n gs = Some w.
Proof. intro H. apply find_map_some in H as [[m w] H]. unfold group. rewrite H. eauto. Qed.
Lemma actor_of_match_quiet s t p u rest g : Matches (person_or_org_re p) u rest g -> Quiet (actor_of_match s t g).
Proof.
  unfold person_or_org_re. cbn [pcats Matches]. intros (u1 & u2 & g1 & g2 & -> & -> & H1 & (u3 & u4 & g3 & g4 & -> & -> & [H3 ->] & (u5 & u6 & g5 & g6 & -> & -> & H5 & (-> & -> & H6)))).
  apply Matches_lit in H1 as [-> ->]. rewrite !app_nil_r. cbn [app]. unfold actor_of_match.
  destruct H5 as [(v1 & v2 & h1 & h2 & -> & -> & (h & -> & [_ ->]) & (v3 & v4 & h3 & h4 & -> & -> & ((c & -> & _) & ->) & (v5 & v6 & h5 & h6 & -> & -> & (h' & -> & [_ ->]) & ((c' & -> & _) & ->))))|(h & -> & [_ ->])].
  - destruct (truthy_opt _); [exact I|]. cbn. destruct v1; [eexists; reflexivity|exact I].
  - destruct (truthy_opt _); [exact I|]. cbn. eexists; reflexivity.
Qed.
Lemma parse_actor_quiet s : Quiet (parse_actor s).
Proof.
  unfold parse_actor. destruct (re_match tool_re s) as [g|].
  - destruct (strip _); [eexists; reflexivity|exact I].
  - destruct (re_match person_re s) as [g|] eqn:E.
    + apply re_match_sound in E as (u & rest & _ & M). eapply actor_of_match_quiet. exact M.
    + destruct (re_match org_re s) as [g|] eqn:F; [|eexists; reflexivity]. apply re_match_sound in F as (u & rest & _ & M). eapply actor_of_match_quiet. exact M.
Qed.
(** caught by set_value *)
Definition Settable {A} (r : result A) : Prop := match r with Ok _ | Raise (EParsing _ | EValue _ | EKey _) => True | _ => False end.
Lemma version_settable v : Settable (do x <- version_from_string v; Ok (VVersion x)).
Proof.
  unfold version_from_string. destruct (re_match version_re v) as [g|] eqn:E; [|exact I]. apply re_match_sound in E as (u & rest & _ & M).
  cbn [version_re pcats Matches] in M. destruct M as (u1 & u2 & g1 & g2 & -> & -> & (h & -> & H1) & (u3 & u4 & g3 & g4 & -> & -> & ((c & -> & _) & ->) & (u5 & u6 & g5 & g6 & -> & -> & (h' & -> & H5) & (-> & -> & _)))).
  apply Matches_plus in H1 as (_ & _ & ->). apply Matches_plus in H5 as (_ & _ & ->). cbn. destruct (dec_val u5), (dec_val u1); exact I.
Qed.
Lemma date_settable v : Settable (date_value v).
Proof.
  unfold date_value, datetime_from_str, strptime. destruct (re_match_rest strptime_re v) as [[[|c rest] g]|]; [|exact I|exact I].
  destruct (group_int 1 g); [|exact I]. destruct (group_int 2 g); [|exact I]. destruct (group_int 3 g); [|exact I]. destruct (group_int 4 g); [|exact I].
  destruct (group_int 5 g); [|exact I]. destruct (group_int 6 g); [|exact I]. destruct (_ && _); exact I.
Qed.
Lemma enum_settable {A} (all : list A) name inj v : Settable (enum_value all name inj v).
Proof. unfold enum_value. destruct (enum_lookup all name v); exact I. Qed.
Lemma actor_settable v : Settable (do a <- parse_actor v; Ok (VActor a)).
Proof. pose proof (parse_actor_quiet v) as H. destruct (parse_actor v) as [a|e]; [exact I|]. destruct H as [ms ->]. exact I. Qed.

(** ** Checksums *)
Lemma rstrip_solid a c y : is_space c = false -> rstrip (a ++ c :: y) = a ++ c :: rstrip y.
Proof.
  intro H. unfold rstrip. rewrite rev_app_distr. cbn [rev]. rewrite <- app_assoc. cbn [app].
  assert (E : forall l r, dropwhile is_space (l ++ c :: r) = dropwhile is_space l ++ c :: r).
  { induction l as [|x l IH]; intro r; cbn [app dropwhile]; [rewrite H; reflexivity|]. destruct (is_space x); auto. }
  rewrite E, rev_app_distr. cbn [rev]. rewrite rev_involutive, <- app_assoc. reflexivity.
Qed.
Lemma strip_alg w a y : forallb is_space w = true -> In a lex_algorithms -> strip (w ++ a ++ #":" :: y) = a ++ #":" :: rstrip y.
Proof.
  intros Hw Ha. unfold strip, lstrip. rewrite dropwhile_app by exact Hw. rewrite dropwhile_id.
  - apply rstrip_solid. reflexivity.
  - intros c s' E. apply alg_solid in Ha. unfold solid in Ha. destruct a as [|x a]; [discriminate|]. cbn in E. injection E as <- _.
    cbn in Ha. destruct (is_space x); [discriminate|reflexivity].
Qed.
Lemma rstrip_In s c : In c (rstrip s) -> In c s.
Proof.
  unfold rstrip. rewrite <- in_rev. intro H. destruct (dropwhile_suffix is_space (rev s)) as (a & E & _). apply in_rev. rewrite E. apply in_or_app. right. exact H.
Qed.
Lemma alg_known a : In a lex_algorithms -> exists x, enum_lookup checksum_alg_all checksum_alg_name (replace $"-" $"_" (upper a)) = Some x.
Proof. unfold lex_algorithms. intro H. repeat (destruct H as [<-|H]; [eexists; vm_compute; reflexivity|]). destruct H. Qed.
Lemma checksum_text w a y : forallb is_space w = true -> In a lex_algorithms -> ~ In #":" y -> exists c, tv_parse_checksum (strip (w ++ a ++ #":" :: y)) = Ok c.
Proof.
  intros Hw Ha Hy. rewrite strip_alg by auto. unfold tv_parse_checksum.
  replace (split_on #":" (a ++ #":" :: rstrip y)) with [a; rstrip y].
  - destruct (alg_known a Ha) as [x E]. rewrite E. eauto.
  - symmetry. apply split_two. repeat split; auto using alg_no_colon. intro K. apply rstrip_In in K. auto.
Qed.
Lemma class_no_colon p s : p #":" = false -> forallb p s = true -> ~ In #":" s.
Proof. intros E H K. rewrite forallb_forall in H. rewrite (H _ K) in E. discriminate. Qed.
Lemma blank_hex_no_colon w h : forallb is_space w = true -> forallb lex_hex h = true -> ~ In #":" (w ++ h).
Proof. intros A B K. apply in_app_or in K as [K|K]; [apply (class_no_colon is_space w)|apply (class_no_colon lex_hex h)]; auto. Qed.

(** ** Tokens *)
Definition Sound (k : token) : Prop :=
  (tk_type k = TT_CHECKSUM -> exists c, tv_parse_checksum (tk_value k) = Ok c) /\ (tk_type k = TT_LINE -> stripped (tk_value k)).
Lemma matched_sound r s m : matched r s = Some m -> exists rest gs, s = m ++ rest /\ Matches r m rest gs.
Proof.
  unfold matched. destruct (re_match_rest r s) as [[rest g]|] eqn:E; [|discriminate]. apply re_match_rest_sound in E as (u & -> & M).
  rewrite firstn_len_app. intro H. injection H as <-. eauto.
Qed.
Lemma checksum_token s m : matched checksum_re s = Some m -> exists c, tv_parse_checksum (value_of m) = Ok c.
Proof.
  intro H. apply matched_sound in H as (rest & gs & _ & M). unfold checksum_re in M. cbn [pcats Matches] in M.
  destruct M as (u1 & u2 & g1 & g2 & -> & _ & H1 & (u3 & u4 & g3 & g4 & -> & _ & [H3 _] & (u5 & u6 & g5 & g6 & -> & _ & H5 & (u7 & u8 & g7 & g8 & -> & _ & H7 & (u9 & u10 & g9 & g10 & -> & _ & [H9 _] & [H10 _]))))).
  apply Matches_lit in H1 as [-> _]. apply Matches_lit in H7 as [-> _]. apply Matches_alts in H5 as (r & Hr & H5). apply in_map_iff in Hr as (a & <- & Ha). apply Matches_lit in H5 as [-> _].
  unfold value_of. cbn [app skipn]. change (lit ":" ++ u9 ++ u10) with (#":" :: u9 ++ u10). apply checksum_text; auto using blank_hex_no_colon.
Qed.
Lemma reserved_cases v t : reserved v = Some t -> t <> TT_CHECKSUM /\ t <> TT_LINE.
Proof.
  unfold reserved. destruct (str_eqb v _); [intro H; injection H as <-; split; discriminate|]. destruct (str_eqb v _); [intro H; injection H as <-; split; discriminate|].
  destruct (enum_lookup tag_all tag_name v); [|discriminate]. intro H. injection H as <-. split; discriminate.
Qed.
Lemma first_rule_sound rules s k n m dl : Forall (fun r => forall x k n m dl, matched (fst r) s = Some x -> snd r x = (Some k, n, m, dl) -> Sound k) rules ->
  first_rule rules s = (Some k, n, m, dl) -> Sound k.
Proof.
  induction rules as [|[r a] rules IH]; cbn [first_rule]; intros F H.
  - injection H as <- _ _ _. split; discriminate.
  - apply Forall_cons_iff in F as [F1 F2]. destruct (matched r s) as [x|] eqn:E; [eapply F1; eauto|auto].
Qed.
Lemma other_sound t v : t <> TT_CHECKSUM -> t <> TT_LINE -> Sound {| tk_type := t; tk_value := v |}.
Proof. intros A B. split; intro H; cbn in H; contradiction. Qed.
Lemma lex_step_sound mode s k n m dl : lex_step mode s = (Some k, n, m, dl) -> Sound k.
Proof.
  destruct mode as [|read]; cbn [lex_step]; intro H.
  - eapply first_rule_sound; [|exact H]. clear H. unfold initial_rules.
    repeat apply Forall_cons; try apply Forall_nil; cbn [fst snd]; intros x k' n' m' dl' Hm E; unfold emit, drop in E; try discriminate E;
      try (injection E as <- _ _ _; apply other_sound; discriminate).
    + injection E as <- _ _ _. split; [intros _; eapply checksum_token; exact Hm|discriminate].
    + injection E as <- _ _ _. destruct (reserved x) as [t|] eqn:R; [|apply other_sound; discriminate]. apply reserved_cases in R as [A B]. apply other_sound; auto.
    + injection E as <- _ _ _. destruct (reserved (value_of x)) as [t|] eqn:R; [apply reserved_cases in R as [A B]; apply other_sound; auto|].
      split; [discriminate|]. intros _. apply strip_stripped.
  - unfold text_step in H. destruct (matched text_end_re s); [|discriminate]. injection H as <- _ _ _. apply other_sound; discriminate.
Qed.
Lemma lex_sound s : forall skip m line, Forall (fun x => Sound (fst x)) (lex skip m line s).
Proof.
  induction s as [|c s IH]; intros skip m line; cbn [lex]; [constructor|]. destruct skip as [|skip]; [|apply IH].
  destruct (lex_step m (c :: s)) as [[[t n] m'] dl] eqn:E. destruct t as [k|]; [|apply IH]. constructor; [|apply IH]. cbn [fst]. eapply lex_step_sound. exact E.
Qed.

(** ** Dictionaries: what is stored under the names of lists *)
Definition list_args : list (pystr * tval) :=
  [ ($"checksums", VChecksums []); ($"attribution_texts", VStrs []); ($"contributors", VStrs []); ($"cross_references", VStrs []);
    ($"license_info_in_file", VLics []); ($"license_info_from_files", VLics []); ($"license_info_in_snippet", VLics []);
    ($"file_types", VTypes []); ($"external_references", VExtRefs []); ($"external_document_refs", VDocRefs []); ($"creators", VActors []) ].
Definition appendable (old : option tval) (v : tval) : Prop := exists x, append_val old v = Ok x.
Definition Listed (d : tdict) : Prop := forall n v, In (n, v) list_args -> appendable (assoc n d) v.
Lemma listed_nil : Listed [].
Proof. intros n v _. exists v. reflexivity. Qed.
Lemma listed_set n v d : str_in n (map fst list_args) = false -> Listed d -> Listed (dict_set n v d).
Proof.
  intros Hn H m w Hm. rewrite assoc_dict_set_other; [auto|]. apply str_in_false in Hn. intros ->. apply Hn. apply (in_map fst) in Hm. exact Hm.
Qed.
Lemma list_args_assoc n w : In (n, w) list_args -> assoc n list_args = Some w.
Proof. unfold list_args. cbn [In]. intro H. repeat (destruct H as [H|H]; [apply pair_equal_spec in H; destruct H as [<- <-]; vm_compute; reflexivity|]). destruct H. Qed.
Lemma listed_append n v d : (exists w, In (n, w) list_args /\ (forall x, appendable (Some x) w -> appendable (Some x) v)
    /\ (forall x y, append_val x v = Ok y -> appendable (Some y) w)) -> Listed d ->
  exists x, append_val (assoc n d) v = Ok x /\ Listed (dict_set n x d).
Proof.
  intros (w & Hw & A & B) H. assert (X : exists x, append_val (assoc n d) v = Ok x).
  { pose proof (H n w Hw) as K. destruct (assoc n d) as [y|]; [apply A; exact K|]. exists v. reflexivity. }
  destruct X as [x E]. exists x. split; auto. intros m u Hm. destruct (str_dec m n) as [->|N].
  - rewrite assoc_dict_set_same. assert (u = w) as ->; [|eapply B; exact E].
    apply list_args_assoc in Hm, Hw. congruence.
  - rewrite assoc_dict_set_other by exact N. apply H. exact Hm.
Qed.
Record Clean (st : pstate) : Prop := { cl_cur : Listed (ps_cur st); cl_ci : Listed (ps_ci st) }.
Definition Safe (r : result pstate) : Prop := match r with Ok st => Clean st | Raise e => Parsing e end.
Ltac keep := split; cbn; auto.
Lemma set_value_settable t line shown v d : Settable v -> exists ms d', set_value t line shown v d = Ok (ms, d') /\ (d' = d \/ exists x, d' = dict_set (get_property_name t) x d).
Proof.
  intro H. unfold set_value. destruct (assoc _ d); [eauto 8|]. destruct v as [x|[]]; try destruct H; eauto 8.
Qed.
Lemma set_cur_safe t line shown v st : str_in (get_property_name t) (map fst list_args) = false -> Settable v -> Clean st -> Safe (set_cur t line shown v st).
Proof.
  intros N S [A B]. unfold set_cur. destruct (set_value_settable t line shown v (ps_cur st) S) as (ms & d' & -> & [->|[x ->]]); cbn [bind Safe]; keep. apply listed_set; auto.
Qed.
Lemma set_ci_safe t line shown v st : str_in (get_property_name t) (map fst list_args) = false -> Settable v -> Clean st -> Safe (set_ci t line shown v st).
Proof.
  intros N S [A B]. unfold set_ci. destruct (set_value_settable t line shown v (ps_ci st) S) as (ms & d' & -> & [->|[x ->]]); cbn [bind Safe]; keep. apply listed_set; auto.
Qed.
Definition same_list (n : pystr) (v : tval) : Prop :=
  exists w, In (n, w) list_args /\ match w, v with VStrs _, VStrs _ | VLics _, VLics _ | VTypes _, VTypes _ | VChecksums _, VChecksums _ | VExtRefs _, VExtRefs _ | VActors _, VActors _ | VDocRefs _, VDocRefs _ => True | _, _ => False end.
Lemma same_list_append n v d : same_list n v -> Listed d -> exists x, append_val (assoc n d) v = Ok x /\ Listed (dict_set n x d).
Proof.
  intros (w & Hw & S). apply listed_append. exists w. split; [exact Hw|]. destruct w, v; try destruct S; (split;
    [ intros [] [y E]; try discriminate E; eexists; reflexivity
    | intros [[]|] y E; try discriminate E; cbn in E; injection E as <-; eexists; reflexivity ]).
Qed.
Lemma append_cur_safe n v st : same_list n v -> Clean st -> Safe (append_cur n v st).
Proof. intros S [A B]. unfold append_cur. destruct (same_list_append n v _ S A) as (x & -> & H). cbn [bind Safe]. keep. Qed.
Lemma append_ci_safe n v st : same_list n v -> Clean st -> Safe (append_ci n v st).
Proof. intros S [A B]. unfold append_ci. destruct (same_list_append n v _ S B) as (x & -> & H). cbn [bind Safe]. keep. Qed.
Lemma clean_log m st : Clean st -> Clean (log m st).
Proof. intros [A B]. keep. Qed.
Lemma clean_log_cur m st : Clean st -> Clean (log_cur m st).
Proof. intros [A B]. keep. Qed.
Lemma clean_log_ci m st : Clean st -> Clean (log_ci m st).
Proof. intros [A B]. keep. Qed.
Lemma clean_cur n v st : str_in n (map fst list_args) = false -> Clean st -> Clean (with_cur (dict_set n v (ps_cur st)) st).
Proof. intros N [A B]. keep. apply listed_set; auto. Qed.
Lemma clean_ci n v st : str_in n (map fst list_args) = false -> Clean st -> Clean (with_ci (dict_set n v (ps_ci st)) st).
Proof. intros N [A B]. keep. apply listed_set; auto. Qed.
Lemma in_class_safe c line st f : Clean st -> (Clean st -> Safe (f st)) -> Safe (in_class c line st f).
Proof. intros C F. unfold in_class. destruct (matches_class c st); [auto|]. apply clean_log. exact C. Qed.

(** ** Elements *)
Lemma construct_quiet {A} cls (c : chk A) : Quiet (construct cls c).
Proof. destruct c; [exact I|]. eexists; reflexivity. Qed.
Lemma kwargs_quiet {A} cls req opt d (c : chk A) : Quiet (kwargs cls req opt d c).
Proof.
  unfold kwargs. destruct (find _ d) as [[k v]|]; [eexists; reflexivity|]. destruct (filter _ req); [apply construct_quiet|eexists; reflexivity].
Qed.
Lemma add_element_safe {A} st st0 (r : result A) f : Quiet r -> ps_ci st0 = ps_ci st -> (forall a, ps_ci (f a) = ps_ci st) ->
  match add_element st0 r f with Ok st' => ps_ci st' = ps_ci st | Raise e => Parsing e end.
Proof. intros Q E F. unfold add_element. destruct r as [a|e]; [apply F|]. destruct Q as [ms ->]. exact E. Qed.
Lemma build_safe c st : match build_element c st with Ok st' => ps_ci st' = ps_ci st | Raise e => Parsing e end.
Proof.
  destruct c; cbn [build_element]; cbv zeta; apply add_element_safe; auto; try (unfold construct_file, construct_package, construct_snippet, construct_annotation, construct_relationship, construct_extracted; cbv zeta; apply kwargs_quiet).
  intro f. destruct (build_contains_same (fi_id f) (with_built (set_files (b_files (ps_built st) ++ [f]) (ps_built st)) st)) as [-> _]. reflexivity.
Qed.
Lemma construct_safe st : Clean st -> Safe (construct_current_element st).
Proof.
  intros [A B]. unfold construct_current_element. destruct (ps_class st) as [c|]; [|keep]. unfold raise_if_named. destruct (ps_cur_log st).
  - pose proof (build_safe c st) as H. destruct (build_element c st) as [st'|e]; cbn [bind]; [|exact H]. split; cbn; [apply listed_nil|rewrite H; exact B].
  - cbn [bind Safe]. split; cbn; [apply listed_nil|exact B].
Qed.
Lemma initialize_safe c st : Clean st -> Safe (initialize_new_current_element c st).
Proof.
  intro C. apply construct_safe in C. unfold initialize_new_current_element. destruct (construct_current_element st) as [st'|e]; [|exact C]. destruct C as [A B]. cbn [bind Safe]. keep.
Qed.
Lemma safe_bind (r : result pstate) f : Safe r -> (forall st, Clean st -> Safe (f st)) -> Safe (bind r f).
Proof. destruct r; cbn [Safe bind]; auto. Qed.

(** ** Actions *)
Section WithOracles.
Variable O : oracles.
(** the license library only raises ExpressionError *)
Hypothesis HO : forall s e, o_lic_parse O s = Raise e -> exists m, e = EExpr m.
Lemma license_value_ok k : exists ms l, license_value O k = Ok (ms, l).
Proof.
  unfold license_value. assert (X : exists ms l, match licensing_parse O (JStr (tk_value k)) with
      | Ok (Some e) => Ok ([], Some (NVal e)) | Ok None => Ok ([], None)
      | Raise (EExpr m) => Ok ([$"Error while parsing license expression: " ++ tk_value k ++ $": " ++ m], None) | Raise e => Raise e end = Ok (ms, l)).
  { cbn [licensing_parse]. destruct (strip (tk_value k)); [eauto|]. destruct (o_lic_parse O (tk_value k)) as [x|e] eqn:E; [cbn; eauto|].
    apply HO in E as [m ->]. cbn. eauto. }
  destruct (tk_type k); eauto.
Qed.
Lemma generic_safe t line shown v st : (exists c f, tag_data_model_field t = Some (Some c, f)) -> str_in (get_property_name t) (map fst list_args) = false -> Settable v -> Clean st ->
  Safe (generic_value t line shown v st).
Proof.
  intros (c & f & E) N S C. unfold generic_value. rewrite E. apply safe_bind.
  - destruct (is_start_tag t); [apply initialize_safe; exact C|exact C].
  - intros st' C'. apply in_class_safe; auto. intro. apply set_cur_safe; auto.
Qed.
Lemma generic_license_safe t line k st : (exists c f, tag_data_model_field t = Some (Some c, f)) -> str_in (get_property_name t) (map fst list_args) = false -> Clean st ->
  Safe (generic_license O t line k st).
Proof.
  intros E N C. unfold generic_license. destruct (license_value_ok k) as (ms & l & ->). cbn [bind]. apply generic_safe; auto; [exact I|]. apply clean_log_cur. exact C.
Qed.
Lemma license_list_safe c n line k st : same_list n (VLics []) -> Clean st -> Safe (license_list O c n line k st).
Proof.
  intros S C. unfold license_list. destruct (license_value_ok k) as (ms & l & ->). cbn [bind]. apply in_class_safe; [apply clean_log_cur; exact C|].
  intro. apply append_cur_safe; auto.
Qed.
Lemma dec_val_digits s : s <> [] -> forallb is_digit s = true -> exists n, dec_val s = Some n.
Proof.
  intros Hs H. destruct s as [|c s]; [congruence|]. unfold dec_val. generalize 0%N. revert H. generalize (c :: s). clear. intro l.
  induction l as [|x l IH]; intros H a; cbn [dec_val_from]; [eauto|]. cbn [forallb] in H. apply andb_true_iff in H as [H1 H2]. unfold is_digit in H1.
  destruct (digit_val x); [apply IH; exact H2|discriminate].
Qed.
Lemma range_safe t line v st : stripped v -> str_in (get_property_name t) (map fst list_args) = false -> Clean st -> Safe (snippet_range t line v st).
Proof.
  intros Hv N C. apply in_class_safe; auto. intros _. cbv beta zeta. destruct (assoc _ _); [apply clean_log_cur; exact C|].
  destruct (re_match range_re (strip v)) as [g|] eqn:E; [|apply clean_log_cur; exact C].
  rewrite strip_id in E by exact Hv. apply re_match_sound in E as (u & rest & Ev & M). cbn [range_re pcats Matches] in M.
  destruct M as (u1 & u2 & g1 & g2 & -> & _ & (h & _ & H1) & (u3 & u4 & g3 & g4 & -> & _ & H3 & (u5 & u6 & g5 & g6 & -> & _ & (h' & _ & H5) & (-> & _ & R)))).
  apply Matches_plus in H1 as (N1 & D1 & _). apply Matches_plus in H5 as (N5 & D5 & _). apply Matches_lit in H3 as [-> _].
  assert (R' : rest = []).
  { destruct R as [->| ->]; auto. exfalso. destruct Hv as [_ Hv]. specialize (Hv LF (u1 ++ lit ":" ++ u5 ++ [])). rewrite Ev in Hv. discriminate (Hv eq_refl). }
  subst rest. rewrite !app_nil_r in Ev. change (lit ":" ++ u5) with (#":" :: u5) in Ev.
  assert (S : split_on #":" v = [u1; u5]).
  { apply split_two. repeat split; auto; [apply (class_no_colon is_digit)|apply (class_no_colon is_digit)]; auto; vm_compute; reflexivity. }
  rewrite S. cbn [hd last]. destruct (dec_val_digits u1 N1 D1) as [a ->]. destruct (dec_val_digits u5 N5 D5) as [b ->]. apply clean_cur; auto.
Qed.
Ltac lists := eexists; split; [unfold list_args; cbn [In]; auto 20 | exact I].
Lemma doc_ref_safe line v st : Clean st -> Safe (external_document_ref line v st).
Proof.
  intro C. unfold external_document_ref. destruct (re_match ext_doc_ref_re v) as [g|] eqn:E; [|apply clean_log_ci; exact C].
  destruct (split_on _ _) as [|a [|b [|]]]; try (apply clean_log_ci; exact C).
  assert (X : exists c, tv_parse_checksum (strip (group_or_empty 2 g)) = Ok c).
  { apply re_match_sound in E as (u & rest & _ & M). unfold ext_doc_ref_re in M. cbn [pcats Matches] in M.
    destruct M as (u1 & u2 & g1 & g2 & -> & -> & (h & -> & [_ ->]) & (h' & -> & (u3 & u4 & g3 & g4 & -> & -> & [H3 ->] & (u5 & u6 & g5 & g6 & -> & -> & H5 & (u7 & u8 & g7 & g8 & -> & -> & [H7 ->] & H8))))).
    apply Matches_lit in H5 as [-> ->]. apply Matches_exact in H8 as (_ & H8 & ->). cbn [app]. unfold group_or_empty, group. cbn [find fst Nat.eqb].
    change (u3 ++ lit "SHA1:" ++ u7 ++ u8) with (u3 ++ lit "SHA1" ++ #":" :: u7 ++ u8). apply checksum_text; auto using blank_hex_no_colon. cbn; auto 20. }
  destruct X as [c ->]. cbn [bind]. apply append_ci_safe; [lists|exact C].
Qed.
Lemma relationship_safe line v c st : Clean st -> Safe (relationship_action line v c st).
Proof.
  intro C. unfold relationship_action. apply safe_bind; [apply initialize_safe; exact C|]. clear st C. intros st C.
  destruct (split_on _ _) as [|a [|b [|d [|]]]]; try (apply clean_log_cur; exact C). cbv zeta.
  match goal with |- Safe (Ok (with_cur _ ?y)) => assert (E1 : Clean y) by (destruct (enum_lookup rel_type_all rel_type_name b); [apply clean_cur; [reflexivity|exact C]|apply clean_log_cur; exact C]); revert E1; generalize y end.
  intros st' [A B]. cbn [Safe]. split; cbn; [|exact B]. destruct c; repeat (apply listed_set; [reflexivity|]); exact A.
Qed.
Lemma actor_generic t line k st : (exists c f, tag_data_model_field t = Some (Some c, f)) -> str_in (get_property_name t) (map fst list_args) = false -> Clean st ->
  Safe (do a <- actor_value k; generic_value t line (tk_value k) (Ok a) st).
Proof.
  intros E N C. assert (Q : Quiet (actor_value k)).
  { unfold actor_value. pose proof (parse_actor_quiet (tk_value k)) as Q. destruct (tk_type k); try exact I; (destruct (parse_actor (tk_value k)) as [a|e]; [exact I|exact Q]). }
  destruct (actor_value k) as [a|e]; [|exact Q]. cbn [bind]. apply generic_safe; auto.
Qed.
Lemma act_safe t line k c st vk : value_kind t = Some vk -> accepts vk (tk_type k) = true -> Sound k -> Clean st -> Safe (act O t line k c st).
Proof.
  intros Hk Ha [S1 S2] C. destruct t; try discriminate Hk; cbn [act]; cbn in Hk; injection Hk as <-;
  try (apply set_ci_safe; [reflexivity|first [exact I | apply version_settable | apply date_settable]|exact C]; fail);
  try (apply generic_safe; [eexists; eexists; reflexivity|reflexivity|exact I|exact C]; fail);
  try (apply generic_license_safe; [eexists; eexists; reflexivity|reflexivity|exact C]; fail);
  try (apply license_list_safe; [lists|exact C]; fail);
  try (apply in_class_safe; [exact C|]; intros _; first [apply append_cur_safe; [lists|exact C] | apply set_cur_safe; [reflexivity|first [apply date_settable | apply enum_settable]|exact C]]; fail);
  try (apply relationship_safe; exact C);
  try (apply doc_ref_safe; exact C);
  try (apply range_safe; [apply S2; destruct (tk_type k); try discriminate Ha; reflexivity|reflexivity|exact C]; fail).
  - cbn [Safe]. unfold spdx_id_action. destruct (assoc _ (ps_ci st)); [apply clean_cur|apply clean_ci]; auto.
  - pose proof (parse_actor_quiet (tk_value k)) as Q. destruct (parse_actor (tk_value k)) as [a|e]; [|exact Q]. cbn [bind]. apply append_ci_safe; [lists|exact C].
  - unfold annotator_action. apply safe_bind; [apply initialize_safe; exact C|]. intros st' C'. apply set_cur_safe; [reflexivity|apply actor_settable|exact C'].
  - apply in_class_safe; [exact C|]. intros _. cbv beta. destruct (assoc _ _); [apply clean_log_cur; exact C|].
    destruct (str_eqb _ _); [apply clean_cur; auto|]. destruct (str_eqb _ _); [apply clean_cur; auto|apply clean_log_cur; exact C].
  - apply actor_generic; auto. eexists; eexists; reflexivity.
  - apply actor_generic; auto. eexists; eexists; reflexivity.
  - apply in_class_safe; [exact C|]. intros _. cbv beta. destruct S1 as [x ->]; [destruct (tk_type k); try discriminate Ha; reflexivity|]. cbn [bind]. apply append_cur_safe; [lists|exact C].
  - apply in_class_safe; [exact C|]. intros _. cbv beta. destruct (assoc _ _); [apply clean_log_cur; exact C|]. destruct (re_match _ _); [apply clean_cur; auto|apply clean_log_cur; exact C].
  - apply in_class_safe; [exact C|]. intros _. cbv beta. destruct (split_on _ _) as [|a [|b [|d [|]]]]; try (apply clean_log_cur; exact C).
    destruct (enum_lookup ref_category_all _ _); [apply append_cur_safe; [lists|exact C]|apply clean_log_cur; exact C].
  - unfold pkg_attribution_text. apply append_cur_safe; [lists|]. destruct (matches_class C_Package st); [exact C|apply clean_log; exact C].
  - apply in_class_safe; [exact C|]. intros _. cbv beta. destruct (enum_lookup file_type_all _ _); [apply append_cur_safe; [lists|exact C]|apply clean_log_cur; exact C].
  - apply in_class_safe; [exact C|]. intros _. cbv beta. destruct S1 as [x ->]; [destruct (tk_type k); try discriminate Ha; reflexivity|]. cbn [bind]. apply append_cur_safe; [lists|exact C].
Qed.

(** ** The automaton *)
Definition KeyRel (e : exn) : Prop := e = EKey $"Relationship".
Definition Calm1 (r : result pstate) : Prop := match r with Ok st => Clean st | Raise e => Parsing e \/ KeyRel e end.
Lemma safe_calm r : Safe r -> Calm1 r.
Proof. destruct r; cbn; auto. Qed.
Lemma error_action_calm t line st : Clean st -> Calm1 (error_action t line st).
Proof.
  intro C. unfold error_action. cbv zeta. destruct (is_creation_info_tag t); [apply clean_log_ci; exact C|].
  destruct (is_start_tag t) eqn:E; [|apply clean_log_cur; exact C].
  destruct t; try discriminate E; cbn [tag_data_model_field]; try (right; reflexivity);
    (apply safe_calm, safe_bind; [apply initialize_safe; exact C|intros st' C'; apply clean_log_cur; exact C']).
Qed.
Definition Fits (t : tag) (v : token) : Prop := (exists vk, value_kind t = Some vk /\ accepts vk (tk_type v) = true) /\ Sound v.
Definition ModeOk (m : pmode) : Prop :=
  match m with M_Val t _ v | M_CommentTag t _ v | M_Comment t _ v _ => Fits t v | _ => True end.
Definition StepOk (r : result (pmode * pstate)) : Prop := match r with Ok (m, st) => ModeOk m /\ Clean st | Raise e => Parsing e \/ KeyRel e end.
Lemma enter_ok k line : ModeOk (enter k line).
Proof. unfold enter. destruct (tk_type k); try exact I. destruct (value_kind t); exact I. Qed.
Lemma then_enter r k line : Calm1 r -> StepOk (do st <- r; Ok (enter k line, st)).
Proof. destruct r; cbn; auto using enter_ok. Qed.
Lemma recover_ok t tl k line st : Clean st -> StepOk (recover t tl k line st).
Proof.
  intro C. unfold recover. destruct (has_error_rule t); [|split; [exact I|exact C]]. destruct (starts_attribute k); [|split; [exact I|exact C]].
  apply then_enter, error_action_calm, C.
Qed.
Lemma step_ok m st k line : ModeOk m -> Clean st -> Sound k -> StepOk (step O m st k line).
Proof.
  intros M C S. destruct m as [|t tl|t tl v|t tl v|t tl v c|tl|tl|t tl]; cbn [step].
  - split; [apply enter_ok|exact C].
  - destruct (value_kind t) as [vk|] eqn:Ek; [|apply recover_ok; exact C]. destruct (accepts vk (tk_type k)) eqn:Ea; [|apply recover_ok; exact C].
    split; [|exact C]. split; [eauto|exact S].
  - destruct (starts_attribute k).
    + apply then_enter. destruct M as [(vk & A & B) D]. eapply safe_calm, act_safe; eauto.
    + destruct (match tk_type k with TT_TAG c => _ | _ => _ end); [split; [exact M|exact C]|apply recover_ok; exact C].
  - destruct (accepts _ _); [split; [exact M|exact C]|apply recover_ok; exact C].
  - destruct (starts_attribute k); [|apply recover_ok; exact C]. apply then_enter. destruct M as [(vk & A & B) D]. eapply safe_calm, act_safe; eauto.
  - destruct (starts_attribute k); [split; [apply enter_ok|apply clean_log; exact C]|]. destruct (unknown_accepts _); (split; [exact I|exact C]).
  - destruct (starts_attribute k); [split; [apply enter_ok|apply clean_log; exact C]|]. split; [exact I|exact C].
  - destruct (starts_attribute k); [|split; [exact I|exact C]]. apply then_enter, error_action_calm, C.
Qed.
Lemma at_end_calm m st : ModeOk m -> Clean st -> Calm1 (at_end O m st).
Proof.
  intros M C. destruct m as [|t tl|t tl v|t tl v|t tl v c|tl|tl|t tl]; cbn [at_end]; try exact C; try (apply clean_log; exact C); try (apply error_action_calm; exact C);
    destruct M as [(vk & A & B) D]; eapply safe_calm, act_safe; eauto.
Qed.
Lemma run_calm l : forall m st, ModeOk m -> Clean st -> Forall (fun x => Sound (fst x)) l -> Calm1 (run O m st l).
Proof.
  induction l as [|[k n] l IH]; intros m st M C F; [cbn [run]; apply at_end_calm; auto|]. apply Forall_cons_iff in F as [F1 F2]. rewrite run_cons.
  pose proof (step_ok m st k n M C F1) as H. destruct (step O m st k n) as [[m' st']|e]; cbn [bind]; [destruct H; auto|exact H].
Qed.
Lemma finish_calm st : Clean st -> match finish st with Ok _ => True | Raise e => Parsing e end.
Proof.
  intro C. apply construct_safe in C. unfold finish. destruct (construct_current_element st) as [st'|e]; [|exact C]. cbn [bind].
  unfold raise_if. destruct (ps_log _); [|eexists; reflexivity]. cbn [bind].
  match goal with |- match bind (construct_creation_info ?d) _ with _ => _ end => assert (Q : Quiet (construct_creation_info d)) by apply kwargs_quiet; destruct (construct_creation_info d); [exact I|exact Q] end.
Qed.
Lemma tv_parse_raises text e : tv_parse O text = Raise e -> Parsing e \/ KeyRel e.
Proof.
  intro H. unfold tv_parse in H. pose proof (run_calm (tokenize text) M_Base init_state I) as R. destruct (run O M_Base init_state (tokenize text)) as [st|x].
  - cbn [bind] in H. left. pose proof (finish_calm st) as F. rewrite H in F. apply F. apply R; [split; apply listed_nil|apply lex_sound].
  - cbn [bind] in H. injection H as ->. apply R; [split; apply listed_nil|apply lex_sound].
Qed.
End WithOracles.
