(** Facts about files and the command line tool. *)
From Verif Require Import Py Data Oracles Basics BasicsSpec Json JsonConv JsonParse JsonSpec Loading LoadingSpec TvWriter TvLexer TvParser TvSpec Graph DocUtils.
From Verif Require Import Validation Files FilesSpec.
From Verif Require Import PyFacts.
From Verif Require JsonShape LoadingFacts TvDocFacts CasingFacts Rdf RdfWriter RdfParser RdfSpec RdfTotal RdfFinal XmlSpec XmlFacts.

Section WithEnvironment.
Variable E : environment.
Local Notation O := (e_oracles E).

(** ** Dispatch *)
Lemma reads_format fs name x : HasFormat name x -> parse_any_file E fs name = parse_from_file E x fs name.
Proof. intro H. apply CasingFacts.format_spec in H. unfold parse_any_file. rewrite H. destruct x; reflexivity. Qed.
Lemma writes_format fs d name v x : HasFormat name x -> write_any_file E fs d name v = write_document_to_file E x fs d name v true.
Proof. intro H. apply CasingFacts.format_spec in H. unfold write_any_file. rewrite H. destruct x; reflexivity. Qed.
Lemma no_format fs d name v : (forall x, ~ HasFormat name x) ->
  exists ms, parse_any_file E fs name = inr (Library (EParsing ms)) /\ write_any_file E fs d name v = (fs, Some (Library (EParsing ms))).
Proof.
  intro H. apply CasingFacts.format_rejects in H as (ms & H). exists ms. unfold parse_any_file, write_any_file. rewrite H. auto.
Qed.

(** ** Writing *)
Lemma put_same n t fs : put_file n t fs n = Some t.
Proof. unfold put_file. rewrite str_eqb_refl. reflexivity. Qed.
Lemma put_other n t fs m : m <> n -> put_file n t fs m = fs m.
Proof. intro H. unfold put_file. apply str_eqb_neq in H. rewrite H. reflexivity. Qed.
Lemma invalid_raises d drop : validate_full_spdx_document O d None <> [] -> validate_and_deduplicate O d true drop = Raise (EValue $"Document is not valid.").
Proof. intro H. unfold validate_and_deduplicate. destruct (validate_full_spdx_document O d None); [contradiction|reflexivity]. Qed.
Lemma invalid_stream x d drop : validate_full_spdx_document O d None <> [] ->
  write_document_to_stream E x d true drop = ([], Some (Library (EValue $"Document is not valid."))).
Proof. intro H. unfold write_document_to_stream. rewrite invalid_raises by exact H. reflexivity. Qed.
Lemma invalid_file fs d name x : HasFormat name x -> e_write_error E name = None -> validate_full_spdx_document O d None <> [] ->
  let r := write_any_file E fs d name true in
  snd r = Some (Library (EValue $"Document is not valid.")) /\ fst r name = Some [] /\ forall other, other <> name -> fst r other = fs other.
Proof.
  intros Hx Hw H. cbv zeta. rewrite (writes_format _ _ _ _ _ Hx). unfold write_document_to_file. rewrite Hw, invalid_stream by exact H. cbn [fst snd].
  split; [reflexivity|]. split; [apply put_same|]. intros other Ho. apply put_other. exact Ho.
Qed.
Lemma valid_stream x d : validate_full_spdx_document O d None = [] ->
  write_document_to_stream E x d true true = write_document_to_stream E x d false true.
Proof. intro H. unfold write_document_to_stream, validate_and_deduplicate. rewrite H. reflexivity. Qed.
Lemma valid_file fs d name : validate_full_spdx_document O d None = [] -> write_any_file E fs d name true = write_any_file E fs d name false.
Proof.
  intro H. unfold write_any_file. destruct (file_name_to_format name) as [[]|]; try reflexivity; unfold write_document_to_file; rewrite valid_stream by exact H; reflexivity.
Qed.
Lemma unchecked_file fs d name x : HasFormat name x -> e_write_error E name = None ->
  let w := serialize E x (create_document_without_duplicates (o_lic_eqb O) d) in
  write_any_file E fs d name false = (put_file name (fst w) fs, snd w).
Proof. intros Hx Hw. cbv zeta. rewrite (writes_format _ _ _ _ _ Hx). unfold write_document_to_file. rewrite Hw. reflexivity. Qed.
Lemma unwritable fs d name v f : e_write_error E name = Some f -> exists g, write_any_file E fs d name v = (fs, Some g).
Proof.
  intro H. unfold write_any_file. destruct (file_name_to_format name) as [[]|]; unfold write_document_to_file; rewrite ?H; eexists; reflexivity.
Qed.
Lemma others_kept fs d name v other : other <> name -> fst (write_any_file E fs d name v) other = fs other.
Proof.
  intro H. unfold write_any_file. destruct (file_name_to_format name) as [[]|]; try reflexivity; unfold write_document_to_file;
    (destruct (e_write_error E name); [reflexivity|]); cbn [fst]; apply put_other; exact H.
Qed.

(** ** Reading back *)
Lemma json_file fs d name : let d' := create_document_without_duplicates (o_lic_eqb O) d in
  HasFormat name F_JSON -> e_write_error E name = None -> e_read_error E name = None -> JsonDocument O d' ->
  (forall j, convert_document O d' = Ok j -> PlainObjects j /\ exists t, e_json_dump E j = (t, None) /\ e_json_load E t = inl j) ->
  exists fs' anns, write_any_file E fs d name false = (fs', None)
    /\ parse_any_file E fs' name = inl (with_annotations d' anns) /\ SameAnnotations (do_annotations d') anns.
Proof.
  cbv zeta. set (d' := create_document_without_duplicates (o_lic_eqb O) d). intros Hx Hw Hr HJ HC.
  destruct (JsonShape.json_round_trip O d' HJ) as (j & anns & Ej & Ep & HA). destruct (HC j Ej) as (Hp & t & Et & El).
  exists (put_file name t fs), anns. split; [|split; [|exact HA]].
  - rewrite (unchecked_file _ _ _ _ Hx Hw). fold d'. unfold serialize. rewrite Ej, Et. reflexivity.
  - rewrite (reads_format _ _ _ Hx). unfold parse_from_file, read_file. rewrite put_same, Hr. cbn [andthen]. rewrite El. cbn [andthen].
    unfold parse_json. rewrite LoadingFacts.load_id by exact Hp. rewrite Ep. reflexivity.
Qed.
Lemma yaml_file fs d name : let d' := create_document_without_duplicates (o_lic_eqb O) d in
  HasFormat name F_YAML -> e_write_error E name = None -> e_read_error E name = None -> JsonDocument O d' ->
  (forall j, convert_document O d' = Ok j -> exists t, e_yaml_dump E j = (t, None) /\ e_yaml_load E t = inl j) ->
  exists fs' anns, write_any_file E fs d name false = (fs', None)
    /\ parse_any_file E fs' name = inl (with_annotations d' anns) /\ SameAnnotations (do_annotations d') anns.
Proof.
  cbv zeta. set (d' := create_document_without_duplicates (o_lic_eqb O) d). intros Hx Hw Hr HJ HC.
  destruct (JsonShape.json_round_trip O d' HJ) as (j & anns & Ej & Ep & HA). destruct (HC j Ej) as (t & Et & El).
  exists (put_file name t fs), anns. split; [|split; [|exact HA]].
  - rewrite (unchecked_file _ _ _ _ Hx Hw). fold d'. unfold serialize. rewrite Ej, Et. reflexivity.
  - rewrite (reads_format _ _ _ Hx). unfold parse_from_file, read_file. rewrite put_same, Hr. cbn [andthen]. rewrite El. cbn [andthen].
    unfold parse_yaml. rewrite Ep. reflexivity.
Qed.
Lemma xml_file fs d name : let d' := create_document_without_duplicates (o_lic_eqb O) d in
  HasFormat name F_XML -> e_write_error E name = None -> e_read_error E name = None -> XmlSpec.XmlDocument O d' ->
  (forall j, convert_document O d' = Ok j ->
     exists t v, e_xml_unparse E (JObj [($"Document", j)]) = (t, None) /\ e_xml_parse E t = inl v /\ XmlSpec.XmlImage (JObj [($"Document", j)]) v) ->
  exists fs' anns, write_any_file E fs d name false = (fs', None)
    /\ parse_any_file E fs' name = inl (with_annotations d' anns) /\ SameAnnotations (do_annotations d') anns.
Proof.
  cbv zeta. set (d' := create_document_without_duplicates (o_lic_eqb O) d). intros Hx Hw Hr HX HC.
  destruct (XmlFacts.xml_round_trip O d' HX) as (j & Ej & HP). destruct (HC j Ej) as (t & v & Et & El & HI). destruct (HP v HI) as (anns & Ep & HA).
  exists (put_file name t fs), anns. split; [|split; [|exact HA]].
  - rewrite (unchecked_file _ _ _ _ Hx Hw). fold d'. unfold serialize. rewrite Ej, Et. reflexivity.
  - rewrite (reads_format _ _ _ Hx). unfold parse_from_file, read_file. rewrite put_same, Hr. cbn [andthen]. rewrite El. cbn [andthen]. rewrite Ep. reflexivity.
Qed.
Lemma tag_value_file fs d name : let d' := create_document_without_duplicates (o_lic_eqb O) d in
  HasFormat name F_TAG_VALUE -> e_write_error E name = None -> e_read_error E name = None -> TvDocument O d' ->
  (forall text, write_document O d' = Ok text -> e_text E text = (text, None)) ->
  exists fs' d'', write_any_file E fs d name false = (fs', None) /\ parse_any_file E fs' name = inl d'' /\ TvSame d' d''.
Proof.
  cbv zeta. set (d' := create_document_without_duplicates (o_lic_eqb O) d). intros Hx Hw Hr HT HC.
  destruct (TvDocFacts.tag_value_round_trip O d' HT) as (text & d'' & Et & Ep & HS).
  exists (put_file name text fs), d''. split; [|split; [|exact HS]].
  - rewrite (unchecked_file _ _ _ _ Hx Hw). fold d'. unfold serialize. rewrite Et, (HC text Et). reflexivity.
  - rewrite (reads_format _ _ _ Hx). unfold parse_from_file, read_file. rewrite put_same, Hr. cbn [andthen]. rewrite Ep. reflexivity.
Qed.
Lemma rdf_file fs d name : let d' := create_document_without_duplicates (o_lic_eqb O) d in let L := e_rdf_library E in
  HasFormat name F_RDF_XML -> e_write_error E name = None -> e_read_error E name = None ->
  RdfSpec.RdfDocument O d' -> RdfSpec.LicenseGrammar O -> RdfSpec.RdfLibrary L (ci_namespace (do_ci d')) ->
  (forall ts, RdfWriter.write_graph O (e_label E) d' = Ok ts ->
     exists t g, e_rdf_serialize E ts = (t, None) /\ e_rdf_parse E t = inl g
       /\ RdfSpec.SameGraph (e_label E) ts (Rdf.g_triples g) /\ RdfSpec.Shortens L (Rdf.g_bound g) (ci_refs (do_ci d'))) ->
  exists fs' d'', write_any_file E fs d name false = (fs', None) /\ parse_any_file E fs' name = inl d'' /\ RdfSpec.SameDocument d' d''.
Proof.
  cbv zeta. set (d' := create_document_without_duplicates (o_lic_eqb O) d). intros Hx Hw Hr HD HG HL HC.
  destruct (RdfTotal.rdf_written O (e_label E) d' HD) as [ts Ets]. destruct (HC ts Ets) as (t & g & Es & Ep & HS & HB).
  destruct (RdfFinal.round_trip O (e_label E) d' _ g HD HG HL HB ts Ets HS) as (d'' & Ed & Hd).
  exists (put_file name t fs), d''. split; [|split; [|exact Hd]].
  - rewrite (unchecked_file _ _ _ _ Hx Hw). fold d'. unfold serialize. rewrite Ets, Es. reflexivity.
  - rewrite (reads_format _ _ _ Hx). unfold parse_from_file, read_file. rewrite put_same, Hr. cbn [andthen]. rewrite Ep. cbn [andthen].
    rewrite Ed. reflexivity.
Qed.

(** ** pyspdxtools *)
Lemma caught_spec f m : caught f = Some m <-> Reported f m.
Proof.
  split.
  - assert (G : match caught f with Some m => Reported f m | None => True end).
    { destruct f as [[]|?|?|?|?|?| |?]; try exact I; try constructor. }
    intro H. rewrite H in G. exact G.
  - intros []; reflexivity.
Qed.
Definition chosen (given : option pystr) (d : document) : pystr := match given with Some ((_ :: _) as v) => v | _ => ci_version (do_ci d) end.
Lemma chosen_spec given d v : Chosen given d v <-> v = chosen given d.
Proof.
  unfold Chosen, chosen. destruct given as [[|c s]|].
  - split; [intros [[H K]|[_ H]]; [injection H as <-; contradiction|exact H]|]. intros ->. right. auto.
  - split; [intros [[H _]|[[H|H] _]]; [injection H as <-; reflexivity|discriminate|discriminate]|]. intros ->. left. split; [reflexivity|discriminate].
  - split; [intros [[H _]|[_ H]]; [discriminate|exact H]|]. intros ->. right. auto.
Qed.
Lemma supported_spec v : str_in v [$"SPDX-2.2"; $"SPDX-2.3"] = true <-> Supported v.
Proof.
  unfold Supported. cbn [str_in existsb]. rewrite !orb_true_iff, !str_eqb_eq. intuition discriminate.
Qed.
(** the four ways through main *)
Inductive Path (fs : files) (infile : pystr) (outfile version : option pystr) (graph : bool) : bool -> run -> Prop :=
| Path_unread nov f : parse_any_file E fs infile = inr f -> Path fs infile outfile version graph nov (fail f [] [] fs)
| Path_unchecked d : parse_any_file E fs infile = inl d -> Path fs infile outfile version graph true (convert_step E fs d outfile graph [])
| Path_version d v : parse_any_file E fs infile = inl d -> Chosen version d v -> ~ Supported v -> forall m,
    Path fs infile outfile version graph false {| r_exit := Exit 1; r_log := [LogError m]; r_stdout := []; r_files := fs |}
| Path_invalid d v m ms : parse_any_file E fs infile = inl d -> Chosen version d v -> Supported v ->
    validate_full_spdx_document O d (Some v) = m :: ms ->
    Path fs infile outfile version graph false
      {| r_exit := Exit 1; r_log := [LogError (join [LF] ($"The document is invalid. The following issues have been found:" :: map vm_text (m :: ms)))];
         r_stdout := []; r_files := fs |}
| Path_valid d v : parse_any_file E fs infile = inl d -> Chosen version d v -> Supported v -> validate_full_spdx_document O d (Some v) = [] ->
    Path fs infile outfile version graph false (convert_step E fs d outfile graph [LogInfo $"The document is valid."]).
Lemma main_path fs infile outfile version nov graph : Path fs infile outfile version graph nov (main E fs infile outfile version nov graph).
Proof.
  unfold main. destruct (parse_any_file E fs infile) as [d|f] eqn:Ep; [|apply Path_unread; exact Ep]. destruct nov; [apply Path_unchecked; exact Ep|].
  cbv zeta. fold (chosen version d). assert (HC : Chosen version d (chosen version d)) by (apply chosen_spec; reflexivity).
  destruct (str_in (chosen version d) _) eqn:Es; cbn [negb].
  - apply supported_spec in Es. destruct (validate_full_spdx_document O d (Some (chosen version d))) as [|m ms] eqn:Ev; cbn [truthy_list].
    + eapply Path_valid; eassumption.
    + eapply Path_invalid; eassumption.
  - eapply Path_version; [exact Ep|exact HC|]. intro K. apply supported_spec in K. congruence.
Qed.
Lemma fail_log f log out fs : In (LogInfo $"The document is valid.") (r_log (fail f log out fs)) <-> In (LogInfo $"The document is valid.") log.
Proof. unfold fail. destruct (caught f); cbn; [|tauto]. rewrite in_app_iff. cbn. intuition discriminate. Qed.
Lemma finish_log f log out fs : In (LogInfo $"The document is valid.") (r_log (finish f log out fs)) <-> In (LogInfo $"The document is valid.") log.
Proof. destruct f; [apply fail_log|reflexivity]. Qed.
Lemma convert_log fs d o g log : In (LogInfo $"The document is valid.") (r_log (convert_step E fs d o g log)) <-> In (LogInfo $"The document is valid.") log.
Proof.
  unfold convert_step. destruct (match o with Some _ => _ | None => _ end); [destruct (write_document O d); [apply finish_log|apply fail_log]|].
  destruct g.
  - destruct (e_graphs E); [apply finish_log|]. cbn. rewrite in_app_iff. cbn. intuition discriminate.
  - destruct o as [[|c o]|]; [reflexivity|apply finish_log|reflexivity].
Qed.
Lemma says_valid fs infile outfile version nov graph :
  SaysValid (main E fs infile outfile version nov graph) <-> nov = false /\ ValidInput E fs infile version.
Proof.
  unfold SaysValid, ValidInput. destruct (main_path fs infile outfile version nov graph) as [nov f Ep|d Ep|d v Ep HC HS m|d v m ms Ep HC HS Ev|d v Ep HC HS Ev].
  - rewrite fail_log. split; [intros []|]. intros (_ & d & v & K & _). congruence.
  - rewrite convert_log. split; [intros []|]. intros [K _]. discriminate.
  - cbn. split; [intros [K|[]]; discriminate|]. intros (_ & d' & v' & K & HC' & HS' & _). rewrite Ep in K. injection K as <-.
    apply chosen_spec in HC. apply chosen_spec in HC'. subst. contradiction.
  - cbn [r_log In]. split; [intros [K|[]]; discriminate|]. intros (_ & d' & v' & K & HC' & HS' & Ev'). rewrite Ep in K. injection K as <-.
    apply chosen_spec in HC. apply chosen_spec in HC'. subst. congruence.
  - rewrite convert_log. split; [|left; reflexivity]. intros _. split; [reflexivity|]. exists d, v. auto.
Qed.
Lemma fail_exit f log out fs : r_exit (fail f log out fs) <> Exit 0.
Proof. unfold fail. destruct (caught f); cbn; discriminate. Qed.
Lemma exit_zero fs infile outfile version nov graph : nov = false ->
  r_exit (main E fs infile outfile version nov graph) = Exit 0 -> ValidInput E fs infile version.
Proof.
  intros Hn H. destruct (main_path fs infile outfile version nov graph) as [nov f Ep|d Ep|d v Ep HC HS m|d v m ms Ep HC HS Ev|d v Ep HC HS Ev];
    try (cbn in H; discriminate H).
  - exfalso. exact (fail_exit _ _ _ _ H).
  - discriminate Hn.
  - exists d, v. auto.
Qed.
(** without an output file the exit status is the verdict *)
Lemma verdict fs infile version : r_exit (main E fs infile None version false false) = Exit 0 <-> ValidInput E fs infile version.
Proof.
  split; [apply exit_zero; reflexivity|]. intros (d & v & Ep & HC & HS & Ev). unfold main. rewrite Ep. cbv zeta. fold (chosen version d).
  apply chosen_spec in HC. rewrite <- HC. rewrite (proj2 (supported_spec v) HS). cbn [negb]. rewrite Ev. reflexivity.
Qed.
Lemma fail_files f log out fs : r_files (fail f log out fs) = fs.
Proof. unfold fail. destruct (caught f); reflexivity. Qed.
Lemma fail_stdout f log out fs : r_stdout (fail f log out fs) = out.
Proof. unfold fail. destruct (caught f); reflexivity. Qed.
Lemma finish_files f log out fs : r_files (finish f log out fs) = fs.
Proof. destruct f; [apply fail_files|reflexivity]. Qed.
(** effects only after a positive verdict *)
Lemma no_output fs infile outfile version nov graph : nov = false -> ~ ValidInput E fs infile version ->
  let r := main E fs infile outfile version nov graph in
  r_exit r <> Exit 0 /\ r_files r = fs /\ r_stdout r = [] /\ ~ SaysValid r.
Proof.
  intros Hn H. cbv zeta. split; [intro K; apply H; eapply exit_zero; eassumption|].
  assert (S : ~ SaysValid (main E fs infile outfile version nov graph)) by (intro K; apply says_valid in K as [_ K]; contradiction).
  assert (R : r_files (main E fs infile outfile version nov graph) = fs /\ r_stdout (main E fs infile outfile version nov graph) = []);
    [|destruct R; auto].
  destruct (main_path fs infile outfile version nov graph) as [nov f Ep|d Ep|d v Ep HC HS m|d v m ms Ep HC HS Ev|d v Ep HC HS Ev]; try (split; reflexivity).
  - rewrite fail_files, fail_stdout. auto.
  - discriminate Hn.
  - exfalso. apply H. exists d, v. auto.
Qed.
Lemma only_outfile fs infile outfile version nov graph n :
  r_files (main E fs infile outfile version nov graph) n <> fs n -> outfile = Some n.
Proof.
  intro H. assert (C : forall d log, r_files (convert_step E fs d outfile graph log) n <> fs n -> outfile = Some n).
  { clear. intros d log H. unfold convert_step in H. destruct (match outfile with Some _ => _ | None => _ end).
    - destruct (write_document O d); [rewrite finish_files in H|rewrite fail_files in H]; contradiction.
    - destruct graph.
      + destruct (e_graphs E); [|cbn in H; contradiction]. rewrite finish_files in H. destruct outfile as [o|]; [|contradiction].
        destruct (fst _); [|contradiction]. destruct (list_eq_dec N.eq_dec n o) as [->|Hn]; [reflexivity|]. rewrite put_other in H by exact Hn. contradiction.
      + destruct outfile as [[|c o]|]; [cbn in H; contradiction| |cbn in H; contradiction]. rewrite finish_files in H.
        destruct (list_eq_dec N.eq_dec n (c :: o)) as [->|Hn]; [reflexivity|]. rewrite others_kept in H by exact Hn. contradiction. }
  destruct (main_path fs infile outfile version nov graph) as [nov f Ep|d Ep|d v Ep HC HS m|d v m ms Ep HC HS Ev|d v Ep HC HS Ev]; try (cbn in H; contradiction); eauto.
  rewrite fail_files in H. contradiction.
Qed.
Lemma unsupported fs infile outfile version graph d v : parse_any_file E fs infile = inl d -> Chosen version d v -> ~ Supported v ->
  r_exit (main E fs infile outfile version false graph) = Exit 1.
Proof.
  intros Ep HC HS. unfold main. rewrite Ep. cbv zeta. fold (chosen version d). apply chosen_spec in HC. rewrite <- HC.
  destruct (str_in v _) eqn:Es; [apply supported_spec in Es; contradiction|]. reflexivity.
Qed.
Lemma invalid_reported fs infile outfile version graph d v : parse_any_file E fs infile = inl d -> Chosen version d v -> Supported v ->
  validate_full_spdx_document O d (Some v) <> [] ->
  let r := main E fs infile outfile version false graph in
  r_exit r = Exit 1
  /\ r_log r = [LogError (join [LF] ($"The document is invalid. The following issues have been found:"
                                     :: map vm_text (validate_full_spdx_document O d (Some v))))].
Proof.
  intros Ep HC HS HV. unfold main. rewrite Ep. cbv zeta. fold (chosen version d). apply chosen_spec in HC. rewrite <- HC.
  rewrite (proj2 (supported_spec v) HS). cbn [negb]. destruct (validate_full_spdx_document O d (Some v)); [contradiction|]. auto.
Qed.
(** conversion of a valid document *)
Lemma converts fs infile o version d v : parse_any_file E fs infile = inl d -> Chosen version d v -> Supported v ->
  validate_full_spdx_document O d (Some v) = [] -> o <> [] -> o <> $"-" ->
  forall fs', write_any_file E fs d o false = (fs', None) ->
  let r := main E fs infile (Some o) version false false in r_exit r = Exit 0 /\ r_files r = fs'.
Proof.
  intros Ep HC HS Ev Ho Hd fs' Hw. unfold main. rewrite Ep. cbv zeta. fold (chosen version d). apply chosen_spec in HC. rewrite <- HC.
  rewrite (proj2 (supported_spec v) HS). cbn [negb]. rewrite Ev. cbn [truthy_list]. unfold convert_step. apply str_eqb_neq in Hd. rewrite Hd.
  destruct o; [contradiction|]. rewrite Hw. split; reflexivity.
Qed.
(** no exception of the kinds that main names escapes *)
Lemma crashes fs infile outfile version nov graph f : r_exit (main E fs infile outfile version nov graph) = Crash f -> forall m, ~ Reported f m.
Proof.
  enough (H : r_exit (main E fs infile outfile version nov graph) = Crash f -> caught f = None) by (intros K m HR; apply caught_spec in HR; rewrite (H K) in HR; discriminate).
  assert (F : forall g log out s, r_exit (fail g log out s) = Crash f -> caught f = None).
  { intros g log out s. unfold fail. destruct (caught g) eqn:Eg; cbn; [discriminate|]. intro K. injection K as <-. exact Eg. }
  assert (G : forall g log out s, r_exit (finish g log out s) = Crash f -> caught f = None) by (intros [g|] log out s; [apply F|discriminate]).
  assert (C : forall d log, r_exit (convert_step E fs d outfile graph log) = Crash f -> caught f = None).
  { intros d log. unfold convert_step. destruct (match outfile with Some _ => _ | None => _ end); [destruct (write_document O d); eauto|].
    destruct graph; [destruct (e_graphs E); [eauto|discriminate]|]. destruct outfile as [[|]|]; [discriminate|eauto|discriminate]. }
  intro H. destruct (main_path fs infile outfile version nov graph); eauto; discriminate.
Qed.
Lemma unread fs infile outfile version nov graph f : parse_any_file E fs infile = inr f ->
  (forall m, Reported f m -> main E fs infile outfile version nov graph = {| r_exit := Exit 1; r_log := [LogError m]; r_stdout := []; r_files := fs |})
  /\ ((forall m, ~ Reported f m) -> main E fs infile outfile version nov graph = {| r_exit := Crash f; r_log := []; r_stdout := []; r_files := fs |}).
Proof.
  intro Ep. unfold main. rewrite Ep. unfold fail. split.
  - intros m H. apply caught_spec in H. rewrite H. reflexivity.
  - intro H. destruct (caught f) as [m|] eqn:Ef; [|reflexivity]. apply caught_spec in Ef. exfalso. exact (H m Ef).
Qed.
End WithEnvironment.
