(** Property theorems: files and the command line tool (C27, C34, C35, C50). *)
From Verif Require Import Py Data Oracles Basics BasicsSpec Json JsonConv JsonParse JsonSpec Loading LoadingSpec TvWriter TvLexer TvParser TvSpec DocUtils Graph.
From Verif Require Import Validation Files FilesSpec XmlSpec Samples.
From Verif Require Rdf RdfWriter RdfParser RdfSpec RdfSamples.
From Verif Require FilesFacts LoadingFacts XmlFacts TvSamples PropsJson PropsRdf RdfSampleFacts RdfTotal.

(** ** C27 *)
(** Readers and writers are chosen by the same rule. *)
Theorem C27_reader : forall E fs name x, HasFormat name x -> parse_any_file E fs name = parse_from_file E x fs name.
Proof. exact FilesFacts.reads_format. Qed.
Print Assumptions C27_reader.
Theorem C27_writer :
  forall E fs d name v x, HasFormat name x -> write_any_file E fs d name v = write_document_to_file E x fs d name v true.
Proof. exact FilesFacts.writes_format. Qed.
Print Assumptions C27_writer.
Theorem C27_no_format :
  forall E fs d name v, (forall x, ~ HasFormat name x) ->
  exists ms, parse_any_file E fs name = inr (Library (EParsing ms)) /\ write_any_file E fs d name v = (fs, Some (Library (EParsing ms))).
Proof. exact FilesFacts.no_format. Qed.
Print Assumptions C27_no_format.

(** ** C34 *)
(** What happens when validation fails: the error is raised, nothing of the document is written, and the file is empty. *)
Theorem C34_failed_validation :
  forall E fs d name x, HasFormat name x -> e_write_error E name = None -> validate_full_spdx_document (e_oracles E) d None <> [] ->
  let r := write_any_file E fs d name true in
  snd r = Some (Library (EValue $"Document is not valid.")) /\ fst r name = Some [] /\ forall other, other <> name -> fst r other = fs other.
Proof. exact FilesFacts.invalid_file. Qed.
Print Assumptions C34_failed_validation.
(** Nothing is written to a stream. *)
Theorem C34_streams :
  forall E x d drop, validate_full_spdx_document (e_oracles E) d None <> [] ->
  write_document_to_stream E x d true drop = ([], Some (Library (EValue $"Document is not valid."))).
Proof. exact FilesFacts.invalid_stream. Qed.
Print Assumptions C34_streams.
(** Valid documents are written as without validation, and then the file has the serialisation without duplicates. *)
Theorem C34_valid_documents :
  forall E fs d name, validate_full_spdx_document (e_oracles E) d None = [] -> write_any_file E fs d name true = write_any_file E fs d name false.
Proof. exact FilesFacts.valid_file. Qed.
Print Assumptions C34_valid_documents.
Theorem C34_written :
  forall E fs d name x, HasFormat name x -> e_write_error E name = None ->
  let w := serialize E x (create_document_without_duplicates (o_lic_eqb (e_oracles E)) d) in
  write_any_file E fs d name false = (put_file name (fst w) fs, snd w).
Proof. exact FilesFacts.unchecked_file. Qed.
Print Assumptions C34_written.
(** No other file changes; a file that cannot be opened does not change either. *)
Theorem C34_other_files :
  forall E fs d name v other, other <> name -> fst (write_any_file E fs d name v) other = fs other.
Proof. exact FilesFacts.others_kept. Qed.
Print Assumptions C34_other_files.
Theorem C34_unwritable :
  forall E fs d name v f, e_write_error E name = Some f -> exists g, write_any_file E fs d name v = (fs, Some g).
Proof. exact FilesFacts.unwritable. Qed.
Print Assumptions C34_unwritable.

(** an environment: files can be opened, one JSON value has a text *)
Definition base : document := sample_document $"SPDX-2.3".
Definition base_json : json := match convert_document sample_oracles base with Ok j => j | Raise _ => JNull end.
Definition sample_environment : environment :=
  {| e_oracles := sample_oracles; e_read_error := fun _ => None; e_write_error := fun _ => None;
     e_json_load := fun _ => inl base_json; e_yaml_load := fun _ => inl base_json; e_xml_parse := fun _ => inr (ExpatError $"?");
     e_rdf_parse := fun _ => inr (SAXParseException $"?"); e_json_dump := fun _ => ($"{}", None); e_yaml_dump := fun _ => ($"{}", None);
     e_xml_unparse := fun _ => ([], Some (OtherError $"?")); e_rdf_serialize := fun _ => ([], Some (OtherError $"?"));
     e_rdf_library := RdfSamples.sample_library; e_label := RdfSamples.sample_label;
     e_text := fun t => (t, None); e_partial := fun _ => []; e_graphs := false; e_draw := fun _ _ => (None, None) |}.
Definition invalid : document := sample_document $"SPDX-1.0".
Lemma json_name : HasFormat $"a.json" F_JSON.
Proof. split; [exists $"a", $".json"; split; [reflexivity|cbn; tauto]|]. intros [H _]. discriminate. Qed.
Lemma tag_name : HasFormat $"a.spdx" F_TAG_VALUE.
Proof. split; [exists $"a", $".spdx"; split; [reflexivity|cbn; tauto]|]. intros [H _]. discriminate. Qed.
Lemma yaml_name : HasFormat $"a.yaml" F_YAML.
Proof. split; [exists $"a", $".yaml"; split; [reflexivity|cbn; tauto]|]. intros [H _]. discriminate. Qed.
Example C34_sample :
  HasFormat $"a.json" F_JSON /\ e_write_error sample_environment $"a.json" = None
  /\ validate_full_spdx_document sample_oracles invalid None <> [] /\ validate_full_spdx_document sample_oracles base None = [].
Proof. split; [exact json_name|]. split; [reflexivity|]. split; vm_compute; [discriminate|reflexivity]. Qed.
(** So a failed validation destroys an existing file. *)
Theorem C34_file_untouched_refuted :
  exists E fs d name old, fs name = Some old /\ old <> [] /\ validate_full_spdx_document (e_oracles E) d None <> []
    /\ snd (write_any_file E fs d name true) = Some (Library (EValue $"Document is not valid."))
    /\ fst (write_any_file E fs d name true) name = Some [].
Proof.
  exists sample_environment, (fun _ => Some $"precious"), invalid, $"a.json", $"precious". split; [reflexivity|]. split; [discriminate|].
  split; [vm_compute; discriminate|]. split; vm_compute; reflexivity.
Qed.
Print Assumptions C34_file_untouched_refuted.

(** ** C35 *)
(** Validity is claimed exactly for a readable input that is valid for the chosen version, unless validation is off. *)
Theorem C35_claim :
  forall E fs infile outfile version nov graph,
  SaysValid (main E fs infile outfile version nov graph) <-> nov = false /\ ValidInput E fs infile version.
Proof. exact FilesFacts.says_valid. Qed.
Print Assumptions C35_claim.
(** Without an output file the exit status is the verdict. *)
Theorem C35_verdict :
  forall E fs infile version, r_exit (main E fs infile None version false false) = Exit 0 <-> ValidInput E fs infile version.
Proof. exact FilesFacts.verdict. Qed.
Print Assumptions C35_verdict.
(** For anything else there is no output and no exit status 0. *)
Theorem C35_no_output :
  forall E fs infile outfile version nov graph, nov = false -> ~ ValidInput E fs infile version ->
  let r := main E fs infile outfile version nov graph in
  r_exit r <> Exit 0 /\ r_files r = fs /\ r_stdout r = [] /\ ~ SaysValid r.
Proof. exact FilesFacts.no_output. Qed.
Print Assumptions C35_no_output.
Theorem C35_only_the_output_file :
  forall E fs infile outfile version nov graph n, r_files (main E fs infile outfile version nov graph) n <> fs n -> outfile = Some n.
Proof. exact FilesFacts.only_outfile. Qed.
Print Assumptions C35_only_the_output_file.
Theorem C35_unsupported_version :
  forall E fs infile outfile version graph d v, parse_any_file E fs infile = inl d -> Chosen version d v -> ~ Supported v ->
  r_exit (main E fs infile outfile version false graph) = Exit 1.
Proof. exact FilesFacts.unsupported. Qed.
Print Assumptions C35_unsupported_version.
(** Every message about an invalid document is reported. *)
Theorem C35_messages :
  forall E fs infile outfile version graph d v, parse_any_file E fs infile = inl d -> Chosen version d v -> Supported v ->
  validate_full_spdx_document (e_oracles E) d (Some v) <> [] ->
  let r := main E fs infile outfile version false graph in
  r_exit r = Exit 1
  /\ r_log r = [LogError (join [LF] ($"The document is invalid. The following issues have been found:"
                                     :: map vm_text (validate_full_spdx_document (e_oracles E) d (Some v))))].
Proof. exact FilesFacts.invalid_reported. Qed.
Print Assumptions C35_messages.
(** A valid document is converted. *)
Theorem C35_conversion :
  forall E fs infile o version d v, parse_any_file E fs infile = inl d -> Chosen version d v -> Supported v ->
  validate_full_spdx_document (e_oracles E) d (Some v) = [] -> o <> [] -> o <> $"-" ->
  forall fs', write_any_file E fs d o false = (fs', None) ->
  let r := main E fs infile (Some o) version false false in r_exit r = Exit 0 /\ r_files r = fs'.
Proof. exact FilesFacts.converts. Qed.
Print Assumptions C35_conversion.
(** A file that cannot be read ends the run with status 1 and one message, if the exception is one of those that main
    names; other exceptions pass through. *)
Theorem C35_unread :
  forall E fs infile outfile version nov graph f, parse_any_file E fs infile = inr f ->
  (forall m, Reported f m -> main E fs infile outfile version nov graph = {| r_exit := Exit 1; r_log := [LogError m]; r_stdout := []; r_files := fs |})
  /\ ((forall m, ~ Reported f m) -> main E fs infile outfile version nov graph = {| r_exit := Crash f; r_log := []; r_stdout := []; r_files := fs |}).
Proof. exact FilesFacts.unread. Qed.
Print Assumptions C35_unread.
(** The exceptions that main names never end it. *)
Theorem C35_named_exceptions :
  forall E fs infile outfile version nov graph f, r_exit (main E fs infile outfile version nov graph) = Crash f -> forall m, ~ Reported f m.
Proof. exact FilesFacts.crashes. Qed.
Print Assumptions C35_named_exceptions.
Example C35_sample : ValidInput sample_environment (fun _ => Some $"{}") $"a.json" None
  /\ ~ ValidInput sample_environment (fun _ => Some $"{}") $"a.json" (Some $"SPDX-2.2").
Proof.
  assert (T : match parse_any_file sample_environment (fun _ => Some $"{}") $"a.json" with
              | inl d => str_eqb (ci_version (do_ci d)) $"SPDX-2.3" && negb (truthy_list (validate_full_spdx_document sample_oracles d (Some $"SPDX-2.3")))
                         && truthy_list (validate_full_spdx_document sample_oracles d (Some $"SPDX-2.2"))
              | inr _ => false end = true) by (vm_compute; reflexivity).
  unfold ValidInput. destruct (parse_any_file sample_environment (fun _ => Some $"{}") $"a.json") as [d|f]; [|discriminate T].
  apply andb_prop in T as [T T3]. apply andb_prop in T as [T1 T2]. apply PyFacts.str_eqb_eq in T1. split.
  - exists d, $"SPDX-2.3". split; [reflexivity|]. split; [right; split; [left; reflexivity|congruence]|]. split; [right; reflexivity|].
    change (e_oracles sample_environment) with sample_oracles. destruct (validate_full_spdx_document sample_oracles d (Some $"SPDX-2.3")); [reflexivity|discriminate T2].
  - intros (d' & v & K & HC & _ & HV). injection K as <-. destruct HC as [[HC _]|[[HC|HC] _]]; try discriminate HC. injection HC as <-.
    change (e_oracles sample_environment) with sample_oracles in HV. change (lit "SPDX-2.2") with $"SPDX-2.2" in HV. rewrite HV in T3. discriminate T3.
Qed.

(** ** C50 *)
(** A written file is read back, if the encoder and the decoder are inverse to each other. *)
Theorem C50_json_files :
  forall E fs d name, let d' := create_document_without_duplicates (o_lic_eqb (e_oracles E)) d in
  HasFormat name F_JSON -> e_write_error E name = None -> e_read_error E name = None -> JsonDocument (e_oracles E) d' ->
  (forall j, convert_document (e_oracles E) d' = Ok j -> PlainObjects j /\ exists t, e_json_dump E j = (t, None) /\ e_json_load E t = inl j) ->
  exists fs' anns, write_any_file E fs d name false = (fs', None)
    /\ parse_any_file E fs' name = inl (with_annotations d' anns) /\ SameAnnotations (do_annotations d') anns.
Proof. exact FilesFacts.json_file. Qed.
Print Assumptions C50_json_files.
Theorem C50_yaml_files :
  forall E fs d name, let d' := create_document_without_duplicates (o_lic_eqb (e_oracles E)) d in
  HasFormat name F_YAML -> e_write_error E name = None -> e_read_error E name = None -> JsonDocument (e_oracles E) d' ->
  (forall j, convert_document (e_oracles E) d' = Ok j -> exists t, e_yaml_dump E j = (t, None) /\ e_yaml_load E t = inl j) ->
  exists fs' anns, write_any_file E fs d name false = (fs', None)
    /\ parse_any_file E fs' name = inl (with_annotations d' anns) /\ SameAnnotations (do_annotations d') anns.
Proof. exact FilesFacts.yaml_file. Qed.
Print Assumptions C50_yaml_files.
Theorem C50_tag_value_files :
  forall E fs d name, let d' := create_document_without_duplicates (o_lic_eqb (e_oracles E)) d in
  HasFormat name F_TAG_VALUE -> e_write_error E name = None -> e_read_error E name = None -> TvDocument (e_oracles E) d' ->
  (forall text, write_document (e_oracles E) d' = Ok text -> e_text E text = (text, None)) ->
  exists fs' d'', write_any_file E fs d name false = (fs', None) /\ parse_any_file E fs' name = inl d'' /\ TvSame d' d''.
Proof. exact FilesFacts.tag_value_file. Qed.
Print Assumptions C50_tag_value_files.
Example C50_sample : let E := sample_environment in let d' := create_document_without_duplicates (o_lic_eqb (e_oracles E)) base in
  d' = base /\ JsonDocument sample_oracles base /\ TvDocument sample_oracles base
  /\ forall j, convert_document sample_oracles base = Ok j -> PlainObjects j /\ exists t, e_json_dump E j = (t, None) /\ e_json_load E t = inl j.
Proof.
  cbv zeta. split; [vm_compute; reflexivity|]. split; [apply PropsJson.C12_sample|]. split; [exact TvSamples.sample_tv|].
  intros j H. assert (Ej : base_json = j) by (unfold base_json; rewrite H; reflexivity). split.
  - rewrite <- Ej. replace base_json with (json_load base_json); [apply LoadingFacts.load_clean|vm_compute; reflexivity].
  - exists $"{}". split; [reflexivity|]. cbn [e_json_load sample_environment]. rewrite Ej. reflexivity.
Qed.
Theorem C50_rdf_files :
  forall E fs d name, let d' := create_document_without_duplicates (o_lic_eqb (e_oracles E)) d in let L := e_rdf_library E in
  HasFormat name F_RDF_XML -> e_write_error E name = None -> e_read_error E name = None ->
  RdfSpec.RdfDocument (e_oracles E) d' -> RdfSpec.LicenseGrammar (e_oracles E) -> RdfSpec.RdfLibrary L (ci_namespace (do_ci d')) ->
  (forall ts, RdfWriter.write_graph (e_oracles E) (e_label E) d' = Ok ts ->
     exists t g, e_rdf_serialize E ts = (t, None) /\ e_rdf_parse E t = inl g
       /\ RdfSpec.SameGraph (e_label E) ts (Rdf.g_triples g) /\ RdfSpec.Shortens L (Rdf.g_bound g) (ci_refs (do_ci d'))) ->
  exists fs' d'', write_any_file E fs d name false = (fs', None) /\ parse_any_file E fs' name = inl d'' /\ RdfSpec.SameDocument d' d''.
Proof. exact FilesFacts.rdf_file. Qed.
Print Assumptions C50_rdf_files.
(** The same for XML, where the decoder gives back what is described in XmlSpec.v. *)
Theorem C50_xml_files :
  forall E fs d name, let d' := create_document_without_duplicates (o_lic_eqb (e_oracles E)) d in
  HasFormat name F_XML -> e_write_error E name = None -> e_read_error E name = None -> XmlDocument (e_oracles E) d' ->
  (forall j, convert_document (e_oracles E) d' = Ok j ->
     exists t v, e_xml_unparse E (JObj [($"Document", j)]) = (t, None) /\ e_xml_parse E t = inl v /\ XmlImage (JObj [($"Document", j)]) v) ->
  exists fs' anns, write_any_file E fs d name false = (fs', None)
    /\ parse_any_file E fs' name = inl (with_annotations d' anns) /\ SameAnnotations (do_annotations d') anns.
Proof. exact FilesFacts.xml_file. Qed.
Print Assumptions C50_xml_files.
(** the sample environment with other codecs for XML and RDF *)
Definition with_codecs (O : oracles) (v : json) (g : Rdf.graph) : environment :=
  {| e_oracles := O; e_read_error := fun _ => None; e_write_error := fun _ => None;
     e_json_load := fun _ => inl base_json; e_yaml_load := fun _ => inl base_json; e_xml_parse := fun _ => inl v;
     e_rdf_parse := fun _ => inl g; e_json_dump := fun _ => ($"{}", None); e_yaml_dump := fun _ => ($"{}", None);
     e_xml_unparse := fun _ => ($"<", None); e_rdf_serialize := fun _ => ($"<", None);
     e_rdf_library := RdfSamples.sample_library; e_label := RdfSamples.sample_label;
     e_text := fun t => (t, None); e_partial := fun _ => []; e_graphs := false; e_draw := fun _ _ => (None, None) |}.
Lemma base_converts : exists j, convert_document sample_oracles base = Ok j /\ XmlFacts.fullb j = true.
Proof.
  assert (T : match convert_document sample_oracles base with Ok j => XmlFacts.fullb j | Raise _ => false end = true) by (vm_compute; reflexivity).
  destruct (convert_document sample_oracles base) as [j|e]; [|discriminate T]. exists j. split; [reflexivity|exact T].
Qed.
Lemma base_xml : XmlDocument sample_oracles base.
Proof.
  destruct base_converts as (j0 & E0 & F0). apply XmlFacts.fullb_spec in F0. constructor.
  - apply PropsJson.C12_sample.
  - intros j s E W. apply F0. assert (E' : j = j0) by congruence. rewrite <- E'. exact W.
  - intros j E W. apply F0. assert (E' : j = j0) by congruence. rewrite <- E'. exact W.
  - repeat constructor; cbn; lia.
Qed.
Example C50_xml_sample : exists E, e_oracles E = sample_oracles /\ create_document_without_duplicates (o_lic_eqb sample_oracles) base = base
  /\ HasFormat $"a.xml" F_XML /\ XmlDocument sample_oracles base
  /\ forall j, convert_document sample_oracles base = Ok j ->
     exists t v, e_xml_unparse E (JObj [($"Document", j)]) = (t, None) /\ e_xml_parse E t = inl v /\ XmlImage (JObj [($"Document", j)]) v.
Proof.
  destruct base_converts as (j0 & E0 & _). pose proof (XmlFacts.image_of _ _ _ E0) as V. set (v := XmlFacts.image _) in V. exists (with_codecs sample_oracles v {| Rdf.g_triples := []; Rdf.g_bound := [] |}).
  split; [reflexivity|]. split; [vm_compute; reflexivity|]. split; [split; [exists $"a", $".xml"; split; [reflexivity|cbn; tauto]|]; intros [_ [p H]]; apply (f_equal (@List.length _)) in H; rewrite app_length in H; cbn in H; lia|].
  split; [exact base_xml|]. intros j E. assert (E' : j = j0) by congruence. subst j. exists $"<", v. split; [reflexivity|]. split; [reflexivity|exact V].
Qed.
(** White space at the ends of a text is lost. *)
Definition padded : document :=
  let c := do_ci base in
  {| do_ci := {| ci_version := ci_version c; ci_id := ci_id c; ci_name := $" padded "; ci_namespace := ci_namespace c;
                 ci_creators := ci_creators c; ci_created := ci_created c; ci_creator_comment := ci_creator_comment c;
                 ci_data_license := ci_data_license c; ci_refs := ci_refs c; ci_list_version := ci_list_version c;
                 ci_doc_comment := ci_doc_comment c |};
     do_packages := do_packages base; do_files := do_files base; do_snippets := do_snippets base;
     do_annotations := do_annotations base; do_relationships := do_relationships base; do_extracted := do_extracted base |}.
Theorem C50_xml_white_space_refuted :
  exists O d j v e, JsonDocument O d /\ validate_full_spdx_document O d None = [] /\ convert_document O d = Ok j
    /\ XmlImage (JObj [($"Document", j)]) v /\ parse_xml O v = Ok e /\ ci_name (do_ci d) = $" padded " /\ ci_name (do_ci e) = $"padded".
Proof.
  assert (T : match convert_document sample_oracles padded with
              | Ok j => match parse_xml sample_oracles (XmlFacts.image (JObj [($"Document", j)])) with Ok e => str_eqb (ci_name (do_ci e)) $"padded" | Raise _ => false end
              | Raise _ => false end = true) by (vm_compute; reflexivity).
  destruct (convert_document sample_oracles padded) as [j|] eqn:Ej; [|discriminate T].
  destruct (parse_xml sample_oracles (XmlFacts.image (JObj [($"Document", j)]))) as [e|] eqn:Ee; [|discriminate T]. apply PyFacts.str_eqb_eq in T.
  exists sample_oracles, padded, j, (XmlFacts.image (JObj [($"Document", j)])), e. split.
  { destruct base_xml as [HJ _ _ _]. destruct HJ as [J1 J2 J3 J4 J5 J6 J7 J8 J9]. constructor; try assumption. destruct J1. constructor; assumption. }
  split; [vm_compute; reflexivity|]. split; [exact Ej|]. split; [exact (XmlFacts.image_of _ _ _ Ej)|]. split; [exact Ee|]. split; [reflexivity|exact T].
Qed.
Print Assumptions C50_xml_white_space_refuted.
Example C50_rdf_sample : exists E, e_oracles E = RdfSamples.rdf_oracles /\ HasFormat $"a.rdf" F_RDF_XML
  /\ let d' := create_document_without_duplicates (o_lic_eqb (e_oracles E)) RdfSamples.rdf_document in
     d' = RdfSamples.rdf_document /\ RdfSpec.RdfDocument (e_oracles E) d' /\ RdfSpec.LicenseGrammar (e_oracles E)
     /\ RdfSpec.RdfLibrary (e_rdf_library E) (ci_namespace (do_ci d'))
     /\ forall ts, RdfWriter.write_graph (e_oracles E) (e_label E) d' = Ok ts ->
        exists t g, e_rdf_serialize E ts = (t, None) /\ e_rdf_parse E t = inl g
          /\ RdfSpec.SameGraph (e_label E) ts (Rdf.g_triples g) /\ RdfSpec.Shortens (e_rdf_library E) (Rdf.g_bound g) (ci_refs (do_ci d')).
Proof.
  destruct (RdfTotal.rdf_written RdfSamples.rdf_oracles RdfSamples.sample_label RdfSamples.rdf_document RdfSampleFacts.rdf_document_ok) as [ts0 E0].
  exists (with_codecs RdfSamples.rdf_oracles JNull {| Rdf.g_triples := nodup Rdf.triple_eq_dec ts0; Rdf.g_bound := [] |}). split; [reflexivity|].
  split; [split; [exists $"a", $".rdf"; split; [reflexivity|cbn; tauto]|]; intros [H _]; discriminate|]. cbv zeta.
  assert (D : create_document_without_duplicates (o_lic_eqb RdfSamples.rdf_oracles) RdfSamples.rdf_document = RdfSamples.rdf_document) by (vm_compute; reflexivity).
  cbn [e_oracles with_codecs]. rewrite D. split; [reflexivity|]. split; [exact RdfSampleFacts.rdf_document_ok|]. split; [exact RdfSampleFacts.sample_grammar|].
  split; [exact RdfSampleFacts.sample_library_ok|]. intros ts Ets. assert (E' : Ok ts = Ok ts0) by (rewrite <- E0; symmetry; exact Ets). injection E' as ->.
  do 2 eexists. split; [reflexivity|]. split; [reflexivity|]. split; [|exact RdfSampleFacts.sample_shortens]. split; [apply NoDup_nodup|].
  exists (fun b => b). split; [exact RdfSampleFacts.sample_label_ok|]. intro t. cbn [Rdf.g_triples]. rewrite nodup_In. replace (map (RdfSpec.rename (fun b => b)) ts0) with ts0; [reflexivity|].
  rewrite <- (map_id ts0) at 1. apply map_ext. intros [[a p] b]. cbn. destruct a, b; reflexivity.
Qed.
