(** Property theorems: reading, writing and reading again (C60, C61). *)
From Verif Require Import Py Data Oracles Basics BasicsSpec Json JsonConv JsonParse JsonSpec Loading LoadingSpec TvWriter TvSpec DocUtils Graph.
From Verif Require Import Validation Files FilesSpec XmlSpec ResaveSpec Samples.
From Verif Require Rdf RdfWriter RdfSpec.
From Verif Require Resave JsonShape TvMore TvSamples PropsFiles PropsJson ValidationSpec CasingFacts.

(** ** C60 *)
(** A valid document that was read from JSON can be written again.  What is written is read as the same document, up to the
    order of annotations, and that document is written as the same JSON once more. *)
Theorem C60_saved_again :
  forall O : oracles, (forall s e, o_lic_parse O s = Raise e -> exists m, e = EExpr m) ->
  forall (j : json) (d : document) (ver : option pystr),
  parse_dict O j = Ok d -> validate_full_spdx_document O d ver = [] -> LicensesRead O d -> ActorsRead d -> OwnElements d ->
  exists j' anns, convert_document O d = Ok j' /\ parse_dict O j' = Ok (with_annotations d anns) /\ SameAnnotations (do_annotations d) anns
    /\ convert_document O (with_annotations d anns) = Ok j'.
Proof. exact Resave.resaved. Qed.
Print Assumptions C60_saved_again.
Definition C60_text (creator target : pystr) : list (pystr * json) :=
  [($"SPDXID", JStr $"SPDXRef-DOCUMENT"); ($"spdxVersion", JStr $"SPDX-2.3"); ($"name", JStr $"d"); ($"documentNamespace", JStr $"https://e.org/d");
   ($"dataLicense", JStr $"CC0-1.0");
   ($"creationInfo", JObj [($"created", JStr $"2020-01-02T03:04:05Z"); ($"creators", JArr [JStr creator])]);
   ($"externalDocumentRefs", JArr [JObj [($"externalDocumentId", JStr $"DocumentRef-x"); ($"spdxDocument", JStr $"https://e.org/x");
                                         ($"checksum", JObj [($"algorithm", JStr $"MD5"); ($"checksumValue", JStr $"0123456789abcdef0123456789abcdef")])]]);
   ($"documentDescribes", JArr [JStr $"SPDXRef-A"]);
   ($"annotations", JArr [JObj [($"SPDXID", JStr target); ($"annotationType", JStr $"OTHER"); ($"annotator", JStr $"Tool: t"); ($"annotationDate", JStr $"2024-02-29T07:05:09Z"); ($"comment", JStr $"c")]]);
   ($"packages", JArr [JObj [($"SPDXID", JStr $"SPDXRef-A"); ($"name", JStr $"a"); ($"downloadLocation", JStr $"NONE"); ($"filesAnalyzed", JBool false)]])].
Definition outcome (creator target : pystr) : option (document * document) :=
  match parse_dict sample_oracles (JObj (C60_text creator target)) with
  | Ok d => match validate_full_spdx_document sample_oracles d None with
            | [] => match convert_document sample_oracles d with
                    | Ok j => match parse_dict sample_oracles j with Ok e => Some (d, e) | Raise _ => None end
                    | Raise _ => None end
            | _ => None end
  | Raise _ => None
  end.
Lemma outcome_is creator target d e : outcome creator target = Some (d, e) ->
  exists j', parse_dict sample_oracles (JObj (C60_text creator target)) = Ok d /\ validate_full_spdx_document sample_oracles d None = []
    /\ convert_document sample_oracles d = Ok j' /\ parse_dict sample_oracles j' = Ok e.
Proof.
  unfold outcome. destruct (parse_dict sample_oracles (JObj (C60_text creator target))) as [d0|]; [|discriminate].
  destruct (validate_full_spdx_document sample_oracles d0 None) eqn:V; [|discriminate].
  destruct (convert_document sample_oracles d0) as [j'|] eqn:C; [|discriminate]. destruct (parse_dict sample_oracles j') as [e0|] eqn:P; [|discriminate].
  intro H. assert (d0 = d /\ e0 = e) as [-> ->] by (split; congruence). exists j'. tauto.
Qed.
Definition sample_read : document := match parse_dict sample_oracles (JObj (C60_text $"Person: A (b)" $"SPDXRef-A")) with Ok d => d | Raise _ => PropsFiles.base end.
Lemma sample_read_licenses : LicensesRead sample_oracles sample_read.
Proof.
  intros e [(p & Hp & H)|[(p & Hp & H)|(p & Hp & H)]]; vm_compute in Hp; [|contradiction|contradiction]. destruct Hp as [<-|[]]. cbn in H. exfalso. intuition discriminate.
Qed.
Lemma sample_read_actors : ActorsRead sample_read.
Proof.
  intros a H (T & M & _). assert (K : ac_email a <> None \/ ac_type a = AT_TOOL).
  { destruct H as [H|[(p & Hp & H)|(n & Hn & H)]].
    - vm_compute in H. destruct H as [<-|[]]. left. discriminate.
    - vm_compute in Hp. destruct Hp as [<-|[]]. cbn in H. exfalso. intuition discriminate.
    - vm_compute in Hn. destruct Hn as [<-|[]]. right. subst a. reflexivity. }
  tauto.
Qed.
Lemma internal_not_external d id : (exists t, id = $"SPDXRef-" ++ t) -> ~ ValidationSpec.ExternalId d id.
Proof.
  intros (t & ->) (a & b & E & H & _). assert (K : exists u, a = $"DocumentRef-" ++ u).
  { destruct H as [(u & -> & _)|(a' & -> & u & -> & _)]; [eauto|]. rewrite <- app_assoc. eauto. }
  destruct K as (u & ->). discriminate E.
Qed.
Lemma sample_read_own : OwnElements sample_read.
Proof.
  intros n Hn. apply internal_not_external. assert (E : an_id n = $"SPDXRef-A") by (vm_compute in Hn; destruct Hn as [<-|[]]; vm_compute; reflexivity).
  rewrite E. exists $"A". vm_compute. reflexivity.
Qed.
Example C60_sample : (forall s e, o_lic_parse sample_oracles s = Raise e -> exists m, e = EExpr m)
  /\ parse_dict sample_oracles (JObj (C60_text $"Person: A (b)" $"SPDXRef-A")) = Ok sample_read
  /\ validate_full_spdx_document sample_oracles sample_read None = []
  /\ LicensesRead sample_oracles sample_read /\ ActorsRead sample_read /\ OwnElements sample_read.
Proof.
  split; [exact TvMore.sample_raises|]. split; [vm_compute; reflexivity|]. split; [vm_compute; reflexivity|].
  split; [exact sample_read_licenses|]. split; [exact sample_read_actors|exact sample_read_own].
Qed.
(** Both conditions are needed: valid documents are changed by saving them, if the name of an actor looks like a name with
    e-mail, or if an annotation is about an element of another document; then it is about the document afterwards. *)
Theorem C60_actors_refuted :
  exists O j d j' e, parse_dict O j = Ok d /\ validate_full_spdx_document O d None = [] /\ convert_document O d = Ok j' /\ parse_dict O j' = Ok e
    /\ ci_creators (do_ci d) = [{| ac_type := AT_PERSON; ac_name := $"A (b)"; ac_email := None |}]
    /\ ci_creators (do_ci e) = [{| ac_type := AT_PERSON; ac_name := $"A"; ac_email := Some $"b" |}].
Proof.
  assert (T : match outcome $"Person: A (b) ()" $"SPDXRef-A" with
              | Some (d, e) => ci_creators (do_ci d) = [{| ac_type := AT_PERSON; ac_name := $"A (b)"; ac_email := None |}]
                               /\ ci_creators (do_ci e) = [{| ac_type := AT_PERSON; ac_name := $"A"; ac_email := Some $"b" |}]
              | None => False end) by (vm_compute; split; reflexivity).
  destruct (outcome $"Person: A (b) ()" $"SPDXRef-A") as [[d e]|] eqn:H; [|contradiction]. destruct (outcome_is _ _ _ _ H) as (j' & P & V & C & P').
  exists sample_oracles, (JObj (C60_text $"Person: A (b) ()" $"SPDXRef-A")), d, j', e. tauto.
Qed.
Print Assumptions C60_actors_refuted.
Theorem C60_external_annotations_refuted :
  exists O j d j' e, parse_dict O j = Ok d /\ validate_full_spdx_document O d None = [] /\ convert_document O d = Ok j' /\ parse_dict O j' = Ok e
    /\ map an_id (do_annotations d) = [$"DocumentRef-x:SPDXRef-y"] /\ map an_id (do_annotations e) = [$"SPDXRef-DOCUMENT"].
Proof.
  assert (T : match outcome $"Person: A (b)" $"DocumentRef-x:SPDXRef-y" with
              | Some (d, e) => map an_id (do_annotations d) = [$"DocumentRef-x:SPDXRef-y"] /\ map an_id (do_annotations e) = [$"SPDXRef-DOCUMENT"]
              | None => False end) by (vm_compute; split; reflexivity).
  destruct (outcome $"Person: A (b)" $"DocumentRef-x:SPDXRef-y") as [[d e]|] eqn:H; [|contradiction]. destruct (outcome_is _ _ _ _ H) as (j' & P & V & C & P').
  exists sample_oracles, (JObj (C60_text $"Person: A (b)" $"DocumentRef-x:SPDXRef-y")), d, j', e. tauto.
Qed.
Print Assumptions C60_external_annotations_refuted.

(** ** C61 *)
(** pyspdxtools -i infile -o outfile, for a document that is valid for the version that decides: the run ends with status 0, and reading
    the output file gives the document of the input file without duplicates in its lists.  First from JSON, YAML or XML to JSON or YAML. *)
Theorem C61_json_like :
  forall E : environment, (forall s e, o_lic_parse (e_oracles E) s = Raise e -> exists m, e = EExpr m) ->
  forall fs infile o version d v x y,
  HasFormat infile x -> In x [F_JSON; F_YAML; F_XML] -> HasFormat o y -> In y [F_JSON; F_YAML] ->
  e_write_error E o = None -> e_read_error E o = None ->
  parse_any_file E fs infile = inl d -> Chosen version d v -> Supported v -> validate_full_spdx_document (e_oracles E) d (Some v) = [] ->
  LicensesRead (e_oracles E) d -> ActorsRead d -> OwnElements d ->
  (forall j, convert_document (e_oracles E) (create_document_without_duplicates (o_lic_eqb (e_oracles E)) d) = Ok j -> Encodes E y j) ->
  let r := main E fs infile (Some o) version false false in
  r_exit r = Exit 0 /\ exists anns, SameAnnotations (do_annotations d) anns
    /\ parse_any_file E (r_files r) o = inl (with_annotations (create_document_without_duplicates (o_lic_eqb (e_oracles E)) d) anns).
Proof. exact Resave.json_like_conversion. Qed.
Print Assumptions C61_json_like.
(** From any format, for documents that the output format can express. *)
Theorem C61_to_tag_value :
  forall E fs infile o version d v,
  parse_any_file E fs infile = inl d -> Chosen version d v -> Supported v -> validate_full_spdx_document (e_oracles E) d (Some v) = [] ->
  e_write_error E o = None -> e_read_error E o = None -> HasFormat o F_TAG_VALUE ->
  let d' := create_document_without_duplicates (o_lic_eqb (e_oracles E)) d in
  TvDocument (e_oracles E) d' -> (forall text, write_document (e_oracles E) d' = Ok text -> e_text E text = (text, None)) ->
  let r := main E fs infile (Some o) version false false in
  r_exit r = Exit 0 /\ exists d'', parse_any_file E (r_files r) o = inl d'' /\ TvSame d' d''.
Proof. exact Resave.to_tag_value. Qed.
Print Assumptions C61_to_tag_value.
Theorem C61_to_rdf :
  forall E fs infile o version d v,
  parse_any_file E fs infile = inl d -> Chosen version d v -> Supported v -> validate_full_spdx_document (e_oracles E) d (Some v) = [] ->
  e_write_error E o = None -> e_read_error E o = None ->
  let d' := create_document_without_duplicates (o_lic_eqb (e_oracles E)) d in let L := e_rdf_library E in
  HasFormat o F_RDF_XML -> RdfSpec.RdfDocument (e_oracles E) d' -> RdfSpec.LicenseGrammar (e_oracles E) -> RdfSpec.RdfLibrary L (ci_namespace (do_ci d')) ->
  (forall ts, RdfWriter.write_graph (e_oracles E) (e_label E) d' = Ok ts ->
     exists t g, e_rdf_serialize E ts = (t, None) /\ e_rdf_parse E t = inl g
       /\ RdfSpec.SameGraph (e_label E) ts (Rdf.g_triples g) /\ RdfSpec.Shortens L (Rdf.g_bound g) (ci_refs (do_ci d'))) ->
  let r := main E fs infile (Some o) version false false in
  r_exit r = Exit 0 /\ exists d'', parse_any_file E (r_files r) o = inl d'' /\ RdfSpec.SameDocument d' d''.
Proof. exact Resave.to_rdf. Qed.
Print Assumptions C61_to_rdf.
Theorem C61_to_xml :
  forall E fs infile o version d v,
  parse_any_file E fs infile = inl d -> Chosen version d v -> Supported v -> validate_full_spdx_document (e_oracles E) d (Some v) = [] ->
  e_write_error E o = None -> e_read_error E o = None -> HasFormat o F_XML ->
  let d' := create_document_without_duplicates (o_lic_eqb (e_oracles E)) d in XmlDocument (e_oracles E) d' ->
  (forall j, convert_document (e_oracles E) d' = Ok j ->
     exists t w, e_xml_unparse E (JObj [($"Document", j)]) = (t, None) /\ e_xml_parse E t = inl w /\ XmlImage (JObj [($"Document", j)]) w) ->
  let r := main E fs infile (Some o) version false false in
  r_exit r = Exit 0 /\ exists d'', parse_any_file E (r_files r) o = inl d''
    /\ exists anns, d'' = with_annotations d' anns /\ SameAnnotations (do_annotations d) anns.
Proof. exact Resave.to_xml. Qed.
Print Assumptions C61_to_xml.
(** A run from JSON to tag-value. *)
Definition base_read : document := match parse_any_file PropsFiles.sample_environment (fun _ => Some $"{}") $"a.json" with inl d => d | inr _ => PropsFiles.base end.
Lemma base_read_tv : TvDocument sample_oracles base_read.
Proof.
  destruct (JsonShape.json_round_trip sample_oracles PropsFiles.base (PropsJson.C12_sample _)) as (j & anns & C & P & [S' _]).
  assert (T : match convert_document sample_oracles PropsFiles.base with Ok j => parse_dict sample_oracles j = Ok base_read | Raise _ => False end) by (vm_compute; reflexivity).
  rewrite C in T. assert (E : base_read = with_annotations PropsFiles.base anns) by congruence. rewrite E.
  destruct TvSamples.sample_tv. constructor; try assumption. cbn [with_annotations do_annotations]. refine (Permutation_Forall S' _). assumption.
Qed.
Example C61_sample : let E := PropsFiles.sample_environment in let fs := fun _ : pystr => Some $"{}" in
  parse_any_file E fs $"a.json" = inl base_read /\ Chosen None base_read $"SPDX-2.3" /\ Supported $"SPDX-2.3"
  /\ validate_full_spdx_document (e_oracles E) base_read (Some $"SPDX-2.3") = []
  /\ HasFormat $"b.spdx" F_TAG_VALUE /\ create_document_without_duplicates (o_lic_eqb (e_oracles E)) base_read = base_read
  /\ TvDocument (e_oracles E) base_read.
Proof.
  cbv zeta. split; [vm_compute; reflexivity|]. split; [right; split; [left; reflexivity|vm_compute; reflexivity]|]. split; [right; reflexivity|].
  split; [vm_compute; reflexivity|]. split; [apply CasingFacts.format_spec; vm_compute; reflexivity|]. split; [vm_compute; reflexivity|exact base_read_tv].
Qed.
(** A run from JSON to JSON. *)
Example C61_json_sample : exists E fs, parse_any_file E fs $"a.json" = inl sample_read /\ LicensesRead (e_oracles E) sample_read
  /\ validate_full_spdx_document (e_oracles E) sample_read (Some $"SPDX-2.3") = []
  /\ forall j, convert_document (e_oracles E) (create_document_without_duplicates (o_lic_eqb (e_oracles E)) sample_read) = Ok j -> Encodes E F_YAML j.
Proof.
  destruct (convert_document sample_oracles (create_document_without_duplicates (o_lic_eqb sample_oracles) sample_read)) as [j0|] eqn:C0.
  2: { exfalso. assert (T : is_ok (convert_document sample_oracles (create_document_without_duplicates (o_lic_eqb sample_oracles) sample_read)) = true) by (vm_compute; reflexivity). rewrite C0 in T. discriminate T. }
  set (S0 := PropsFiles.sample_environment).
  exists {| e_oracles := sample_oracles; e_read_error := fun _ => None; e_write_error := fun _ => None;
     e_json_load := fun _ => inl (JObj (C60_text $"Person: A (b)" $"SPDXRef-A")); e_yaml_load := fun _ => inl j0; e_xml_parse := e_xml_parse S0;
     e_rdf_parse := e_rdf_parse S0; e_json_dump := e_json_dump S0; e_yaml_dump := fun _ => ($"-", None);
     e_xml_unparse := e_xml_unparse S0; e_rdf_serialize := e_rdf_serialize S0;
     e_rdf_library := e_rdf_library S0; e_label := e_label S0;
     e_text := fun t => (t, None); e_partial := fun _ => []; e_graphs := false; e_draw := fun _ _ => (None, None) |}, (fun _ => Some $"{}").
  cbn [e_oracles]. split; [vm_compute; reflexivity|]. split; [exact sample_read_licenses|]. split; [vm_compute; reflexivity|].
  intros j C. assert (E' : j = j0) by congruence. subst j. exists $"-". split; reflexivity.
Qed.
