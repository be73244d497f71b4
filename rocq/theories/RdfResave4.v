(** Documents read from RDF, saved and converted. *)
From Verif Require Import Py PyFacts Data Oracles Basics BasicsSpec Json JsonConv JsonParse JsonSpec Rdf RdfParser RdfReadSpec RdfWriter ResaveSpec TvResaveSpec
  RdfResaveSpec RdfResave DocUtils Validation Files FilesSpec Loading LoadingSpec.
From Verif Require Resave TvParser TvSpec TvWriter TvResave3 RdfResave2 RdfResave3 RdfSpec ValidationFacts RdfIff5 RdfFinal RdfTotal JsonShape TvDocFacts FilesFacts.

Section Graph.
Context (O : oracles) (L : rdf_library) (Fo : Foreign O L) (g : graph) (d : document) (HP : translate_graph_to_document O L g = Ok d).
Context (ver : option pystr) (HV : validate_full_spdx_document O d ver = []).
Let HD : DocumentIn O L g d := proj1 (RdfIff5.document_iff O L Fo g d) HP.
Lemma well_formed : ValidationSpec.WellFormed O (ci_version (do_ci d)) d.
Proof. pose proof HV as H. apply ValidationFacts.validate_spec in H as (_ & _ & W). exact W. Qed.
Theorem read_json : LicensesRead O d -> ActorsRead d -> OwnElements d -> WordsPlain d -> JsonDocument O d.
Proof. exact (rdf_json O L g d HD (ex_intro _ ver HV)). Qed.
Theorem read_rdf : RdfKept O d -> Repetitionless d -> RdfSpec.RdfDocument O d.
Proof. intro K. exact (RdfResave2.rdf_rdf O L g d HD well_formed K). Qed.
Theorem read_rdf_dedup leq : RdfKept O d -> (forall e, leq e e = true) -> RdfSpec.RdfDocument O (create_document_without_duplicates leq d).
Proof. intro K. exact (RdfResave2.rdf_dedup O L g d HD well_formed K leq). Qed.
Theorem read_tv : TvFit O d -> TvSpec.TvDocument O d.
Proof. exact (RdfResave3.rdf_tv O L g d HD well_formed). Qed.

Theorem json_saved : LicensesRead O d -> ActorsRead d -> OwnElements d -> WordsPlain d ->
  exists j anns, convert_document O d = Ok j /\ parse_dict O j = Ok (with_annotations d anns) /\ SameAnnotations (do_annotations d) anns.
Proof. intros HL HA HO HC. exact (JsonShape.json_round_trip O d (read_json HL HA HO HC)). Qed.
Theorem rdf_saved (lab : nat -> pystr) : RdfKept O d -> Repetitionless d -> RdfSpec.LicenseGrammar O -> RdfSpec.RdfLibrary L (ci_namespace (do_ci d)) ->
  exists ts, write_graph O lab d = Ok ts
    /\ forall g', RdfSpec.SameGraph lab ts (g_triples g') -> RdfSpec.Shortens L (g_bound g') (ci_refs (do_ci d)) ->
       exists e, translate_graph_to_document O L g' = Ok e /\ RdfSpec.SameDocument d e.
Proof.
  intros K R HG HL. pose proof (read_rdf K R) as HR. destruct (RdfTotal.rdf_written O lab d HR) as [ts E]. exists ts. split; [exact E|].
  intros g' HS HB. exact (RdfFinal.round_trip O lab d L g' HR HG HL HB ts E HS).
Qed.
Theorem tv_saved : TvFit O d -> exists text d', TvWriter.write_document O d = Ok text /\ TvParser.tv_parse_from_file O text = Ok d' /\ TvSpec.TvSame d d'.
Proof. intro K. exact (TvDocFacts.tag_value_round_trip O d (read_tv K)). Qed.
End Graph.

Section Converted.
Context (E : environment) (Fo : Foreign (e_oracles E) (e_rdf_library E)).
Local Notation O := (e_oracles E).
Lemma rdf_contents fs name d : HasFormat name F_RDF_XML -> parse_any_file E fs name = inl d -> exists g, translate_graph_to_document O (e_rdf_library E) g = Ok d.
Proof.
  intro Hx. rewrite (FilesFacts.reads_format _ _ _ _ Hx). unfold parse_from_file. destruct (read_file E fs name) as [t|f]; cbn [andthen]; [|discriminate].
  destruct (e_rdf_parse E t) as [g|f]; cbn [andthen]; [|discriminate]. exists g. destruct (translate_graph_to_document O (e_rdf_library E) g); cbn in H; [congruence|discriminate].
Qed.
Theorem rdf_to_json fs infile o version d v y :
  HasFormat infile F_RDF_XML -> HasFormat o y -> In y [F_JSON; F_YAML] -> e_write_error E o = None -> e_read_error E o = None ->
  parse_any_file E fs infile = inl d -> Chosen version d v -> Supported v -> validate_full_spdx_document O d (Some v) = [] ->
  LicensesRead O d -> ActorsRead d -> OwnElements d -> WordsPlain d ->
  (forall j, convert_document O (create_document_without_duplicates (o_lic_eqb O) d) = Ok j -> Encodes E y j) ->
  let r := main E fs infile (Some o) version false false in
  r_exit r = Exit 0 /\ exists anns, SameAnnotations (do_annotations d) anns
    /\ parse_any_file E (r_files r) o = inl (with_annotations (create_document_without_duplicates (o_lic_eqb O) d) anns).
Proof.
  intros Hx Hy Hyi HW HE HR HC HS HV HL HA HO HCp HEnc r. destruct (rdf_contents _ _ _ Hx HR) as (g & P).
  pose proof (read_json O _ Fo g d P _ HV HL HA HO HCp) as J.
  destruct (Resave.to_json_like E fs infile o version d v HR HC HS HV y Hy HW HE Hyi J HEnc) as (E1 & d'' & P'' & anns & -> & S'). split; [exact E1|]. exists anns. split; [exact S'|exact P''].
Qed.
Theorem rdf_to_rdf fs infile o version d v :
  HasFormat infile F_RDF_XML -> HasFormat o F_RDF_XML -> e_write_error E o = None -> e_read_error E o = None ->
  parse_any_file E fs infile = inl d -> Chosen version d v -> Supported v -> validate_full_spdx_document O d (Some v) = [] ->
  RdfKept O d -> (forall e, o_lic_eqb O e e = true) -> RdfSpec.LicenseGrammar O -> RdfSpec.RdfLibrary (e_rdf_library E) (ci_namespace (do_ci d)) ->
  let d' := create_document_without_duplicates (o_lic_eqb O) d in
  (forall ts, write_graph O (e_label E) d' = Ok ts ->
     exists t g, e_rdf_serialize E ts = (t, None) /\ e_rdf_parse E t = inl g
       /\ RdfSpec.SameGraph (e_label E) ts (g_triples g) /\ RdfSpec.Shortens (e_rdf_library E) (g_bound g) (ci_refs (do_ci d'))) ->
  let r := main E fs infile (Some o) version false false in
  r_exit r = Exit 0 /\ exists d'', parse_any_file E (r_files r) o = inl d'' /\ RdfSpec.SameDocument d' d''.
Proof.
  intros Hx Hy HW HE HR HC HS HV HK Hq HG HL d' HEnc r. destruct (rdf_contents _ _ _ Hx HR) as (g & P).
  exact (Resave.to_rdf E fs infile o version d v HR HC HS HV HW HE Hy (read_rdf_dedup O _ Fo g d P _ HV _ HK Hq) HG HL HEnc).
Qed.
Theorem rdf_to_tv fs infile o version d v :
  HasFormat infile F_RDF_XML -> HasFormat o F_TAG_VALUE -> e_write_error E o = None -> e_read_error E o = None ->
  parse_any_file E fs infile = inl d -> Chosen version d v -> Supported v -> validate_full_spdx_document O d (Some v) = [] ->
  TvFit O d ->
  let d' := create_document_without_duplicates (o_lic_eqb O) d in
  (forall text, TvWriter.write_document O d' = Ok text -> e_text E text = (text, None)) ->
  let r := main E fs infile (Some o) version false false in
  r_exit r = Exit 0 /\ exists d'', parse_any_file E (r_files r) o = inl d'' /\ TvSpec.TvSame d' d''.
Proof.
  intros Hx Hy HW HE HR HC HS HV HK d' HEnc r. destruct (rdf_contents _ _ _ Hx HR) as (g & P).
  apply (Resave.to_tag_value E fs infile o version d v HR HC HS HV HW HE Hy); [|exact HEnc]. apply TvResave3.dedup_tv. exact (read_tv O _ Fo g d P _ HV HK).
Qed.
End Converted.
