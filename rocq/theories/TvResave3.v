(** Tag-value files, converted. *)
From Verif Require Import Py PyFacts Data Oracles Basics BasicsSpec Json JsonConv JsonParse JsonSpec TvLexer TvParser TvSpec TvWriter TvTokSpec
  TvReadSpec TvStreamSpec TvRead11 TvTokens ResaveSpec TvResaveSpec TvResave TvResave2 DocUtils Validation Files FilesSpec Loading LoadingSpec.
From Verif Require Resave JsonShape ValidationFacts TvDocFacts DocUtilsFacts FilesFacts.

Section Text.
Context (O : oracles) (contents : pystr) (d : document) (HP : tv_parse_from_file O contents = Ok d).
Lemma parsed : exists gs, SaysDocument O gs d
  /\ forall g, In g gs -> Good g /\ Sharp (universal_newlines contents) (g_val g) /\ forall c, g_com g = Some c -> Sharp (universal_newlines contents) c.
Proof.
  destruct (proj1 (file_says O contents d) HP) as (gs & br & T & _ & S). exists gs. split; [exact S|]. apply Forall_forall.
  exact (taken_values _ _ _ _ _ T (tokens_sharp (universal_newlines contents))).
Qed.
Context (ver : option pystr) (HV : validate_full_spdx_document O d ver = []).
Theorem read_json : LicensesRead O d -> ActorsRead d -> OwnElements d -> CopyrightsPlain d -> JsonDocument O d.
Proof.
  destruct parsed as (gs & S & F). apply (tv_json O gs d S (ex_intro _ ver HV)). intros g Hg. destruct (F g Hg) as (G & Sh & _). split; [exact G|]. intro T. apply (sh_line _ _ Sh T).
Qed.
Theorem read_tv : TvKept O d -> TvDocument O d.
Proof.
  destruct parsed as (gs & S & F). apply (tv_tv O (universal_newlines contents) gs d S (newlines_CR _ contents (le_n _)) F).
  apply ValidationFacts.validate_spec in HV as (_ & _ & W). exact W.
Qed.
Theorem json_saved : LicensesRead O d -> ActorsRead d -> OwnElements d -> CopyrightsPlain d ->
  exists j anns, convert_document O d = Ok j /\ parse_dict O j = Ok (with_annotations d anns) /\ SameAnnotations (do_annotations d) anns.
Proof. intros HL HA HO HC. exact (JsonShape.json_round_trip O d (read_json HL HA HO HC)). Qed.
Theorem tv_saved : TvKept O d -> exists text d', write_document O d = Ok text /\ tv_parse_from_file O text = Ok d' /\ TvSame d d'.
Proof. intro K. exact (TvDocFacts.tag_value_round_trip O d (read_tv K)). Qed.
End Text.

Section Dedup.
Context (O : oracles) (leq : lexpr -> lexpr -> bool).
Lemma dedup_tv d : TvDocument O d -> TvDocument O (create_document_without_duplicates leq d).
Proof.
  assert (EI : element_ids (create_document_without_duplicates leq d) = element_ids d) by (unfold element_ids; cbn; rewrite !map_map; reflexivity).
  intros [H1 H2 H3 H4 H5 H6 H7 H8]. constructor; rewrite ?EI; try assumption; cbn [create_document_without_duplicates do_ci do_packages do_files do_snippets do_annotations do_relationships do_extracted].
  - destruct H1. constructor; try assumption; cbn [dedup_ci ci_creators ci_refs]; try (apply DocUtilsFacts.dedup_nonempty; assumption); apply Resave.dd_forall; assumption.
  - refine (Resave.map_forall _ _ _ _ _ H2). intros p []. constructor; try assumption; cbn; apply Resave.dd_forall; assumption.
  - refine (Resave.map_forall _ _ _ _ _ H3). intros p []. constructor; try assumption; cbn; try (apply DocUtilsFacts.dedup_nonempty; assumption); apply Resave.dd_forall; assumption.
  - refine (Resave.map_forall _ _ _ _ _ H4). intros p []. constructor; try assumption; cbn; apply Resave.dd_forall; assumption.
  - refine (Resave.map_forall _ _ _ _ _ H7). intros p []. constructor; try assumption; cbn; apply Resave.dd_forall; assumption.
Qed.
End Dedup.

Section Converted.
Context (E : environment).
Local Notation O := (e_oracles E).
Lemma tv_contents fs name d : HasFormat name F_TAG_VALUE -> parse_any_file E fs name = inl d -> exists contents, tv_parse_from_file O contents = Ok d.
Proof.
  intro Hx. rewrite (FilesFacts.reads_format _ _ _ _ Hx). unfold parse_from_file. destruct (read_file E fs name) as [t|f]; cbn [andthen]; [|discriminate].
  exists t. destruct (tv_parse_from_file O t); cbn in H; [congruence|discriminate].
Qed.
Theorem tv_to_json fs infile o version d v y :
  HasFormat infile F_TAG_VALUE -> HasFormat o y -> In y [F_JSON; F_YAML] -> e_write_error E o = None -> e_read_error E o = None ->
  parse_any_file E fs infile = inl d -> Chosen version d v -> Supported v -> validate_full_spdx_document O d (Some v) = [] ->
  LicensesRead O d -> ActorsRead d -> OwnElements d -> CopyrightsPlain d ->
  (forall j, convert_document O (create_document_without_duplicates (o_lic_eqb O) d) = Ok j -> Encodes E y j) ->
  let r := main E fs infile (Some o) version false false in
  r_exit r = Exit 0 /\ exists anns, SameAnnotations (do_annotations d) anns
    /\ parse_any_file E (r_files r) o = inl (with_annotations (create_document_without_duplicates (o_lic_eqb O) d) anns).
Proof.
  intros Hx Hy Hyi HW HE HR HC HS HV HL HA HO HCp HEnc r. destruct (tv_contents _ _ _ Hx HR) as (t & P).
  pose proof (read_json O t d P _ HV HL HA HO HCp) as J.
  destruct (Resave.to_json_like E fs infile o version d v HR HC HS HV y Hy HW HE Hyi J HEnc) as (E1 & d'' & P'' & anns & -> & S'). split; [exact E1|]. exists anns. split; [exact S'|exact P''].
Qed.
Theorem tv_to_tv fs infile o version d v :
  HasFormat infile F_TAG_VALUE -> HasFormat o F_TAG_VALUE -> e_write_error E o = None -> e_read_error E o = None ->
  parse_any_file E fs infile = inl d -> Chosen version d v -> Supported v -> validate_full_spdx_document O d (Some v) = [] ->
  TvKept O d ->
  let d' := create_document_without_duplicates (o_lic_eqb O) d in
  (forall text, write_document O d' = Ok text -> e_text E text = (text, None)) ->
  let r := main E fs infile (Some o) version false false in
  r_exit r = Exit 0 /\ exists d'', parse_any_file E (r_files r) o = inl d'' /\ TvSame d' d''.
Proof.
  intros Hx Hy HW HE HR HC HS HV HK d' HEnc r. destruct (tv_contents _ _ _ Hx HR) as (t & P).
  apply (Resave.to_tag_value E fs infile o version d v HR HC HS HV HW HE Hy); [|exact HEnc]. apply dedup_tv. exact (read_tv O t d P _ HV HK).
Qed.
End Converted.
