(** Property theorems: documents of tag-value files, saved and converted (C64). *)
From Verif Require Import Py PyFacts Data Oracles Basics BasicsSpec Json JsonConv JsonParse JsonSpec TvLexer TvParser TvSpec TvWriter ResaveSpec TvResaveSpec
  DocUtils Validation Files FilesSpec Loading LoadingSpec Samples.
From Verif Require TvResave3 TvSamples PropsResave PropsFiles CasingFacts ActorFacts ValidationSpec.

(** ** C64 *)
(** A valid document that was read from a tag-value file can be written as JSON; the JSON is read as the same document, up to the order of
    annotations. *)
Theorem C64_saved_as_json :
  forall (O : oracles) (contents : pystr) (d : document), tv_parse_from_file O contents = Ok d ->
  forall ver, validate_full_spdx_document O d ver = [] ->
  LicensesRead O d -> ActorsRead d -> OwnElements d -> CopyrightsPlain d ->
  exists j anns, convert_document O d = Ok j /\ parse_dict O j = Ok (with_annotations d anns) /\ SameAnnotations (do_annotations d) anns.
Proof. exact TvResave3.json_saved. Qed.
Print Assumptions C64_saved_as_json.
(** It can be written as a tag-value file again; this file is read as the same document, up to the order that the tag-value form does not
    keep. *)
Theorem C64_saved_as_tag_value :
  forall (O : oracles) (contents : pystr) (d : document), tv_parse_from_file O contents = Ok d ->
  forall ver, validate_full_spdx_document O d ver = [] -> TvKept O d ->
  exists text d', write_document O d = Ok text /\ tv_parse_from_file O text = Ok d' /\ TvSame d d'.
Proof. exact TvResave3.tv_saved. Qed.
Print Assumptions C64_saved_as_tag_value.
(** The same for pyspdxtools -i infile -o outfile. *)
Theorem C64_converted_to_json :
  forall (E : environment) fs infile o version d v y,
  HasFormat infile F_TAG_VALUE -> HasFormat o y -> In y [F_JSON; F_YAML] -> e_write_error E o = None -> e_read_error E o = None ->
  parse_any_file E fs infile = inl d -> Chosen version d v -> Supported v -> validate_full_spdx_document (e_oracles E) d (Some v) = [] ->
  LicensesRead (e_oracles E) d -> ActorsRead d -> OwnElements d -> CopyrightsPlain d ->
  (forall j, convert_document (e_oracles E) (create_document_without_duplicates (o_lic_eqb (e_oracles E)) d) = Ok j -> Encodes E y j) ->
  let r := main E fs infile (Some o) version false false in
  r_exit r = Exit 0 /\ exists anns, SameAnnotations (do_annotations d) anns
    /\ parse_any_file E (r_files r) o = inl (with_annotations (create_document_without_duplicates (o_lic_eqb (e_oracles E)) d) anns).
Proof. exact TvResave3.tv_to_json. Qed.
Print Assumptions C64_converted_to_json.
Theorem C64_converted_to_tag_value :
  forall (E : environment) fs infile o version d v,
  HasFormat infile F_TAG_VALUE -> HasFormat o F_TAG_VALUE -> e_write_error E o = None -> e_read_error E o = None ->
  parse_any_file E fs infile = inl d -> Chosen version d v -> Supported v -> validate_full_spdx_document (e_oracles E) d (Some v) = [] ->
  TvKept (e_oracles E) d ->
  let d' := create_document_without_duplicates (o_lic_eqb (e_oracles E)) d in
  (forall text, write_document (e_oracles E) d' = Ok text -> e_text E text = (text, None)) ->
  let r := main E fs infile (Some o) version false false in
  r_exit r = Exit 0 /\ exists d'', parse_any_file E (r_files r) o = inl d'' /\ TvSame d' d''.
Proof. exact TvResave3.tv_to_tv. Qed.
Print Assumptions C64_converted_to_tag_value.

(** A file with an element of each kind. *)
Definition C64_text (creator copyright comment excluded : pystr) : pystr :=
  List.concat (map (fun l => l ++ [LF])
  [$"SPDXVersion: SPDX-2.3"; $"DataLicense: CC0-1.0"; $"SPDXID: SPDXRef-DOCUMENT"; $"DocumentName: doc"; $"DocumentNamespace: https://e.org/d";
   $"ExternalDocumentRef: DocumentRef-x https://e.org/x SHA1: 85ed0817af83a24ad8da68c2b5094de69833983c";
   $"Creator: " ++ creator; $"Created: 2023-02-28T23:59:07Z";
   $"PackageName: pkg"; $"SPDXID: SPDXRef-A"; $"PackageDownloadLocation: https://e.org/a.tar"; $"FilesAnalyzed: true";
   $"PackageVerificationCode: 85ed0817af83a24ad8da68c2b5094de69833983c" ++ excluded;
   $"PackageSupplier: NOASSERTION"; $"PackageCopyrightText: " ++ copyright; $"PackageComment: " ++ comment;
   $"PackageLicenseConcluded: MIT";
   $"ExternalRef: PACKAGE-MANAGER purl pkg:a/b"; $"PackageDescription: <text>two"; $"lines</text>";
   $"FileName: ./file"; $"SPDXID: SPDXRef-File"; $"FileChecksum: SHA1: 85ed0817af83a24ad8da68c2b5094de69833983c"; $"FileCopyrightText: NONE";
   $"SnippetSPDXID: SPDXRef-Snippet"; $"SnippetFromFileSPDXID: SPDXRef-File"; $"SnippetByteRange: 310:420";
   $"Annotator: Tool: t"; $"AnnotationDate: 2023-02-28T23:59:07Z"; $"AnnotationType: REVIEW"; $"SPDXREF: SPDXRef-File"; $"AnnotationComment: fine";
   $"LicenseID: LicenseRef-1"; $"ExtractedText: <text>You"; $"may</text>"; $"LicenseName: own";
   $"Relationship: SPDXRef-DOCUMENT DESCRIBES SPDXRef-A"]).
Definition C64_plain : pystr := C64_text $"Person: Jane (j@e.org)" $"<text>(c) Jane</text>" $"<text>see NONE</text>" $" (excludes: ./x)".
Definition C64_document : document := match tv_parse_from_file sample_oracles C64_plain with Ok d => d | Raise _ => PropsFiles.base end.
Lemma C64_parsed : tv_parse_from_file sample_oracles C64_plain = Ok C64_document.
Proof. vm_compute. reflexivity. Qed.
Lemma C64_valid : validate_full_spdx_document sample_oracles C64_document None = [] /\ validate_full_spdx_document sample_oracles C64_document (Some $"SPDX-2.3") = [].
Proof. split; vm_compute; reflexivity. Qed.
Lemma C64_only_license e : LicenseOf C64_document e -> e = LSym $"MIT".
Proof.
  intros [(p & Hp & H)|[(p & Hp & H)|(p & Hp & H)]]; vm_compute in Hp; destruct Hp as [<-|[]]; cbn in H; [|exfalso; intuition discriminate ..].
  destruct H as [H|[H|[]]]; [|discriminate]. vm_compute. congruence.
Qed.
Lemma C64_license e : LicenseOf C64_document e -> TvLicense sample_oracles (NVal e).
Proof. intro H. rewrite (C64_only_license e H). apply TvSamples.license_by_test; vm_compute; reflexivity. Qed.
Lemma C64_licenses : LicensesRead sample_oracles C64_document.
Proof.
  intros e H. rewrite (C64_only_license e H). split; [vm_compute; reflexivity|]. split; [exists 77%N; split; [left; reflexivity|reflexivity]|].
  split; vm_compute; discriminate.
Qed.
Lemma C64_actors : ActorsRead C64_document.
Proof.
  intros a H (T & M & _). assert (K : ac_email a <> None \/ ac_type a = AT_TOOL).
  { destruct H as [H|[(p & Hp & H)|(n & Hn & H)]].
    - vm_compute in H. destruct H as [<-|[]]. left. discriminate.
    - vm_compute in Hp. destruct Hp as [<-|[]]. cbn in H. exfalso. intuition discriminate.
    - vm_compute in Hn. destruct Hn as [<-|[]]. right. subst a. reflexivity. }
  tauto.
Qed.
Lemma C64_own : OwnElements C64_document.
Proof.
  intros n Hn. apply PropsResave.internal_not_external. assert (E : an_id n = $"SPDXRef-File") by (vm_compute in Hn; destruct Hn as [<-|[]]; vm_compute; reflexivity).
  rewrite E. exists $"File". vm_compute. reflexivity.
Qed.
Definition every_text (f : pystr -> bool) (l : list (option pystr)) : bool := forallb (fun o => match o with Some s => f s | None => true end) l.
Lemma every_text_in f l s : every_text f l = true -> In (Some s) l -> f s = true.
Proof. unfold every_text. rewrite forallb_forall. intros H K. exact (H _ K). Qed.
Lemma C64_copyrights : CopyrightsPlain C64_document.
Proof.
  intros s H. assert (T : negb (str_in s [$"NONE"; $"NOASSERTION"]) = true).
  { refine (every_text_in (fun s => negb (str_in s [$"NONE"; $"NOASSERTION"])) _ s _ H). vm_compute. reflexivity. }
  clear H. apply negb_true_iff, str_in_false in T. split; intros ->; apply T; [left|right; left]; reflexivity.
Qed.
Lemma C64_kept : TvKept sample_oracles C64_document.
Proof.
  constructor.
  - exact C64_license.
  - exact C64_actors.
  - exact C64_copyrights.
  - intros s H L. left. apply TvSamples.line_by_test. apply in_app_iff in H.
    assert (T : has_char LF s || TvSamples.line_ok s = true).
    { refine (every_text_in (fun s => has_char LF s || TvSamples.line_ok s) _ s _ H). vm_compute. reflexivity. }
    apply has_char_false in L. rewrite L in T. exact T.
  - intros s H. apply TvSamples.line_by_test. refine (every_text_in TvSamples.line_ok _ s _ H). vm_compute. reflexivity.
  - intros r H. apply TvSamples.unspaced_by_test. vm_compute in H. destruct H as [<-|[]]. vm_compute. reflexivity.
  - intros p r Hp H. vm_compute in Hp. destruct Hp as [<-|[]]. vm_compute in H. destruct H as [<-|[]].
    split; [|split]; [apply TvSamples.unspaced_by_test; vm_compute; reflexivity ..|discriminate].
  - intros c H. vm_compute in H. destruct H as [<-|[]]. discriminate.
  - intros p v Hp H. vm_compute in Hp. destruct Hp as [<-|[]]. cbn [pk_verif] in H. right. exists 46%N, $"/x". split; [|reflexivity]. vm_compute. injection H as <-. reflexivity.
Qed.
Example C64_sample : tv_parse_from_file sample_oracles C64_plain = Ok C64_document /\ validate_full_spdx_document sample_oracles C64_document None = []
  /\ LicensesRead sample_oracles C64_document /\ ActorsRead C64_document /\ OwnElements C64_document /\ CopyrightsPlain C64_document
  /\ TvKept sample_oracles C64_document.
Proof.
  split; [exact C64_parsed|]. split; [exact (proj1 C64_valid)|]. split; [exact C64_licenses|]. split; [exact C64_actors|]. split; [exact C64_own|].
  split; [exact C64_copyrights|exact C64_kept].
Qed.
(** A run from tag-value to tag-value. *)
Example C64_run_sample : let E := PropsFiles.sample_environment in let fs := fun _ : pystr => Some C64_plain in
  HasFormat $"a.spdx" F_TAG_VALUE /\ parse_any_file E fs $"a.spdx" = inl C64_document /\ Chosen None C64_document $"SPDX-2.3" /\ Supported $"SPDX-2.3"
  /\ validate_full_spdx_document (e_oracles E) C64_document (Some $"SPDX-2.3") = [] /\ TvKept (e_oracles E) C64_document
  /\ forall text, e_text E text = (text, None).
Proof.
  cbv zeta. split; [apply CasingFacts.format_spec; vm_compute; reflexivity|]. split; [vm_compute; reflexivity|].
  split; [right; split; [left; reflexivity|vm_compute; reflexivity]|]. split; [right; reflexivity|]. split; [exact (proj2 C64_valid)|].
  split; [exact C64_kept|]. intro. reflexivity.
Qed.
(** A run from tag-value to YAML. *)
Example C64_yaml_sample : exists E fs, parse_any_file E fs $"a.spdx" = inl C64_document /\ LicensesRead (e_oracles E) C64_document
  /\ validate_full_spdx_document (e_oracles E) C64_document (Some $"SPDX-2.3") = []
  /\ forall j, convert_document (e_oracles E) (create_document_without_duplicates (o_lic_eqb (e_oracles E)) C64_document) = Ok j -> Encodes E F_YAML j.
Proof.
  destruct (convert_document sample_oracles (create_document_without_duplicates (o_lic_eqb sample_oracles) C64_document)) as [j0|] eqn:C0.
  2: { exfalso. assert (T : is_ok (convert_document sample_oracles (create_document_without_duplicates (o_lic_eqb sample_oracles) C64_document)) = true) by (vm_compute; reflexivity). rewrite C0 in T. discriminate T. }
  set (S0 := PropsFiles.sample_environment).
  exists {| e_oracles := sample_oracles; e_read_error := fun _ => None; e_write_error := fun _ => None;
     e_json_load := e_json_load S0; e_yaml_load := fun _ => inl j0; e_xml_parse := e_xml_parse S0;
     e_rdf_parse := e_rdf_parse S0; e_json_dump := e_json_dump S0; e_yaml_dump := fun _ => ($"-", None);
     e_xml_unparse := e_xml_unparse S0; e_rdf_serialize := e_rdf_serialize S0;
     e_rdf_library := e_rdf_library S0; e_label := e_label S0;
     e_text := fun t => (t, None); e_partial := fun _ => []; e_graphs := false; e_draw := fun _ _ => (None, None) |}, (fun _ => Some C64_plain).
  cbn [e_oracles]. split; [vm_compute; reflexivity|]. split; [exact C64_licenses|]. split; [exact (proj2 C64_valid)|].
  intros j C. assert (E' : j = j0) by congruence. subst j. exists $"-". split; reflexivity.
Qed.

(** The conditions are needed: valid documents are changed by saving them. *)
Definition outcomes (text : pystr) : option (document * document * document) :=
  match tv_parse_from_file sample_oracles text with
  | Ok d => match validate_full_spdx_document sample_oracles d None with
            | [] => match convert_document sample_oracles d with
                    | Ok j => match parse_dict sample_oracles j with
                              | Ok e => match write_document sample_oracles d with
                                        | Ok t => match tv_parse_from_file sample_oracles t with Ok f => Some (d, e, f) | Raise _ => None end
                                        | Raise _ => None end
                              | Raise _ => None end
                    | Raise _ => None end
            | _ => None end
  | Raise _ => None
  end.
Lemma outcomes_are text d e f : outcomes text = Some (d, e, f) ->
  exists j t, tv_parse_from_file sample_oracles text = Ok d /\ validate_full_spdx_document sample_oracles d None = []
    /\ convert_document sample_oracles d = Ok j /\ parse_dict sample_oracles j = Ok e
    /\ write_document sample_oracles d = Ok t /\ tv_parse_from_file sample_oracles t = Ok f.
Proof.
  unfold outcomes. destruct (tv_parse_from_file sample_oracles text) as [d0|]; [|discriminate].
  destruct (validate_full_spdx_document sample_oracles d0 None) eqn:V; [|discriminate].
  destruct (convert_document sample_oracles d0) as [j|] eqn:C; [|discriminate]. destruct (parse_dict sample_oracles j) as [e0|] eqn:P; [|discriminate].
  destruct (write_document sample_oracles d0) as [t|] eqn:W; [|discriminate]. destruct (tv_parse_from_file sample_oracles t) as [f0|] eqn:Q; [|discriminate].
  intro H. assert (d0 = d /\ e0 = e /\ f0 = f) as (-> & -> & ->) by (repeat split; congruence). exists j, t. tauto.
Qed.
Lemma by_outcomes text (P : document -> document -> document -> Prop) :
  match outcomes text with Some (d, e, f) => P d e f | None => False end ->
  exists O contents d j e t f, tv_parse_from_file O contents = Ok d /\ validate_full_spdx_document O d None = []
    /\ convert_document O d = Ok j /\ parse_dict O j = Ok e /\ write_document O d = Ok t /\ tv_parse_from_file O t = Ok f /\ P d e f.
Proof.
  destruct (outcomes text) as [[[d e] f]|] eqn:H; [|contradiction]. intro K. destruct (outcomes_are _ _ _ _ H) as (j & t & H1 & H2 & H3 & H4 & H5 & H6).
  exists sample_oracles, text, d, j, e, t, f. tauto.
Qed.
(** A copyright text that consists of the word NONE means that there is no copyright afterwards. *)
Theorem C64_copyrights_refuted :
  exists O contents d j e t f, tv_parse_from_file O contents = Ok d /\ validate_full_spdx_document O d None = []
    /\ convert_document O d = Ok j /\ parse_dict O j = Ok e /\ write_document O d = Ok t /\ tv_parse_from_file O t = Ok f
    /\ map pk_copyright (do_packages d) = [Some (NVal $"NONE")] /\ map pk_copyright (do_packages e) = [Some NNone] /\ map pk_copyright (do_packages f) = [Some NNone].
Proof.
  apply (by_outcomes (C64_text $"Tool: t" $"<text>NONE</text>" $"c" []) (fun d e f => map pk_copyright (do_packages d) = [Some (NVal $"NONE")]
    /\ map pk_copyright (do_packages e) = [Some NNone] /\ map pk_copyright (do_packages f) = [Some NNone])).
  vm_compute. repeat split; reflexivity.
Qed.
Print Assumptions C64_copyrights_refuted.
(** Blanks around a text of one line are kept by JSON and lost in a tag-value file. *)
Theorem C64_texts_refuted :
  exists O contents d j e t f, tv_parse_from_file O contents = Ok d /\ validate_full_spdx_document O d None = []
    /\ convert_document O d = Ok j /\ parse_dict O j = Ok e /\ write_document O d = Ok t /\ tv_parse_from_file O t = Ok f
    /\ map pk_comment (do_packages d) = [Some $" x "] /\ map pk_comment (do_packages e) = [Some $" x "] /\ map pk_comment (do_packages f) = [Some $"x"].
Proof.
  apply (by_outcomes (C64_text $"Tool: t" $"c" $"<text> x </text>" []) (fun d e f => map pk_comment (do_packages d) = [Some $" x "]
    /\ map pk_comment (do_packages e) = [Some $" x "] /\ map pk_comment (do_packages f) = [Some $"x"])).
  vm_compute. repeat split; reflexivity.
Qed.
Print Assumptions C64_texts_refuted.
(** Two files that a verification code excludes become one file in a tag-value file. *)
Definition excluded_of (d : document) : list (list pystr) := map (fun p => match pk_verif p with Some v => vc_excluded v | None => [] end) (do_packages d).
Definition C64_excluded : pystr := $" (excludes: ./x,./y)".
Theorem C64_codes_refuted :
  exists O contents d j e t f, tv_parse_from_file O contents = Ok d /\ validate_full_spdx_document O d None = []
    /\ convert_document O d = Ok j /\ parse_dict O j = Ok e /\ write_document O d = Ok t /\ tv_parse_from_file O t = Ok f
    /\ excluded_of d = [[$"./x"; $"./y"]] /\ excluded_of e = [[$"./x"; $"./y"]] /\ excluded_of f = [[$"./x ./y"]].
Proof.
  apply (by_outcomes (C64_text $"Tool: t" $"c" $"c" C64_excluded) (fun d e f => excluded_of d = [[$"./x"; $"./y"]]
    /\ excluded_of e = [[$"./x"; $"./y"]] /\ excluded_of f = [[$"./x ./y"]])).
  vm_compute. repeat split; reflexivity.
Qed.
Print Assumptions C64_codes_refuted.
(** An actor whose name looks like a name with e-mail gets one. *)
Theorem C64_actors_refuted :
  exists O contents d j e t f, tv_parse_from_file O contents = Ok d /\ validate_full_spdx_document O d None = []
    /\ convert_document O d = Ok j /\ parse_dict O j = Ok e /\ write_document O d = Ok t /\ tv_parse_from_file O t = Ok f
    /\ ci_creators (do_ci d) = [{| ac_type := AT_PERSON; ac_name := $"A (b)"; ac_email := None |}]
    /\ ci_creators (do_ci e) = [{| ac_type := AT_PERSON; ac_name := $"A"; ac_email := Some $"b" |}]
    /\ ci_creators (do_ci f) = [{| ac_type := AT_PERSON; ac_name := $"A"; ac_email := Some $"b" |}].
Proof.
  apply (by_outcomes (C64_text $"Person: A (b) ()" $"c" $"c" []) (fun d e f =>
    ci_creators (do_ci d) = [{| ac_type := AT_PERSON; ac_name := $"A (b)"; ac_email := None |}]
    /\ ci_creators (do_ci e) = [{| ac_type := AT_PERSON; ac_name := $"A"; ac_email := Some $"b" |}]
    /\ ci_creators (do_ci f) = [{| ac_type := AT_PERSON; ac_name := $"A"; ac_email := Some $"b" |}])).
  vm_compute. repeat split; reflexivity.
Qed.
Print Assumptions C64_actors_refuted.
