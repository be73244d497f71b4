(** Property theorems: documents of RDF graphs, saved and converted (C66). *)
From Verif Require Import Py PyFacts Data Oracles Basics BasicsSpec Json JsonConv JsonParse JsonSpec Rdf RdfParser RdfReadSpec RdfWriter ResaveSpec TvResaveSpec
  RdfResaveSpec DocUtils Validation Files FilesSpec Loading LoadingSpec Samples RdfSamples.
From Verif Require TvParser TvSpec TvWriter RdfSpec RdfResave4 RdfSampleFacts TvSamples PropsResave PropsTvResave PropsRdfRead PropsFiles CasingFacts ValidationSpec TvResave2.

(** ** C66 *)
(** A valid document that was read from an RDF graph can be written as JSON; the JSON is read as the same document, up to the order of
    annotations. *)
Theorem C66_saved_as_json :
  forall (O : oracles) (L : rdf_library), Foreign O L ->
  forall (g : graph) (d : document), translate_graph_to_document O L g = Ok d ->
  forall ver, validate_full_spdx_document O d ver = [] ->
  LicensesRead O d -> ActorsRead d -> OwnElements d -> WordsPlain d ->
  exists j anns, convert_document O d = Ok j /\ parse_dict O j = Ok (with_annotations d anns) /\ SameAnnotations (do_annotations d) anns.
Proof. exact RdfResave4.json_saved. Qed.
Print Assumptions C66_saved_as_json.
(** It can be written as an RDF graph again.  This graph, with any labels of blank nodes and the triples in any order, is read as the same
    document, up to the order of lists. *)
Theorem C66_saved_as_rdf :
  forall (O : oracles) (L : rdf_library), Foreign O L ->
  forall (g : graph) (d : document), translate_graph_to_document O L g = Ok d ->
  forall ver, validate_full_spdx_document O d ver = [] ->
  forall lab : nat -> pystr,
  RdfKept O d -> Repetitionless d -> RdfSpec.LicenseGrammar O -> RdfSpec.RdfLibrary L (ci_namespace (do_ci d)) ->
  exists ts, write_graph O lab d = Ok ts
    /\ forall g', RdfSpec.SameGraph lab ts (g_triples g') -> RdfSpec.Shortens L (g_bound g') (ci_refs (do_ci d)) ->
       exists e, translate_graph_to_document O L g' = Ok e /\ RdfSpec.SameDocument d e.
Proof. exact RdfResave4.rdf_saved. Qed.
Print Assumptions C66_saved_as_rdf.
(** It can be written as a tag-value file, which is read as the same document, up to the order that the tag-value form does not keep. *)
Theorem C66_saved_as_tag_value :
  forall (O : oracles) (L : rdf_library), Foreign O L ->
  forall (g : graph) (d : document), translate_graph_to_document O L g = Ok d ->
  forall ver, validate_full_spdx_document O d ver = [] -> TvFit O d ->
  exists text d', TvWriter.write_document O d = Ok text /\ TvParser.tv_parse_from_file O text = Ok d' /\ TvSpec.TvSame d d'.
Proof. exact RdfResave4.tv_saved. Qed.
Print Assumptions C66_saved_as_tag_value.
(** The same for pyspdxtools -i infile -o outfile. *)
Theorem C66_converted_to_json :
  forall E : environment, Foreign (e_oracles E) (e_rdf_library E) ->
  forall fs infile o version d v y,
  HasFormat infile F_RDF_XML -> HasFormat o y -> In y [F_JSON; F_YAML] -> e_write_error E o = None -> e_read_error E o = None ->
  parse_any_file E fs infile = inl d -> Chosen version d v -> Supported v -> validate_full_spdx_document (e_oracles E) d (Some v) = [] ->
  LicensesRead (e_oracles E) d -> ActorsRead d -> OwnElements d -> WordsPlain d ->
  (forall j, convert_document (e_oracles E) (create_document_without_duplicates (o_lic_eqb (e_oracles E)) d) = Ok j -> Encodes E y j) ->
  let r := main E fs infile (Some o) version false false in
  r_exit r = Exit 0 /\ exists anns, SameAnnotations (do_annotations d) anns
    /\ parse_any_file E (r_files r) o = inl (with_annotations (create_document_without_duplicates (o_lic_eqb (e_oracles E)) d) anns).
Proof. exact RdfResave4.rdf_to_json. Qed.
Print Assumptions C66_converted_to_json.
Theorem C66_converted_to_rdf :
  forall E : environment, Foreign (e_oracles E) (e_rdf_library E) ->
  forall fs infile o version d v,
  HasFormat infile F_RDF_XML -> HasFormat o F_RDF_XML -> e_write_error E o = None -> e_read_error E o = None ->
  parse_any_file E fs infile = inl d -> Chosen version d v -> Supported v -> validate_full_spdx_document (e_oracles E) d (Some v) = [] ->
  RdfKept (e_oracles E) d -> (forall e, o_lic_eqb (e_oracles E) e e = true) -> RdfSpec.LicenseGrammar (e_oracles E) ->
  RdfSpec.RdfLibrary (e_rdf_library E) (ci_namespace (do_ci d)) ->
  let d' := create_document_without_duplicates (o_lic_eqb (e_oracles E)) d in
  (forall ts, write_graph (e_oracles E) (e_label E) d' = Ok ts ->
     exists t g, e_rdf_serialize E ts = (t, None) /\ e_rdf_parse E t = inl g
       /\ RdfSpec.SameGraph (e_label E) ts (g_triples g) /\ RdfSpec.Shortens (e_rdf_library E) (g_bound g) (ci_refs (do_ci d'))) ->
  let r := main E fs infile (Some o) version false false in
  r_exit r = Exit 0 /\ exists d'', parse_any_file E (r_files r) o = inl d'' /\ RdfSpec.SameDocument d' d''.
Proof. exact RdfResave4.rdf_to_rdf. Qed.
Print Assumptions C66_converted_to_rdf.
Theorem C66_converted_to_tag_value :
  forall E : environment, Foreign (e_oracles E) (e_rdf_library E) ->
  forall fs infile o version d v,
  HasFormat infile F_RDF_XML -> HasFormat o F_TAG_VALUE -> e_write_error E o = None -> e_read_error E o = None ->
  parse_any_file E fs infile = inl d -> Chosen version d v -> Supported v -> validate_full_spdx_document (e_oracles E) d (Some v) = [] ->
  TvFit (e_oracles E) d ->
  let d' := create_document_without_duplicates (o_lic_eqb (e_oracles E)) d in
  (forall text, TvWriter.write_document (e_oracles E) d' = Ok text -> e_text E text = (text, None)) ->
  let r := main E fs infile (Some o) version false false in
  r_exit r = Exit 0 /\ exists d'', parse_any_file E (r_files r) o = inl d'' /\ TvSpec.TvSame d' d''.
Proof. exact RdfResave4.rdf_to_tv. Qed.
Print Assumptions C66_converted_to_tag_value.

(** A graph with an element of each kind. *)
Definition C66_package (id : pystr) (supplier : actor) (copyright summary : pystr) : package :=
  let p := rdf_package id in
  {| pk_id := pk_id p; pk_name := pk_name p; pk_download := pk_download p; pk_version := pk_version p;
     pk_file_name := pk_file_name p; pk_supplier := Some (AVal supplier); pk_originator := pk_originator p;
     pk_files_analyzed := pk_files_analyzed p; pk_verif := Some {| vc_value := sha1; vc_excluded := [$"./doc.spdx"] |};
     pk_checksums := pk_checksums p; pk_homepage := pk_homepage p;
     pk_source_info := pk_source_info p; pk_concluded := Some (NVal (LAnd [LSym $"MIT"; LSym $"LicenseRef-1"])); pk_info := pk_info p; pk_declared := pk_declared p;
     pk_lic_comment := pk_lic_comment p; pk_copyright := Some (NVal copyright); pk_summary := Some summary;
     pk_description := pk_description p; pk_comment := pk_comment p; pk_refs := pk_refs p; pk_attribution := pk_attribution p;
     pk_purpose := pk_purpose p; pk_release := pk_release p; pk_built := pk_built p; pk_valid_until := pk_valid_until p |}.
Definition C66_source (supplier : actor) (copyright summary : pystr) : document :=
  {| do_ci := do_ci rdf_document; do_packages := [C66_package $"SPDXRef-Package-A" supplier copyright summary];
     do_files := do_files rdf_document; do_snippets := do_snippets rdf_document; do_annotations := do_annotations rdf_document;
     do_relationships := [rel $"SPDXRef-DOCUMENT" RT_DESCRIBES $"SPDXRef-Package-A"]; do_extracted := do_extracted rdf_document |}.
Definition C66_graph (supplier : actor) (copyright summary : pystr) : graph :=
  {| g_triples := match write_graph rdf_oracles sample_label (C66_source supplier copyright summary) with Ok ts => ts | Raise _ => [] end; g_bound := [] |}.
Definition C66_plain : graph := C66_graph sample_org $"(c) Jane" $" in short ".
Definition C66_document : document := C66_source sample_org $"(c) Jane" $"in short".
Lemma C66_read : translate_graph_to_document rdf_oracles sample_library C66_plain = Ok C66_document.
Proof. vm_compute. reflexivity. Qed.
Lemma C66_valid : validate_full_spdx_document rdf_oracles C66_document None = [] /\ validate_full_spdx_document rdf_oracles C66_document (Some $"SPDX-2.3") = [].
Proof. split; vm_compute; reflexivity. Qed.
(** tests for the conditions *)
Definition opt_expr (l : option license) : list lexpr := match l with Some (NVal e) => [e] | _ => [] end.
Definition list_expr (l : list license) : list lexpr := flat_map (fun x => opt_expr (Some x)) l.
Definition exprs_of (d : document) : list lexpr :=
  flat_map (fun p => opt_expr (pk_concluded p) ++ opt_expr (pk_declared p) ++ list_expr (pk_info p)) (do_packages d)
  ++ flat_map (fun f => opt_expr (fi_concluded f) ++ list_expr (fi_info f)) (do_files d)
  ++ flat_map (fun s => opt_expr (sn_concluded s) ++ list_expr (sn_info s)) (do_snippets d).
Lemma in_exprs d e : LicenseOf d e -> In e (exprs_of d).
Proof.
  assert (LI : forall l, In (NVal e) l -> In e (list_expr l)) by (intros l H; apply in_flat_map; exists (NVal e); split; [exact H|left; reflexivity]).
  intros [(p & Hp & H)|[(p & Hp & H)|(p & Hp & H)]]; unfold exprs_of; rewrite !in_app_iff.
  - left. apply in_flat_map. exists p. split; [exact Hp|]. rewrite !in_app_iff. destruct H as [->|[->|H]]; [left; left|right; left; left|right; right; apply LI; exact H]; reflexivity.
  - right. left. apply in_flat_map. exists p. split; [exact Hp|]. rewrite !in_app_iff. destruct H as [->|H]; [left; left; reflexivity|right; apply LI; exact H].
  - right. right. apply in_flat_map. exists p. split; [exact Hp|]. rewrite !in_app_iff. destruct H as [->|H]; [left; left; reflexivity|right; apply LI; exact H].
Qed.
Definition opt_actor (o : option (na actor)) : list actor := match o with Some (AVal a) => [a] | _ => [] end.
Definition actors_of (d : document) : list actor :=
  ci_creators (do_ci d) ++ flat_map (fun p => opt_actor (pk_supplier p) ++ opt_actor (pk_originator p)) (do_packages d) ++ map an_annotator (do_annotations d).
Lemma in_actors d a : ActorOf d a -> In a (actors_of d).
Proof.
  intros [H|[(p & Hp & H)|(n & Hn & <-)]]; unfold actors_of; rewrite !in_app_iff.
  - left. exact H.
  - right. left. apply in_flat_map. exists p. split; [exact Hp|]. rewrite in_app_iff. destruct H as [-> | ->]; [left|right]; left; reflexivity.
  - right. right. apply in_map. exact Hn.
Qed.
Definition actor_test (a : actor) : bool :=
  negb (has_char #"(" (ac_name a)) && negb (has_char TvSpec.CR (ac_name a)) && match ac_email a with Some e => negb (has_char TvSpec.CR e) | None => true end.
Lemma C66_actor a : ActorOf C66_document a -> actor_test a = true.
Proof.
  intro H. apply in_actors in H. assert (T : forallb actor_test (actors_of C66_document) = true) by (vm_compute; reflexivity). rewrite forallb_forall in T. exact (T a H).
Qed.
Lemma C66_actors : ActorsRead C66_document.
Proof.
  intros a H (_ & _ & x & y & E). apply C66_actor in H. unfold actor_test in H. rewrite !andb_true_iff in H. destruct H as [[H _] _].
  apply negb_true_iff, has_char_false in H. apply H. rewrite E. apply in_or_app. right. left. reflexivity.
Qed.
Definition C66_expressions : list lexpr :=
  [LAnd [LSym $"MIT"; LSym $"LicenseRef-1"]; LWith $"GPL-2.0" $"Classpath-exception-2.0"; LSym $"MIT"; LSym $"LicenseRef-1"].
Lemma C66_expression e : LicenseOf C66_document e -> In e C66_expressions.
Proof.
  intro H. apply in_exprs in H. assert (T : exists a b c x, C66_expressions = [a; b; c; x] /\ exprs_of C66_document = [a; b; c; c; x; c; x; c]).
  { exists (LAnd [LSym $"MIT"; LSym $"LicenseRef-1"]), (LWith $"GPL-2.0" $"Classpath-exception-2.0"), (LSym $"MIT"), (LSym $"LicenseRef-1"). split; vm_compute; reflexivity. }
  destruct T as (a & b & c & x & E1 & E2). rewrite E2 in H. rewrite E1. cbn [In] in *. tauto.
Qed.
Lemma C66_licenses : LicensesRead rdf_oracles C66_document.
Proof.
  intros e H. apply C66_expression in H. destruct H as [<-|[<-|[<-|[<-|[]]]]]; (split; [vm_compute; reflexivity|]); (split; [first [exists 77%N; split; [left; reflexivity|reflexivity] | exists 71%N; split; [left; reflexivity|reflexivity] | exists 76%N; split; [left; reflexivity|reflexivity]]|]);
  split; vm_compute; discriminate.
Qed.
Lemma C66_own : OwnElements C66_document.
Proof.
  intros n Hn. apply PropsResave.internal_not_external. assert (T : forallb (fun n => startswith $"SPDXRef-" (an_id n)) (do_annotations C66_document) = true) by (vm_compute; reflexivity).
  rewrite forallb_forall in T. apply T in Hn. apply startswith_spec in Hn. exact Hn.
Qed.
Definition no_word (s : pystr) : bool := negb (str_in s [$"NONE"; $"NOASSERTION"]).
Lemma no_word_plain s : no_word s = true -> s <> $"NONE" /\ s <> $"NOASSERTION".
Proof. intro T. apply negb_true_iff, str_in_false in T. split; intros ->; apply T; [left|right; left]; reflexivity. Qed.
Lemma C66_copyrights : CopyrightsPlain C66_document.
Proof. intros s H. apply no_word_plain. refine (PropsTvResave.every_text_in no_word _ s _ H). vm_compute. reflexivity. Qed.
Lemma C66_names e : In e (do_extracted C66_document) -> el_name e = Some (AVal $"My License").
Proof.
  intro H. assert (T : map el_name (do_extracted C66_document) = [Some (AVal $"My License")]) by (vm_compute; reflexivity).
  apply (in_map el_name) in H. rewrite T in H. destruct H as [H|[]]. congruence.
Qed.
Lemma C66_words : WordsPlain C66_document.
Proof. split; [exact C66_copyrights|]. intros e H E. rewrite (C66_names e H) in E. discriminate E. Qed.
Example C66_json_sample : Foreign rdf_oracles sample_library /\ translate_graph_to_document rdf_oracles sample_library C66_plain = Ok C66_document
  /\ validate_full_spdx_document rdf_oracles C66_document None = []
  /\ LicensesRead rdf_oracles C66_document /\ ActorsRead C66_document /\ OwnElements C66_document /\ WordsPlain C66_document.
Proof.
  split; [exact PropsRdfRead.C56_sample_libraries|]. split; [exact C66_read|]. split; [exact (proj1 C66_valid)|]. split; [exact C66_licenses|].
  split; [exact C66_actors|]. split; [exact C66_own|exact C66_words].
Qed.
Lemma C66_ids : IdsOfOneLine C66_document.
Proof.
  intros i H. apply has_char_false. apply negb_true_iff. assert (T : forallb (fun i => negb (has_char LF i)) (mentioned_ids C66_document) = true) by (vm_compute; reflexivity).
  rewrite forallb_forall in T. exact (T i H).
Qed.
Lemma C66_elements i : In i (element_ids C66_document) -> ~ ValidationSpec.ExternalId C66_document i.
Proof.
  intro H. apply PropsResave.internal_not_external. assert (T : forallb (startswith $"SPDXRef-") (element_ids C66_document) = true) by (vm_compute; reflexivity).
  rewrite forallb_forall in T. apply T in H. apply startswith_spec in H. exact H.
Qed.
Lemma C66_refs r : In r (ci_refs (do_ci C66_document)) -> r = sample_ext.
Proof. assert (T : ci_refs (do_ci C66_document) = [sample_ext]) by (vm_compute; reflexivity). rewrite T. intros [H|[]]. congruence. Qed.
Lemma C66_packages p : In p (do_packages C66_document) ->
  pk_refs p = [{| er_category := RC_PACKAGE_MANAGER; er_type := $"purl"; er_locator := $"pkg:pypi/x@1"; er_comment := None |};
               {| er_category := RC_OTHER; er_type := $"mine"; er_locator := $"x"; er_comment := Some $"c" |}]
  /\ pk_verif p = Some {| vc_value := sha1; vc_excluded := [$"./doc.spdx"] |} /\ pk_supplier p = Some (AVal sample_org) /\ pk_originator p = Some ANoAssertion
  /\ pk_info p = [NVal (LSym $"MIT"); NNoAssertion] /\ pk_attribution p = [$"thanks"].
Proof. intro H. vm_compute in H. destruct H as [<-|[]]. vm_compute. repeat split; reflexivity. Qed.
Lemma C66_namespace : RdfSpec.RdfNamespace (ci_namespace (do_ci C66_document)).
Proof.
  assert (T : ci_namespace (do_ci C66_document) = ci_namespace (do_ci rdf_document)) by (vm_compute; reflexivity). rewrite T.
  exact (RdfSpec.rc_namespace _ (RdfSpec.rd_ci _ _ RdfSampleFacts.rdf_document_ok)).
Qed.
Lemma C66_rdf_kept : RdfKept rdf_oracles C66_document.
Proof.
  constructor.
  - intros e H. apply C66_expression in H. destruct H as [<-|[<-|[<-|[<-|[]]]]]; RdfSampleFacts.dnf_tac.
  - exact C66_actors.
  - exact C66_words.
  - intros e H E. rewrite (C66_names e H) in E. discriminate E.
  - split; [|assert (T : map el_id (do_extracted C66_document) = [Some $"LicenseRef-1"]) by (vm_compute; reflexivity)].
    + intros s H. assert (T : truthy_list s = true) by (refine (PropsTvResave.every_text_in truthy_list _ s _ H); vm_compute; reflexivity). intros ->. discriminate T.
    + intros e H E. apply (in_map el_id) in H. rewrite T, E in H. destruct H as [H|[]]. discriminate H.
  - exact C66_ids.
  - exact C66_elements.
  - split; vm_compute; repeat constructor; intros [].
  - exact C66_namespace.
  - intros r H. rewrite (C66_refs r H). split; [apply has_char_false; vm_compute; reflexivity|vm_compute; discriminate].
  - intros p r Hp H. destruct (C66_packages p Hp) as (E & _). rewrite E in H. destruct H as [<-|[<-|[]]]; apply RdfSampleFacts.unspaced_by_test; vm_compute; reflexivity.
  - intros p v Hp H. destruct (C66_packages p Hp) as (_ & E & _). rewrite E in H. assert (X : v = {| vc_value := sha1; vc_excluded := [$"./doc.spdx"] |}) by congruence.
    rewrite X. repeat constructor. intros [].
  - intros s H E. assert (T : map sn_lines (do_snippets C66_document) = [Some (3, 4)%Z]) by (vm_compute; reflexivity).
    apply (in_map sn_lines) in H. rewrite T, E in H. destruct H as [H|[]]. discriminate H.
Qed.
Lemma C66_repetitionless : Repetitionless C66_document.
Proof.
  constructor.
  - vm_compute. RdfSampleFacts.nodup_tac.
  - intros p H. destruct (C66_packages p H) as (_ & _ & _ & _ & -> & ->). split; RdfSampleFacts.nodup_tac.
  - intros f H. vm_compute in H. destruct H as [<-|[<-|[]]]; cbn [fi_types fi_info fi_contributors fi_attribution]; repeat split; RdfSampleFacts.nodup_tac.
  - intros s H. vm_compute in H. destruct H as [<-|[]]. cbn [sn_info sn_attribution]. split; RdfSampleFacts.nodup_tac.
  - intros s H. vm_compute in H. destruct H as [<-|[]]. cbn [el_xrefs]. RdfSampleFacts.nodup_tac.
Qed.
Lemma C66_library : RdfSpec.RdfLibrary sample_library (ci_namespace (do_ci C66_document)) /\ RdfSpec.Shortens sample_library [] (ci_refs (do_ci C66_document)).
Proof.
  assert (T : ci_namespace (do_ci C66_document) = $"https://example.com/doc" /\ ci_refs (do_ci C66_document) = [sample_ext]) by (vm_compute; split; reflexivity).
  destruct T as [-> ->]. split; [exact RdfSampleFacts.sample_library_ok|exact RdfSampleFacts.sample_shortens].
Qed.
Example C66_rdf_sample : RdfKept rdf_oracles C66_document /\ Repetitionless C66_document /\ RdfSpec.LicenseGrammar rdf_oracles
  /\ RdfSpec.RdfLibrary sample_library (ci_namespace (do_ci C66_document)) /\ RdfSpec.Shortens sample_library [] (ci_refs (do_ci C66_document)).
Proof. split; [exact C66_rdf_kept|]. split; [exact C66_repetitionless|]. split; [exact RdfSampleFacts.sample_grammar|exact C66_library]. Qed.
Lemma C66_kept : TvKept rdf_oracles C66_document.
Proof.
  constructor.
  - intros e H. apply C66_expression in H. destruct H as [<-|[<-|[<-|[<-|[]]]]]; (split; [vm_compute; reflexivity|]); (split; [apply TvSamples.line_by_test; vm_compute; reflexivity|vm_compute; discriminate]).
  - exact C66_actors.
  - exact C66_copyrights.
  - intros s H _. left. apply TvSamples.line_by_test. apply in_app_iff in H. refine (PropsTvResave.every_text_in TvSamples.line_ok _ s _ H). vm_compute. reflexivity.
  - intros s H. apply TvSamples.line_by_test. refine (PropsTvResave.every_text_in TvSamples.line_ok _ s _ H). vm_compute. reflexivity.
  - intros r H. rewrite (C66_refs r H). apply TvSamples.unspaced_by_test. vm_compute. reflexivity.
  - intros p r Hp H. destruct (C66_packages p Hp) as (E & _). clear Hp. rewrite E in H. clear E.
    destruct H as [<-|[<-|[]]]; (split; [|split]);
      first [apply TvSamples.unspaced_by_test; vm_compute; reflexivity | intro X; discriminate X].
  - intros c H. assert (T : forallb (fun c => truthy_list (ck_value c)) (checksums_of C66_document) = true) by (vm_compute; reflexivity). rewrite forallb_forall in T. apply T in H. intro E. rewrite E in H. discriminate H.
  - intros p v Hp H. destruct (C66_packages p Hp) as (_ & E & _). rewrite E in H. assert (X : v = {| vc_value := sha1; vc_excluded := [$"./doc.spdx"] |}) by congruence.
    right. rewrite X. exists 46%N, $"/doc.spdx". split; reflexivity.
Qed.
Lemma C66_fit : TvFit rdf_oracles C66_document.
Proof.
  constructor.
  - exact C66_kept.
  - exact C66_ids.
  - intros s H. apply TvSamples.line_by_test. refine (PropsTvResave.every_text_in TvSamples.line_ok _ s _ H). vm_compute. reflexivity.
  - intros s H Hl. exfalso. apply in_app_iff in H. assert (T : negb (has_char LF s) = true) by (refine (PropsTvResave.every_text_in (fun s => negb (has_char LF s)) _ s _ H); vm_compute; reflexivity).
    apply negb_true_iff, has_char_false in T. exact (T Hl).
  - intros a H. apply C66_actor in H. unfold actor_test in H. rewrite !andb_true_iff in H. destruct H as [[_ H1] H2]. split; [apply has_char_false, negb_true_iff; exact H1|].
    destruct (ac_email a); [|exact I]. apply has_char_false, negb_true_iff. exact H2.
  - intros p a Hp H. destruct (C66_packages p Hp) as (_ & _ & E1 & E2 & _). rewrite E1, E2 in H. destruct H as [H|H]; [|discriminate H]. assert (X : a = sample_org) by congruence. rewrite X. discriminate.
  - intros r H. rewrite (C66_refs r H). reflexivity.
  - intros p v x Hp H Hx. destruct (C66_packages p Hp) as (_ & E & _). rewrite E in H. assert (X : v = {| vc_value := sha1; vc_excluded := [$"./doc.spdx"] |}) by congruence.
    rewrite X in Hx. destruct Hx as [<-|[]]. split; [|split]; apply has_char_false; vm_compute; reflexivity.
Qed.
Example C66_tv_sample : TvFit rdf_oracles C66_document.
Proof. exact C66_fit. Qed.
Fixpoint same_expr (e : lexpr) : lexpr_eqb e e = true.
Proof.
  destruct e as [k|k x|l|l]; cbn [lexpr_eqb]; rewrite ?str_eqb_refl; try reflexivity; induction l as [|a l IH]; try reflexivity; rewrite (same_expr a); exact IH.
Qed.
(** A run from RDF to tag-value. *)
Definition C66_environment : environment :=
  let S0 := PropsFiles.sample_environment in
  {| e_oracles := rdf_oracles; e_read_error := fun _ => None; e_write_error := fun _ => None;
     e_json_load := e_json_load S0; e_yaml_load := e_yaml_load S0; e_xml_parse := e_xml_parse S0;
     e_rdf_parse := fun _ => inl C66_plain; e_json_dump := e_json_dump S0; e_yaml_dump := e_yaml_dump S0;
     e_xml_unparse := e_xml_unparse S0; e_rdf_serialize := e_rdf_serialize S0;
     e_rdf_library := sample_library; e_label := sample_label;
     e_text := fun t => (t, None); e_partial := fun _ => []; e_graphs := false; e_draw := fun _ _ => (None, None) |}.
Example C66_run_sample : let E := C66_environment in let fs := fun _ : pystr => Some $"-" in
  Foreign (e_oracles E) (e_rdf_library E) /\ HasFormat $"a.rdf.xml" F_RDF_XML /\ parse_any_file E fs $"a.rdf.xml" = inl C66_document
  /\ Chosen None C66_document $"SPDX-2.3" /\ Supported $"SPDX-2.3" /\ validate_full_spdx_document (e_oracles E) C66_document (Some $"SPDX-2.3") = []
  /\ TvFit (e_oracles E) C66_document /\ RdfKept (e_oracles E) C66_document /\ (forall e, o_lic_eqb (e_oracles E) e e = true)
  /\ forall text, e_text E text = (text, None).
Proof.
  cbv zeta. split; [exact PropsRdfRead.C56_sample_libraries|]. split; [apply CasingFacts.format_spec; vm_compute; reflexivity|]. split; [vm_compute; reflexivity|].
  split; [right; split; [left; reflexivity|vm_compute; reflexivity]|]. split; [right; reflexivity|]. split; [exact (proj2 C66_valid)|].
  split; [exact C66_fit|]. split; [exact C66_rdf_kept|]. split; [|intro; reflexivity]. exact same_expr.
Qed.
(** A run from RDF to RDF. *)
Definition C66_triples : list triple := match write_graph rdf_oracles sample_label C66_document with Ok ts => ts | Raise _ => [] end.
Lemma C66_written : write_graph rdf_oracles sample_label C66_document = Ok C66_triples.
Proof. vm_compute. reflexivity. Qed.
Definition C66_rdf_environment : environment := PropsFiles.with_codecs rdf_oracles JNull {| g_triples := nodup triple_eq_dec C66_triples; g_bound := [] |}.
Example C66_rdf_run_sample : let E := C66_rdf_environment in let fs := fun _ : pystr => Some $"-" in
  parse_any_file E fs $"a.rdf" = inl C66_document
  /\ let d' := create_document_without_duplicates (o_lic_eqb (e_oracles E)) C66_document in
     d' = C66_document
     /\ forall ts, write_graph (e_oracles E) (e_label E) d' = Ok ts ->
        exists t g, e_rdf_serialize E ts = (t, None) /\ e_rdf_parse E t = inl g
          /\ RdfSpec.SameGraph (e_label E) ts (g_triples g) /\ RdfSpec.Shortens (e_rdf_library E) (g_bound g) (ci_refs (do_ci d')).
Proof.
  cbv zeta. split; [vm_compute; reflexivity|]. assert (D : create_document_without_duplicates (o_lic_eqb rdf_oracles) C66_document = C66_document) by (vm_compute; reflexivity).
  change (e_oracles C66_rdf_environment) with rdf_oracles. rewrite D. split; [reflexivity|]. intros ts Ets.
  change (write_graph rdf_oracles sample_label C66_document = Ok ts) in Ets. assert (E' : ts = C66_triples) by (rewrite C66_written in Ets; congruence). rewrite E'.
  exists $"<", {| g_triples := nodup triple_eq_dec C66_triples; g_bound := [] |}. split; [reflexivity|]. split; [reflexivity|]. split; [|exact (proj2 C66_library)]. cbn [g_triples].
  generalize C66_triples. intro l. split; [apply NoDup_nodup|].
  exists (fun b => b). split; [exact RdfSampleFacts.sample_label_ok|]. intro t. rewrite nodup_In. replace (map (RdfSpec.rename (fun b => b)) l) with l; [reflexivity|].
  rewrite <- (map_id l) at 1. apply map_ext. intros [[a p] b]. cbn. destruct a, b; reflexivity.
Qed.

(** The conditions are needed: valid documents are changed by saving them. *)
Definition outcomes (g : graph) : option (document * document * document) :=
  match translate_graph_to_document rdf_oracles sample_library g with
  | Ok d => match validate_full_spdx_document rdf_oracles d None with
            | [] => match convert_document rdf_oracles d with
                    | Ok j => match parse_dict rdf_oracles j with
                              | Ok e => match write_graph rdf_oracles sample_label d with
                                        | Ok t => match translate_graph_to_document rdf_oracles sample_library {| g_triples := t; g_bound := [] |} with
                                                  | Ok f => Some (d, e, f) | Raise _ => None end
                                        | Raise _ => None end
                              | Raise _ => None end
                    | Raise _ => None end
            | _ => None end
  | Raise _ => None
  end.
Lemma by_outcomes g (P : document -> document -> document -> Prop) :
  match outcomes g with Some (d, e, f) => P d e f | None => False end ->
  exists O L g d j e t f, Foreign O L /\ translate_graph_to_document O L g = Ok d /\ validate_full_spdx_document O d None = []
    /\ convert_document O d = Ok j /\ parse_dict O j = Ok e
    /\ write_graph O sample_label d = Ok t /\ translate_graph_to_document O L {| g_triples := t; g_bound := [] |} = Ok f /\ P d e f.
Proof.
  unfold outcomes. destruct (translate_graph_to_document rdf_oracles sample_library g) as [d|] eqn:G; [|contradiction].
  destruct (validate_full_spdx_document rdf_oracles d None) eqn:V; [|contradiction].
  destruct (convert_document rdf_oracles d) as [j|] eqn:C; [|contradiction]. destruct (parse_dict rdf_oracles j) as [e|] eqn:P0; [|contradiction].
  destruct (write_graph rdf_oracles sample_label d) as [t|] eqn:W; [|contradiction].
  destruct (translate_graph_to_document rdf_oracles sample_library {| g_triples := t; g_bound := [] |}) as [f|] eqn:Q; [|contradiction].
  intro H. exists rdf_oracles, sample_library, g, d, j, e, t, f. pose proof PropsRdfRead.C56_sample_libraries. tauto.
Qed.
(** A copyright text that is the word NONE between blanks is read as the text NONE; after saving, there is no copyright. *)
Theorem C66_copyrights_refuted :
  exists O L g d j e t f, Foreign O L /\ translate_graph_to_document O L g = Ok d /\ validate_full_spdx_document O d None = []
    /\ convert_document O d = Ok j /\ parse_dict O j = Ok e
    /\ write_graph O sample_label d = Ok t /\ translate_graph_to_document O L {| g_triples := t; g_bound := [] |} = Ok f
    /\ map pk_copyright (do_packages d) = [Some (NVal $"NONE")] /\ map pk_copyright (do_packages e) = [Some NNone]
    /\ map pk_copyright (do_packages f) = [Some NNone].
Proof.
  apply (by_outcomes (C66_graph sample_org $" NONE " $"s") (fun d e f => map pk_copyright (do_packages d) = [Some (NVal $"NONE")]
    /\ map pk_copyright (do_packages e) = [Some NNone] /\ map pk_copyright (do_packages f) = [Some NNone])).
  vm_compute. repeat split; reflexivity.
Qed.
Print Assumptions C66_copyrights_refuted.
(** A blank text is read as the empty text, which JSON keeps and RDF drops. *)
Theorem C66_blanks_refuted :
  exists O L g d j e t f, Foreign O L /\ translate_graph_to_document O L g = Ok d /\ validate_full_spdx_document O d None = []
    /\ convert_document O d = Ok j /\ parse_dict O j = Ok e
    /\ write_graph O sample_label d = Ok t /\ translate_graph_to_document O L {| g_triples := t; g_bound := [] |} = Ok f
    /\ map pk_summary (do_packages d) = [Some []] /\ map pk_summary (do_packages e) = [Some []] /\ map pk_summary (do_packages f) = [None].
Proof.
  apply (by_outcomes (C66_graph sample_org $"c" $"  ") (fun d e f => map pk_summary (do_packages d) = [Some []]
    /\ map pk_summary (do_packages e) = [Some []] /\ map pk_summary (do_packages f) = [None])).
  vm_compute. repeat split; reflexivity.
Qed.
Print Assumptions C66_blanks_refuted.
(** An actor whose name looks like a name with e-mail gets one. *)
Theorem C66_actors_refuted :
  exists O L g d j e t f, Foreign O L /\ translate_graph_to_document O L g = Ok d /\ validate_full_spdx_document O d None = []
    /\ convert_document O d = Ok j /\ parse_dict O j = Ok e
    /\ write_graph O sample_label d = Ok t /\ translate_graph_to_document O L {| g_triples := t; g_bound := [] |} = Ok f
    /\ map pk_supplier (do_packages d) = [Some (AVal {| ac_type := AT_PERSON; ac_name := $"A (b)"; ac_email := None |})]
    /\ map pk_supplier (do_packages e) = [Some (AVal {| ac_type := AT_PERSON; ac_name := $"A"; ac_email := Some $"b" |})]
    /\ map pk_supplier (do_packages f) = [Some (AVal {| ac_type := AT_PERSON; ac_name := $"A"; ac_email := Some $"b" |})].
Proof.
  apply (by_outcomes (C66_graph {| ac_type := AT_PERSON; ac_name := $"A (b) ()"; ac_email := None |} $"c" $"s") (fun d e f =>
    map pk_supplier (do_packages d) = [Some (AVal {| ac_type := AT_PERSON; ac_name := $"A (b)"; ac_email := None |})]
    /\ map pk_supplier (do_packages e) = [Some (AVal {| ac_type := AT_PERSON; ac_name := $"A"; ac_email := Some $"b" |})]
    /\ map pk_supplier (do_packages f) = [Some (AVal {| ac_type := AT_PERSON; ac_name := $"A"; ac_email := Some $"b" |})])).
  vm_compute. repeat split; reflexivity.
Qed.
Print Assumptions C66_actors_refuted.
