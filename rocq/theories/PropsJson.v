(** Property theorems: the JSON form of documents (C12, C13, C14). *)
From Verif Require Import Py Data Oracles Basics DocUtils Json JsonConv JsonParse BasicsSpec JsonSpec Samples.
From Verif Require Validation.
From Verif Require Import PyFacts.
From Verif Require ActorFacts DateFacts JsonShape.

(** ** C12 *)
(** Converting and parsing gives the same document back; only annotations of different elements may change their order. *)
Theorem C12_json_round_trip :
  forall (O : oracles) (d : document), JsonDocument O d ->
  exists j anns, convert_document O d = Ok j /\ parse_dict O j = Ok (with_annotations d anns)
    /\ SameAnnotations (do_annotations d) anns.
Proof. exact JsonShape.json_round_trip. Qed.
Print Assumptions C12_json_round_trip.

Local Lemma actor_by_test a : parse_actor (actor_str a) = Ok a -> ReadableActor a.
Proof. apply (proj1 (ActorFacts.actor_round_trip a)). Qed.
Local Lemma person_ok : ReadableActor sample_person. Proof. apply actor_by_test. vm_compute. reflexivity. Qed.
Local Lemma tool_ok : ReadableActor sample_tool. Proof. apply actor_by_test. vm_compute. reflexivity. Qed.
Local Lemma org_ok : ReadableActor sample_org. Proof. apply actor_by_test. vm_compute. reflexivity. Qed.
Local Lemma date_ok : PlainDate sample_date.
Proof.
  split; [|split; reflexivity]. constructor; cbn; try lia. exists 28%Z. split; [|lia]. right. right. right. split; [reflexivity|]. split; [|reflexivity].
  intros [[k K] _]. lia.
Qed.
Local Lemma license_by_test e : o_lic_parse sample_oracles (o_lic_str sample_oracles e) = Ok e ->
  existsb (fun c => negb (is_space c)) (o_lic_str sample_oracles e) = true ->
  str_eqb (upper (o_lic_str sample_oracles e)) $"NONE" = false -> str_eqb (upper (o_lic_str sample_oracles e)) $"NOASSERTION" = false ->
  LicenseReads sample_oracles (NVal e).
Proof.
  intros A B C D. split; [exact A|]. split.
  - apply existsb_exists in B. destruct B as (c & I & N). exists c. split; [exact I|]. destruct (is_space c); [discriminate|reflexivity].
  - split; intro E; [rewrite E in C|rewrite E in D]; discriminate.
Qed.
Local Ltac lic := first [exact I | apply license_by_test; vm_compute; reflexivity].
Local Ltac plain := first [exact I | split; intro; discriminate].
Local Ltac go := repeat first
  [ match goal with |- Forall _ (_ :: _) => apply Forall_cons end | match goal with |- Forall _ [] => apply Forall_nil end
  | match goal with |- JsonPackage _ _ => constructor end | match goal with |- JsonFile _ _ => constructor end
  | match goal with |- JsonSnippet _ _ => constructor end | match goal with |- JsonAnnotation _ => constructor end
  | match goal with |- JsonCreationInfo _ => constructor end
  | exact I | apply person_ok | apply tool_ok | apply org_ok | apply date_ok | discriminate | plain | lic ].
Example C12_sample : forall v, JsonDocument sample_oracles (sample_document v).
Proof.
  intro v. constructor; cbn [sample_document do_ci do_packages do_files do_snippets do_annotations do_relationships do_extracted]; try (go; fail).
  - constructor; cbn [sample_ci ci_creators ci_created]; go.
  - unfold sample_package. go; cbn; go.
  - unfold sample_file. go; cbn; go.
  - unfold sample_snippet. go; cbn; go.
  - go; [right; left; reflexivity|left; reflexivity].
  - repeat constructor; cbn; intuition discriminate.
Qed.
(** what parsing the JSON form of a document gives *)
Definition there_and_back (O : oracles) (d : document) : result document := do j <- convert_document O d; parse_dict O j.
Local Lemma back O d r : there_and_back O d = r -> is_ok (convert_document O d) = true -> exists j, convert_document O d = Ok j /\ parse_dict O j = r.
Proof. unfold there_and_back. destruct (convert_document O d) as [j|e]; [|discriminate]. intros H _. exists j. split; [reflexivity|exact H]. Qed.
(** Documents outside that class.  A document without creators is valid, but its JSON form cannot be parsed. *)
Definition without_creators (d : document) : document :=
  {| do_ci := let c := do_ci d in
       {| ci_version := ci_version c; ci_id := ci_id c; ci_name := ci_name c; ci_namespace := ci_namespace c; ci_creators := [];
          ci_created := ci_created c; ci_creator_comment := ci_creator_comment c; ci_data_license := ci_data_license c;
          ci_refs := ci_refs c; ci_list_version := ci_list_version c; ci_doc_comment := ci_doc_comment c |};
     do_packages := do_packages d; do_files := do_files d; do_snippets := do_snippets d; do_annotations := do_annotations d;
     do_relationships := do_relationships d; do_extracted := do_extracted d |}.
Theorem C12_valid_documents_parse_back_refuted :
  exists O d j ms, Validation.validate_full_spdx_document O d None = [] /\ convert_document O d = Ok j /\ parse_dict O j = Raise (EParsing ms).
Proof.
  set (d := without_creators (sample_document $"SPDX-2.3")).
  assert (T : match there_and_back sample_oracles d with Raise (EParsing _) => true | _ => false end = true) by (vm_compute; reflexivity).
  destruct (there_and_back sample_oracles d) as [|e] eqn:E; [discriminate|]. destruct e; try discriminate T.
  destruct (back sample_oracles d _ E) as (j & J1 & J2); [vm_compute; reflexivity|].
  exists sample_oracles, d, j, msgs. split; [vm_compute; reflexivity|]. split; assumption.
Qed.
Print Assumptions C12_valid_documents_parse_back_refuted.
(** A copyright text that is the word NONE becomes the special value NONE. *)
Definition retitle (c : nn pystr) (f : file) : file :=
  {| fi_name := fi_name f; fi_id := fi_id f; fi_checksums := fi_checksums f; fi_types := fi_types f; fi_concluded := fi_concluded f;
     fi_info := fi_info f; fi_lic_comment := fi_lic_comment f; fi_copyright := Some c; fi_comment := fi_comment f;
     fi_notice := fi_notice f; fi_contributors := fi_contributors f; fi_attribution := fi_attribution f |}.
Theorem C12_reserved_words_refuted :
  exists O d f, convert_file O d (retitle (NVal $"NONE") f) = convert_file O d (retitle NNone f)
    /\ exists j, convert_file O d (retitle (NVal $"NONE") f) = Ok j /\ parse_file O j = Ok (retitle NNone f).
Proof.
  exists sample_oracles, (sample_document $"SPDX-2.3"), (sample_file $"SPDXRef-File"). split; [vm_compute; reflexivity|].
  destruct (convert_file sample_oracles (sample_document $"SPDX-2.3") (retitle (NVal $"NONE") (sample_file $"SPDXRef-File"))) as [j|e] eqn:E.
  - exists j. split; [reflexivity|].
    assert (T : (do j <- convert_file sample_oracles (sample_document $"SPDX-2.3") (retitle (NVal $"NONE") (sample_file $"SPDXRef-File")); parse_file sample_oracles j)
                = Ok (retitle NNone (sample_file $"SPDXRef-File"))) by (vm_compute; reflexivity).
    rewrite E in T. exact T.
  - apply (f_equal is_ok) in E. vm_compute in E. discriminate.
Qed.
Print Assumptions C12_reserved_words_refuted.
(** An annotation of an element of another document comes back as an annotation of the document. *)
Theorem C12_external_annotations_refuted :
  exists O d j d', do_annotations d = [sample_annotation $"DocumentRef-ext:SPDXRef-X"] /\ convert_document O d = Ok j
    /\ parse_dict O j = Ok d' /\ do_annotations d' = [sample_annotation $"SPDXRef-DOCUMENT"].
Proof.
  set (d := with_annotations (sample_document $"SPDX-2.3") [sample_annotation $"DocumentRef-ext:SPDXRef-X"]).
  assert (T : (do d' <- there_and_back sample_oracles d; Ok (do_annotations d')) = Ok [sample_annotation $"SPDXRef-DOCUMENT"]) by (vm_compute; reflexivity).
  destruct (there_and_back sample_oracles d) as [d'|e] eqn:E; [|discriminate]. destruct (back sample_oracles d _ E) as (j & J1 & J2); [vm_compute; reflexivity|].
  exists sample_oracles, d, j, d'. split; [reflexivity|]. split; [exact J1|]. split; [exact J2|]. injection T as ->. reflexivity.
Qed.
Print Assumptions C12_external_annotations_refuted.

(** ** C13 *)
(** Every package, file and snippet object has exactly the annotations that name its id, the document object has exactly
    those that name no element; all in their original order. *)
Theorem C13_annotations_placed :
  forall (O : oracles) (d : document) (j : json), convert_document O d = Ok j ->
  let anns := do_annotations d in
  HasAnnotations (about_none_of (element_ids d) anns) j
  /\ HasArray $"packages" (fun p => HasAnnotations (about (pk_id p) anns)) (do_packages d) j
  /\ HasArray $"files" (fun f => HasAnnotations (about (fi_id f) anns)) (do_files d) j
  /\ HasArray $"snippets" (fun s => HasAnnotations (about (sn_id s) anns)) (do_snippets d) j.
Proof. exact JsonShape.annotations_placed. Qed.
Print Assumptions C13_annotations_placed.
(** If the element ids are distinct, these places together have every annotation exactly once. *)
Theorem C13_exactly_once :
  forall (ids : list pystr) (l : list annotation), NoDup ids ->
  Permutation l (about_none_of ids l ++ flat_map (fun id => about id l) ids).
Proof. exact JsonShape.group_permutation. Qed.
Print Assumptions C13_exactly_once.
(** With a repeated id an annotation is written twice. *)
Theorem C13_repeated_ids_refuted :
  exists O d j d', List.length (do_annotations d) = 1 /\ convert_document O d = Ok j /\ parse_dict O j = Ok d'
    /\ List.length (do_annotations d') = 2.
Proof.
  set (d :=
    {| do_ci := sample_ci $"SPDX-2.3"; do_packages := [sample_package $"SPDXRef-A"; sample_package $"SPDXRef-A"]; do_files := [];
       do_snippets := []; do_annotations := [sample_annotation $"SPDXRef-A"]; do_relationships := []; do_extracted := [] |}).
  assert (T : (do d' <- there_and_back sample_oracles d; Ok (List.length (do_annotations d'))) = Ok 2) by (vm_compute; reflexivity).
  destruct (there_and_back sample_oracles d) as [d'|e] eqn:E; [|discriminate]. destruct (back sample_oracles d _ E) as (j & J1 & J2); [vm_compute; reflexivity|].
  exists sample_oracles, d, j, d'. split; [reflexivity|]. split; [exact J1|]. split; [exact J2|]. injection T as ->. reflexivity.
Qed.
Print Assumptions C13_repeated_ids_refuted.
Example C13_sample : let d := sample_document $"SPDX-2.3" in is_ok (convert_document sample_oracles d) = true
  /\ about_none_of (element_ids d) (do_annotations d) = [sample_annotation $"SPDXRef-DOCUMENT"]
  /\ about $"SPDXRef-Package-A" (do_annotations d) = [sample_annotation $"SPDXRef-Package-A"].
Proof. split; [|split]; vm_compute; reflexivity. Qed.

(** ** C14 *)
(** No null and no repeated key anywhere in the JSON form. *)
Theorem C14_no_null_no_repetition : forall (O : oracles) (d : document) (j : json), convert_document O d = Ok j -> Clean j.
Proof. exact JsonShape.clean_document. Qed.
Print Assumptions C14_no_null_no_repetition.
(** The keys are exactly those of the values that are present. *)
Theorem C14_document_keys :
  forall (O : oracles) (d : document) (j : json), convert_document O d = Ok j -> exists kvs, j = JObj kvs /\ map fst kvs = document_keys d.
Proof. exact JsonShape.document_names. Qed.
Print Assumptions C14_document_keys.
Theorem C14_creation_info_keys :
  forall (c : creation_info) (j : json), convert_creation_info c = Ok j -> exists kvs, j = JObj kvs /\ map fst kvs = creation_info_keys c.
Proof. exact JsonShape.creation_info_names. Qed.
Print Assumptions C14_creation_info_keys.
Theorem C14_package_keys :
  forall (O : oracles) (d : document) (p : package) (j : json),
  convert_package O d p = Ok j -> exists kvs, j = JObj kvs /\ map fst kvs = package_keys p d.
Proof. exact JsonShape.package_names. Qed.
Print Assumptions C14_package_keys.
Theorem C14_file_keys :
  forall (O : oracles) (d : document) (f : file) (j : json),
  convert_file O d f = Ok j -> exists kvs, j = JObj kvs /\ map fst kvs = file_keys f d.
Proof. exact JsonShape.file_names. Qed.
Print Assumptions C14_file_keys.
Theorem C14_snippet_keys :
  forall (O : oracles) (d : document) (s : snippet) (j : json),
  convert_snippet O d s = Ok j -> exists kvs, j = JObj kvs /\ map fst kvs = snippet_keys s d.
Proof. exact JsonShape.snippet_names. Qed.
Print Assumptions C14_snippet_keys.
Theorem C14_relationship_keys :
  forall (r : relationship) (j : json), convert_relationship r = Ok j -> exists kvs, j = JObj kvs /\ map fst kvs = relationship_keys r.
Proof. exact JsonShape.relationship_names. Qed.
Print Assumptions C14_relationship_keys.
Theorem C14_extracted_keys :
  forall (e : extracted) (j : json), convert_extracted e = Ok j -> exists kvs, j = JObj kvs /\ map fst kvs = extracted_keys e.
Proof. exact JsonShape.extracted_names. Qed.
Print Assumptions C14_extracted_keys.
Example C14_sample : is_ok (convert_document sample_oracles (sample_document $"SPDX-2.3")) = true
  /\ In $"versionInfo" (package_keys (sample_package $"SPDXRef-A") (sample_document $"SPDX-2.3"))
  /\ ~ In $"builtDate" (package_keys (sample_package $"SPDXRef-A") (sample_document $"SPDX-2.3")).
Proof. split; [vm_compute; reflexivity|]. split; [apply str_in_In; vm_compute; reflexivity|]. intro H. apply str_in_In in H. vm_compute in H. discriminate. Qed.
