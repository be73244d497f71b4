(** Property theorems: the tag-value form of documents (C28 - C32, C49). *)
From Verif Require Import Py Data Oracles Basics BasicsSpec JsonSpec Samples TvWriter TvLexer TvParser TvSpec TvTokSpec.
From Verif Require Validation.
From Verif Require Import PyFacts.
From Verif Require TvSections TvDocFacts TvErrors TvRepeat TvRaises TvKey TvSamples TvMore.

(** ** C28 *)
(** The output consists of one section for each element; the snippets of a file directly follow it; the relationships are
    expressed by sections and by the place of the files. *)
Theorem C28_every_element_once :
  forall (O : oracles) (d : document), NoDup (element_ids d) -> forall text, write_document O d = Ok text ->
  exists l, Layout O text l /\ documents_of l = [do_ci d] /\ packages_of l = do_packages d
    /\ Permutation (files_of l) (do_files d) /\ Permutation (snippets_of l) (do_snippets d)
    /\ extracted_of l = do_extracted d /\ annotations_of l = do_annotations d
    /\ snippets_in_place (map fi_id (do_files d)) None l
    /\ Permutation (relationships_of l ++ placed None l) (flat_map (expressed d) (do_relationships d)).
Proof. exact TvSections.document_sections. Qed.
Print Assumptions C28_every_element_once.
Example C28_sample : NoDup (element_ids (sample_document $"SPDX-2.3")) /\ is_ok (write_document sample_oracles (sample_document $"SPDX-2.3")) = true.
Proof. split; [repeat constructor; cbn; intuition discriminate|vm_compute; reflexivity]. Qed.

(** ** C29 *)
(** Lines "Tag: value" lex to the tag and one token for the value. *)
Theorem C29_lines_lex :
  forall (text : pystr) (l : list (tag * token)), Lines text l -> map fst (tokenize text) = tokens_of l.
Proof. exact TvErrors.lines_tokens. Qed.
Print Assumptions C29_lines_lex.
(** What the writer emits for a value, in front of other lines. *)
Theorem C29_written_value :
  forall t v k s text l, Spelled v k -> Lines text l -> write_value (tag_name t) v = Ok s ->
  map fst (tokenize (s ++ text)) = tag_tok t :: k :: map fst (tokenize text).
Proof. exact TvErrors.written_value. Qed.
Print Assumptions C29_written_value.
Theorem C29_written_text :
  forall t v s text l, Text v -> Lines text l -> write_text (tag_name t) v = Ok s ->
  exists k, map fst (tokenize (s ++ text)) = tag_tok t :: k :: map fst (tokenize text) /\ text_or_line_value k = v.
Proof. exact TvErrors.written_text. Qed.
Print Assumptions C29_written_text.
Theorem C29_written_checksum :
  forall (c : checksum) (v : pystr), TvChecksum c -> write_checksum_to_tag_value c = Ok v -> tv_parse_checksum v = Ok c.
Proof. exact TvMore.checksum_comes_back. Qed.
Print Assumptions C29_written_checksum.
(** a file with two lines, one of them with a text of two lines *)
Definition two_lines : pystr := $"a" ++ [LF] ++ $"PackageName: b".
Example C29_sample : exists text, Lines text
    [(T_PackageName, {| tk_type := TT_LINE; tk_value := $"pkg" |});
     (T_PackageComment, {| tk_type := TT_TEXT; tk_value := $"<text>" ++ two_lines ++ $"</text>" |})]
  /\ Text two_lines.
Proof.
  eexists. split.
  - apply Lines_field; [apply Sp_line, TvSamples.line_by_test; vm_compute; reflexivity|]. apply Lines_field; [apply Sp_text; vm_compute; reflexivity|apply Lines_nil].
  - right. right. split; [apply has_char_In; vm_compute; reflexivity|]. split; [apply has_char_false; vm_compute; reflexivity|vm_compute; reflexivity].
Qed.

(** ** C30 *)
Theorem C30_tag_value_round_trip :
  forall (O : oracles) (d : document), TvDocument O d ->
  exists text d', write_document O d = Ok text /\ tv_parse_from_file O text = Ok d' /\ TvSame d d'.
Proof. exact TvDocFacts.tag_value_round_trip. Qed.
Print Assumptions C30_tag_value_round_trip.
(** The relationships are the same, up to order, if those between a package and a file have the type CONTAINS and no comment. *)
Theorem C30_relationships :
  forall (d d' : document), TvSame d d' ->
  (forall r, In r (do_relationships d) -> packs d r = true -> re_type r = RT_CONTAINS /\ re_comment r = None) ->
  Permutation (do_relationships d) (do_relationships d').
Proof. exact TvMore.same_relationships. Qed.
Print Assumptions C30_relationships.
Example C30_sample : TvDocument sample_oracles (sample_document $"SPDX-2.3").
Proof. exact TvSamples.sample_tv. Qed.
(** Documents outside that class. *)
Definition tv_there_and_back (O : oracles) (d : document) : result document := do text <- write_document O d; tv_parse_from_file O text.
Definition with_packages (d : document) (l : list package) (rs : list relationship) : document :=
  {| do_ci := do_ci d; do_packages := l; do_files := do_files d; do_snippets := do_snippets d; do_annotations := do_annotations d;
     do_relationships := rs; do_extracted := do_extracted d |}.
Definition excluding (p : package) (l : list pystr) : package :=
  {| pk_id := pk_id p; pk_name := pk_name p; pk_download := pk_download p; pk_version := pk_version p; pk_file_name := pk_file_name p;
     pk_supplier := pk_supplier p; pk_originator := pk_originator p; pk_files_analyzed := pk_files_analyzed p;
     pk_verif := Some {| vc_value := sha1; vc_excluded := l |};
     pk_checksums := pk_checksums p; pk_homepage := pk_homepage p; pk_source_info := pk_source_info p; pk_concluded := pk_concluded p;
     pk_info := pk_info p; pk_declared := pk_declared p; pk_lic_comment := pk_lic_comment p; pk_copyright := pk_copyright p;
     pk_summary := pk_summary p; pk_description := pk_description p; pk_comment := pk_comment p; pk_refs := pk_refs p;
     pk_attribution := pk_attribution p; pk_purpose := pk_purpose p; pk_release := pk_release p; pk_built := pk_built p;
     pk_valid_until := pk_valid_until p |}.
Definition named (n : pystr) (c : option pystr) (p : package) : package :=
  {| pk_id := pk_id p; pk_name := n; pk_download := pk_download p; pk_version := pk_version p; pk_file_name := pk_file_name p;
     pk_supplier := pk_supplier p; pk_originator := pk_originator p; pk_files_analyzed := pk_files_analyzed p; pk_verif := pk_verif p;
     pk_checksums := pk_checksums p; pk_homepage := pk_homepage p; pk_source_info := pk_source_info p; pk_concluded := pk_concluded p;
     pk_info := pk_info p; pk_declared := pk_declared p; pk_lic_comment := pk_lic_comment p; pk_copyright := pk_copyright p;
     pk_summary := pk_summary p; pk_description := pk_description p; pk_comment := c; pk_refs := pk_refs p;
     pk_attribution := pk_attribution p; pk_purpose := pk_purpose p; pk_release := pk_release p; pk_built := pk_built p;
     pk_valid_until := pk_valid_until p |}.
Local Notation base := (sample_document $"SPDX-2.3").
Local Notation A := $"SPDXRef-Package-A".
Local Notation described := (rel $"SPDXRef-DOCUMENT" RT_DESCRIBES A).
Local Notation valid d := (Validation.validate_full_spdx_document sample_oracles d None = []).
Local Lemma tv_back O d r : tv_there_and_back O d = r -> is_ok (write_document O d) = true -> exists text, write_document O d = Ok text /\ tv_parse_from_file O text = r.
Proof. unfold tv_there_and_back. destruct (write_document O d) as [t|e]; [|discriminate]. intros H _. exists t. split; [reflexivity|exact H]. Qed.
(** A verification code with two excluded files is read back with one. *)
Theorem C30_excluded_files_refuted :
  exists O d text d', Validation.validate_full_spdx_document O d None = [] /\ write_document O d = Ok text /\ tv_parse_from_file O text = Ok d'
    /\ map pk_verif (do_packages d) = [Some {| vc_value := sha1; vc_excluded := [$"./a"; $"./b"] |}]
    /\ map pk_verif (do_packages d') = [Some {| vc_value := sha1; vc_excluded := [$"./a ./b"] |}].
Proof.
  set (d := with_packages base [excluding (sample_package A) [$"./a"; $"./b"]] [described]).
  assert (T : (do d' <- tv_there_and_back sample_oracles d; Ok (map pk_verif (do_packages d'))) = Ok [Some {| vc_value := sha1; vc_excluded := [$"./a ./b"] |}]) by (vm_compute; reflexivity).
  destruct (tv_there_and_back sample_oracles d) as [d'|e] eqn:E; [|discriminate T]. destruct (tv_back sample_oracles d _ E) as (text & J1 & J2); [vm_compute; reflexivity|].
  exists sample_oracles, d, text, d'. split; [vm_compute; reflexivity|]. split; [exact J1|]. split; [exact J2|]. split; [reflexivity|]. cbn [bind] in T. congruence.
Qed.
Print Assumptions C30_excluded_files_refuted.
(** A relationship "package contains file" with a comment comes back twice. *)
Theorem C30_commented_containment_refuted :
  exists O d text d', Validation.validate_full_spdx_document O d None = [] /\ write_document O d = Ok text /\ tv_parse_from_file O text = Ok d'
    /\ List.length (do_relationships d) = 2 /\ List.length (do_relationships d') = 3.
Proof.
  set (d := with_packages base [sample_package A]
              [described; {| re_id := A; re_type := RT_CONTAINS; re_related := NVal $"SPDXRef-File-1"; re_comment := Some $"why" |}]).
  assert (T : (do d' <- tv_there_and_back sample_oracles d; Ok (List.length (do_relationships d'))) = Ok 3) by (vm_compute; reflexivity).
  destruct (tv_there_and_back sample_oracles d) as [d'|e] eqn:E; [|discriminate T]. destruct (tv_back sample_oracles d _ E) as (text & J1 & J2); [vm_compute; reflexivity|].
  exists sample_oracles, d, text, d'. split; [vm_compute; reflexivity|]. split; [exact J1|]. split; [exact J2|]. split; [reflexivity|]. cbn [bind] in T. congruence.
Qed.
Print Assumptions C30_commented_containment_refuted.
(** Valid documents whose output cannot be read: a checksum of an external document that is not SHA1; a name with a
    special beginning. *)
Definition with_ref (d : document) (r : ext_doc_ref) : document :=
  {| do_ci := let c := do_ci d in
       {| ci_version := ci_version c; ci_id := ci_id c; ci_name := ci_name c; ci_namespace := ci_namespace c; ci_creators := ci_creators c;
          ci_created := ci_created c; ci_creator_comment := ci_creator_comment c; ci_data_license := ci_data_license c;
          ci_refs := [r]; ci_list_version := ci_list_version c; ci_doc_comment := ci_doc_comment c |};
     do_packages := do_packages d; do_files := do_files d; do_snippets := do_snippets d; do_annotations := do_annotations d;
     do_relationships := do_relationships d; do_extracted := do_extracted d |}.
Local Lemma unreadable d : tv_there_and_back sample_oracles d = tv_there_and_back sample_oracles d ->
  match tv_there_and_back sample_oracles d with Raise (EParsing _) => true | _ => false end = true -> is_ok (write_document sample_oracles d) = true ->
  exists text ms, write_document sample_oracles d = Ok text /\ tv_parse_from_file sample_oracles text = Raise (EParsing ms).
Proof.
  intros _ T K. destruct (tv_there_and_back sample_oracles d) as [d'|e] eqn:E; [discriminate T|]. destruct (tv_back sample_oracles d _ E K) as (text & J1 & J2).
  destruct e; try discriminate T. eauto.
Qed.
Theorem C30_external_checksums_refuted :
  exists O d text ms, Validation.validate_full_spdx_document O d None = [] /\ write_document O d = Ok text /\ tv_parse_from_file O text = Raise (EParsing ms)
    /\ map (fun r => ck_alg (edr_checksum r)) (ci_refs (do_ci d)) = [CA_MD5].
Proof.
  set (d := with_ref base {| edr_id := $"DocumentRef-ext"; edr_uri := $"https://example.com/ext";
                             edr_checksum := {| ck_alg := CA_MD5; ck_value := $"624c1abb3664f4b35547e7c73864ad24" |} |}).
  destruct (unreadable d eq_refl) as (text & ms & J1 & J2); [vm_compute; reflexivity|vm_compute; reflexivity|].
  exists sample_oracles, d, text, ms. split; [vm_compute; reflexivity|]. split; [exact J1|]. split; [exact J2|]. reflexivity.
Qed.
Print Assumptions C30_external_checksums_refuted.
Theorem C30_special_names_refuted :
  exists O d text ms, Validation.validate_full_spdx_document O d None = [] /\ write_document O d = Ok text /\ tv_parse_from_file O text = Raise (EParsing ms)
    /\ map pk_name (do_packages d) = [$"Tool: hammer"].
Proof.
  set (d := with_packages base [named $"Tool: hammer" None (sample_package A)] [described]).
  destruct (unreadable d eq_refl) as (text & ms & J1 & J2); [vm_compute; reflexivity|vm_compute; reflexivity|].
  exists sample_oracles, d, text, ms. split; [vm_compute; reflexivity|]. split; [exact J1|]. split; [exact J2|]. reflexivity.
Qed.
Print Assumptions C30_special_names_refuted.

(** ** C31 *)
(** A text with a line break is one token, whatever its lines look like. *)
Theorem C31_no_injection :
  forall t v s text l, In LF v -> contains $"</text>" v = false -> Lines text l -> write_text (tag_name t) v = Ok s ->
  map fst (tokenize (s ++ text)) =
    tag_tok t :: {| tk_type := TT_TEXT; tk_value := $"<text>" ++ v ++ $"</text>" |} :: map fst (tokenize text).
Proof. exact TvErrors.written_multiline. Qed.
Print Assumptions C31_no_injection.
Example C31_sample : In LF two_lines /\ contains $"</text>" two_lines = false /\ is_ok (write_text (tag_name T_PackageComment) two_lines) = true.
Proof. split; [apply has_char_In; vm_compute; reflexivity|]. split; vm_compute; reflexivity. Qed.
(** With the end mark in a comment, a relationship is injected; with a line break in a name, a summary. *)
Definition commenting (d : document) (v : pystr) : document :=
  {| do_ci := do_ci d; do_packages := do_packages d; do_files := do_files d; do_snippets := do_snippets d;
     do_annotations := [{| an_id := A; an_type := ANT_OTHER; an_annotator := sample_person; an_date := sample_date; an_comment := v |}];
     do_relationships := do_relationships d; do_extracted := do_extracted d |}.
Theorem C31_end_mark_refuted :
  exists O d text d', Validation.validate_full_spdx_document O d None = [] /\ write_document O d = Ok text /\ tv_parse_from_file O text = Ok d'
    /\ do_relationships d = [described]
    /\ do_relationships d' = [described; {| re_id := A; re_type := RT_BUILD_TOOL_OF; re_related := NVal $"SPDXRef-File-1"; re_comment := Some $"y" |}].
Proof.
  set (d := commenting (with_packages base [sample_package A] [described])
    ($"x</text>" ++ [LF] ++ $"Relationship: SPDXRef-Package-A BUILD_TOOL_OF SPDXRef-File-1" ++ [LF] ++ $"RelationshipComment: <text>y")).
  assert (T : (do d' <- tv_there_and_back sample_oracles d; Ok (do_relationships d'))
              = Ok [described; {| re_id := A; re_type := RT_BUILD_TOOL_OF; re_related := NVal $"SPDXRef-File-1"; re_comment := Some $"y" |}]) by (vm_compute; reflexivity).
  destruct (tv_there_and_back sample_oracles d) as [d'|e] eqn:E; [|discriminate T]. destruct (tv_back sample_oracles d _ E) as (text & J1 & J2); [vm_compute; reflexivity|].
  exists sample_oracles, d, text, d'. split; [vm_compute; reflexivity|]. split; [exact J1|]. split; [exact J2|]. split; [reflexivity|]. cbn [bind] in T. congruence.
Qed.
Print Assumptions C31_end_mark_refuted.
Theorem C31_names_refuted :
  exists O d text d', Validation.validate_full_spdx_document O d None = [] /\ write_document O d = Ok text /\ tv_parse_from_file O text = Ok d'
    /\ map (fun p => (pk_name p, pk_summary p)) (do_packages d) = [($"x" ++ [LF] ++ $"PackageSummary: y", None)]
    /\ map (fun p => (pk_name p, pk_summary p)) (do_packages d') = [($"x", Some $"y")].
Proof.
  set (d := with_packages base [named ($"x" ++ [LF] ++ $"PackageSummary: y") None (sample_package A)] [described]).
  assert (T : (do d' <- tv_there_and_back sample_oracles d; Ok (map (fun p => (pk_name p, pk_summary p)) (do_packages d'))) = Ok [($"x", Some $"y")]) by (vm_compute; reflexivity).
  destruct (tv_there_and_back sample_oracles d) as [d'|e] eqn:E; [|discriminate T]. destruct (tv_back sample_oracles d _ E) as (text & J1 & J2); [vm_compute; reflexivity|].
  exists sample_oracles, d, text, d'. split; [vm_compute; reflexivity|]. split; [exact J1|]. split; [exact J2|]. split; [reflexivity|]. cbn [bind] in T. congruence.
Qed.
Print Assumptions C31_names_refuted.

(** ** C32 *)
Theorem C32_repeated_element_tag :
  forall (O : oracles) text pre g1 mid g2 post, Attributes text (pre ++ g1 :: mid ++ g2 :: post) -> In (g_tag g1) element_tags ->
  g_tag g2 = g_tag g1 -> (forall g, In g mid -> ~ In (g_tag g) start_tags) -> exists e, tv_parse O text = Raise e.
Proof. exact TvRepeat.repeated_element_tag. Qed.
Print Assumptions C32_repeated_element_tag.
Theorem C32_repeated_document_tag :
  forall (O : oracles) text pre g1 mid g2 post, Attributes text (pre ++ g1 :: mid ++ g2 :: post) -> In (g_tag g1) document_tags ->
  g_tag g2 = g_tag g1 -> exists e, tv_parse O text = Raise e.
Proof. exact TvRepeat.repeated_document_tag. Qed.
Print Assumptions C32_repeated_document_tag.
Example C32_sample : exists text g1 g2, Attributes text ([] ++ g1 :: [] ++ g2 :: []) /\ In (g_tag g1) element_tags /\ g_tag g2 = g_tag g1.
Proof.
  eexists. exists {| g_tag := T_PackageVersion; g_val := {| tk_type := TT_LINE; tk_value := $"1" |}; g_com := None |},
                  {| g_tag := T_PackageVersion; g_val := {| tk_type := TT_LINE; tk_value := $"2" |}; g_com := None |}.
  split; [split|split; [cbn; tauto|reflexivity]].
  - cbn [app flat_map fields g_tag g_val g_com]. apply Lines_field; [apply Sp_line, TvSamples.line_by_test; vm_compute; reflexivity|].
    apply Lines_field; [apply Sp_line, TvSamples.line_by_test; vm_compute; reflexivity|apply Lines_nil].
  - repeat constructor; eexists; (split; reflexivity).
Qed.
Example C32_document_sample : exists text g1 g2, Attributes text ([] ++ g1 :: [] ++ g2 :: []) /\ In (g_tag g1) document_tags /\ g_tag g2 = g_tag g1.
Proof.
  eexists. exists {| g_tag := T_DocumentName; g_val := {| tk_type := TT_LINE; tk_value := $"1" |}; g_com := None |},
                  {| g_tag := T_DocumentName; g_val := {| tk_type := TT_LINE; tk_value := $"2" |}; g_com := None |}.
  split; [split|split; [cbn; tauto|reflexivity]].
  - cbn [app flat_map fields g_tag g_val g_com]. apply Lines_field; [apply Sp_line, TvSamples.line_by_test; vm_compute; reflexivity|].
    apply Lines_field; [apply Sp_line, TvSamples.line_by_test; vm_compute; reflexivity|apply Lines_nil].
  - repeat constructor; eexists; (split; reflexivity).
Qed.
(** The second of two identifiers silently replaces the first one. *)
Definition twice_identified : pystr :=
  $"SPDXVersion: SPDX-2.3" ++ [LF] ++ $"DataLicense: CC0-1.0" ++ [LF] ++ $"SPDXID: SPDXRef-DOCUMENT" ++ [LF] ++ $"DocumentName: doc" ++ [LF]
  ++ $"DocumentNamespace: https://example.com/doc" ++ [LF] ++ $"Creator: Person: Jane" ++ [LF] ++ $"Created: 2023-02-28T23:59:07Z" ++ [LF]
  ++ $"PackageName: pkg" ++ [LF] ++ $"SPDXID: SPDXRef-first" ++ [LF] ++ $"SPDXID: SPDXRef-second" ++ [LF] ++ $"PackageDownloadLocation: NONE" ++ [LF].
Theorem C32_identifiers_refuted :
  exists O d, tv_parse O twice_identified = Ok d /\ map pk_id (do_packages d) = [$"SPDXRef-second"].
Proof.
  assert (T : (do d' <- tv_parse sample_oracles twice_identified; Ok (map pk_id (do_packages d'))) = Ok [$"SPDXRef-second"]) by (vm_compute; reflexivity).
  destruct (tv_parse sample_oracles twice_identified) as [d'|e] eqn:E; [|discriminate T]. exists sample_oracles, d'. split; [exact E|]. cbn [bind] in T. congruence.
Qed.
Print Assumptions C32_identifiers_refuted.

(** ** C49 *)
(** Every text is either read, or rejected with a parsing error, or it contains a malformed relationship and the parser stops with
    the KeyError of this tag; the library for licenses may only raise its own error. *)
Theorem C49_only_parsing_errors :
  forall (O : oracles), (forall s e, o_lic_parse O s = Raise e -> exists m, e = EExpr m) ->
  forall text e, tv_parse_from_file O text = Raise e ->
  (exists ms, e = EParsing ms)
  \/ e = EKey $"Relationship" /\ exists before after, token_types text = before ++ TT_TAG T_Relationship :: after /\ Malformed after.
Proof. exact TvKey.file_raises. Qed.
Print Assumptions C49_only_parsing_errors.
(** A text with a malformed relationship is not read, unless the relationship follows a bare SPDXID, with which it is skipped. *)
Theorem C49_malformed_not_read :
  forall (O : oracles) text before after, token_types text = before ++ TT_TAG T_Relationship :: after -> Malformed after ->
  (forall b, before <> b ++ [TT_TAG T_SPDXID]) -> exists e, tv_parse_from_file O text = Raise e.
Proof. exact TvKey.malformed_not_read. Qed.
Print Assumptions C49_malformed_not_read.
Example C49_sample :
  (forall s e, o_lic_parse sample_oracles s = Raise e -> exists m, e = EExpr m)
  /\ tv_parse_from_file sample_oracles ($"SPDXVersion: SPDX-2.3" ++ [LF] ++ $"Relationship: NONE" ++ [LF]) = Raise (EKey $"Relationship")
  /\ token_types ($"SPDXVersion: SPDX-2.3" ++ [LF] ++ $"Relationship: NONE" ++ [LF]) = [TT_TAG T_SPDXVersion; TT_LINE] ++ TT_TAG T_Relationship :: [TT_NONE]
  /\ Malformed [TT_NONE].
Proof. split; [exact TvMore.sample_raises|]. split; [vm_compute; reflexivity|]. split; [vm_compute; reflexivity|]. split; reflexivity. Qed.
(** The KeyError is an exception that users do not expect. *)
Theorem C49_malformed_relationship_refuted :
  exists O text, (forall s e, o_lic_parse O s = Raise e -> exists m, e = EExpr m) /\ tv_parse_from_file O text = Raise (EKey $"Relationship").
Proof.
  exists sample_oracles, ($"Relationship: NONE" ++ [LF]). split; [|vm_compute; reflexivity].
  exact TvMore.sample_raises.
Qed.
Print Assumptions C49_malformed_relationship_refuted.
