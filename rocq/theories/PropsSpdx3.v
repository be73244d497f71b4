(** Theorems about the writers and the command line tool of SPDX 3. *)
From Verif Require Import Py Data Oracles Basics Json DocUtils Payload Bump BumpSpec Jsonld JsonldSpec Samples BumpMore PropsBump.
From Verif Require Import Validation Console ConsoleSpec BumpLogSpec Files Cli3 Cli3Spec PropsFiles.
From Verif Require JsonConv JsonldBump ConsoleDoc Cli3Facts.

(** * C57: JSON-LD *)

(** The payload that a document is converted to has an element for every id. *)
Theorem C57_elements :
  forall (d : document) (st : bstate) (doc : nat), bump_spdx_document d = Ok (st, doc) -> exists es, PayloadElements st es.
Proof. exact JsonldBump.payload_has_elements. Qed.
Print Assumptions C57_elements.
(** The graph that is written has exactly one entry for each of them, in the same order, with exactly the fields that
    have a value. *)
Theorem C57_entries :
  forall (d : document) (st : bstate) (doc : nat) (es : list element3) (graph : list json),
  bump_spdx_document d = Ok (st, doc) -> PayloadElements st es ->
  (convert_payload_to_json_ld st = Ok graph <-> Forall2 (Entry st) es graph).
Proof. exact JsonldBump.payload_entries. Qed.
Print Assumptions C57_entries.
(** Only a point in time that cannot be written keeps the payload from being written. *)
Theorem C57_fails_only_on_dates :
  forall (d : document) (st : bstate) (doc : nat) (e : exn),
  bump_spdx_document d = Ok (st, doc) -> convert_payload_to_json_ld st = Raise e ->
  exists t, In t (times d) /\ datetime_to_iso_string t = Raise e.
Proof. exact JsonldBump.payload_fails. Qed.
Print Assumptions C57_fails_only_on_dates.
Theorem C57_succeeds :
  forall (d : document) (st : bstate) (doc : nat),
  bump_spdx_document d = Ok (st, doc) -> Forall CanBeWritten (times d) -> exists graph, convert_payload_to_json_ld st = Ok graph.
Proof. exact JsonldBump.payload_succeeds. Qed.
Print Assumptions C57_succeeds.
(** Different members of an enumeration are written as different words. *)
Theorem C57_words_distinct :
  forall (words : list (pystr * pystr)) (n m : pystr),
  In words [hash_words; purpose_words; annotation_words; identifier_words; reference_words; relationship_words; completeness_words;
            scope_words; linkage_words; condition_words] ->
  In n (map fst words) -> In m (map fst words) -> word words n = word words m -> n = m.
Proof. exact JsonldBump.words_distinct. Qed.
Print Assumptions C57_words_distinct.
(** The entries of a graph may share their @id: a relationship that is merged into another one is written twice. *)
Definition id_of (j : json) : option json := match j with JObj kvs => assoc $"@id" kvs | _ => None end.
Definition same_ids (st : bstate) (j k : nat) : bool :=
  match convert_payload_to_json_ld st with
  | Ok graph => match nth_error graph j, nth_error graph k with
                | Some a, Some b => match id_of a, id_of b with Some (JStr x), Some (JStr y) => str_eqb x y | _, _ => false end
                | _, _ => false
                end
  | Raise _ => false
  end.
Lemma same_ids_are (st : bstate) (j k : nat) : same_ids st j k = true ->
  exists graph a b, convert_payload_to_json_ld st = Ok graph /\ nth_error graph j = Some a /\ nth_error graph k = Some b /\ id_of a = id_of b.
Proof.
  unfold same_ids. destruct (convert_payload_to_json_ld st) as [graph|e]; [|discriminate].
  destruct (nth_error graph j) as [a|] eqn:A; [|discriminate]. destruct (nth_error graph k) as [b|] eqn:B; [|discriminate]. intro T.
  exists graph, a, b. split; [reflexivity|]. split; [exact A|]. split; [exact B|].
  destruct (id_of a) as [[]|]; try discriminate. destruct (id_of b) as [[]|]; try discriminate. apply PyFacts.str_eqb_eq in T. congruence.
Qed.
Theorem C57_ids_refuted :
  exists d st doc graph j k a b, bump_spdx_document d = Ok (st, doc) /\ convert_payload_to_json_ld st = Ok graph
    /\ j <> k /\ nth_error graph j = Some a /\ nth_error graph k = Some b /\ id_of a = id_of b.
Proof.
  assert (T : same_ids (bumped C39_last_commented) 9 10 = true) by (vm_compute; reflexivity).
  destruct (same_ids_are _ _ _ T) as (graph & a & b & G & A & B & E).
  exists C39_last_commented, (bumped C39_last_commented), (bumped_doc C39_last_commented), graph, 9, 10, a, b.
  split; [apply bumped_is; vm_compute; reflexivity|]. split; [exact G|]. split; [discriminate|]. split; [exact A|]. split; [exact B|exact E].
Qed.
Print Assumptions C57_ids_refuted.
Definition time_writable (t : datetime) : bool := match datetime_to_iso_string t with Ok _ => true | Raise _ => false end.
Example C57_sample : exists st doc es,
  bump_spdx_document C39_document = Ok (st, doc) /\ PayloadElements st es /\ List.length es = 14 /\ Forall CanBeWritten (times C39_document)
  /\ List.length (times C39_document) = 3.
Proof.
  assert (B : bump_spdx_document C39_document = Ok (bumped C39_document, bumped_doc C39_document)) by (apply bumped_is; vm_compute; reflexivity).
  destruct (JsonldBump.payload_has_elements _ _ _ B) as [es P]. exists (bumped C39_document), (bumped_doc C39_document), es.
  split; [exact B|]. split; [exact P|]. split; [|split; [|vm_compute; reflexivity]].
  - transitivity (List.length (map fst (b_map (bumped C39_document)))); [|vm_compute; reflexivity].
    clear - P. unfold PayloadElements in P. induction P; [reflexivity|cbn; congruence].
  - assert (W : forallb time_writable (times C39_document) = true) by (vm_compute; reflexivity). clear - W.
    rewrite forallb_forall in W. apply Forall_forall. intros t Ht. specialize (W t Ht). unfold time_writable in W. unfold CanBeWritten.
    destruct (datetime_to_iso_string t); [eauto|discriminate].
Qed.

(** * C58: the console output *)

(** The text has one block for each element of the payload, in order, with the fields of the class that have a value. *)
Theorem C58_blocks :
  forall (str_of_date : datetime -> pystr) (d : document) (st : bstate) (doc : nat) (es : list element3) (text : pystr),
  bump_spdx_document d = Ok (st, doc) -> PayloadElements st es ->
  (write_payload_to_console str_of_date st = (text, None)
   <-> exists blocks, Forall2 (Block str_of_date st) es blocks /\ text = payload_text blocks).
Proof. exact (fun sd d st doc es text B P => ConsoleDoc.console_blocks sd d st doc es B P text). Qed.
Print Assumptions C58_blocks.
(** If writing fails, then at the first element whose creation time cannot be written; the blocks of all elements before
    it have been written. *)
Theorem C58_fails_only_on_dates :
  forall (str_of_date : datetime -> pystr) (d : document) (st : bstate) (doc : nat) (es : list element3) (text : pystr) (e : exn),
  bump_spdx_document d = Ok (st, doc) -> PayloadElements st es -> write_payload_to_console str_of_date st = (text, Some e) ->
  exists before x after blocks t start,
    es = before ++ x :: after /\ Forall2 (Block str_of_date st) before blocks /\ creation_time st x = Some t
    /\ In t (times d) /\ datetime_to_iso_string t = Raise e /\ text = payload_text blocks ++ start.
Proof. exact (fun sd d st doc es text e B P => ConsoleDoc.console_fails sd d st doc es B P text e). Qed.
Print Assumptions C58_fails_only_on_dates.
Theorem C58_succeeds :
  forall (str_of_date : datetime -> pystr) (d : document) (st : bstate) (doc : nat) (es : list element3),
  bump_spdx_document d = Ok (st, doc) -> PayloadElements st es -> Forall CanBeWritten (times d) ->
  exists text, write_payload_to_console str_of_date st = (text, None).
Proof. exact ConsoleDoc.console_succeeds. Qed.
Print Assumptions C58_succeeds.
(** Copyright texts are never printed: documents whose JSON-LD differs have the same console output. *)
Definition with_copyright (c : nn pystr) (p : package) : package :=
  {| pk_id := pk_id p; pk_name := pk_name p; pk_download := pk_download p; pk_version := pk_version p;
     pk_file_name := pk_file_name p; pk_supplier := pk_supplier p; pk_originator := pk_originator p;
     pk_files_analyzed := pk_files_analyzed p; pk_verif := pk_verif p; pk_checksums := pk_checksums p;
     pk_homepage := pk_homepage p; pk_source_info := pk_source_info p;
     pk_concluded := pk_concluded p; pk_info := pk_info p; pk_declared := pk_declared p; pk_lic_comment := pk_lic_comment p;
     pk_copyright := Some c; pk_summary := pk_summary p; pk_description := pk_description p; pk_comment := pk_comment p;
     pk_refs := pk_refs p; pk_attribution := pk_attribution p; pk_purpose := pk_purpose p; pk_release := pk_release p;
     pk_built := pk_built p; pk_valid_until := pk_valid_until p |}.
Definition with_packages (ps : list package) (d : document) : document :=
  {| do_ci := do_ci d; do_packages := ps; do_files := do_files d; do_snippets := do_snippets d; do_annotations := do_annotations d;
     do_relationships := do_relationships d; do_extracted := do_extracted d |}.
Definition copyrighted (c : pystr) : document :=
  with_packages [with_copyright (NVal c) (plain_package $"SPDXRef-Package-A")] (plain_document []).
(** the copyright texts of the entries of a graph *)
Definition copyrights (st : bstate) : list (option json) :=
  match convert_payload_to_json_ld st with
  | Ok graph => map (fun j => match j with JObj kvs => assoc $"copyrightText" kvs | _ => None end) graph
  | Raise _ => []
  end.
Theorem C58_copyright_refuted :
  exists d d' st st' doc doc', bump_spdx_document d = Ok (st, doc) /\ bump_spdx_document d' = Ok (st', doc')
    /\ convert_payload_to_json_ld st <> convert_payload_to_json_ld st'
    /\ forall str_of_date, write_payload_to_console str_of_date st = write_payload_to_console str_of_date st'.
Proof.
  exists (copyrighted $"(c) me"), (copyrighted $"(c) you"), (bumped (copyrighted $"(c) me")), (bumped (copyrighted $"(c) you")),
    (bumped_doc (copyrighted $"(c) me")), (bumped_doc (copyrighted $"(c) you")).
  split; [apply bumped_is; vm_compute; reflexivity|]. split; [apply bumped_is; vm_compute; reflexivity|]. split.
  - intro H. assert (H' : copyrights (bumped (copyrighted $"(c) me")) = copyrights (bumped (copyrighted $"(c) you"))) by (unfold copyrights; rewrite H; reflexivity).
    clear H. vm_compute in H'. discriminate H'.
  - intro sd. vm_compute. reflexivity.
Qed.
Print Assumptions C58_copyright_refuted.
(** The hypotheses are those of C57_sample. *)
Example C58_sample : exists text, write_payload_to_console (fun _ => $"?") (bumped C39_document) = (text, None) /\ text <> [].
Proof.
  assert (T : match write_payload_to_console (fun _ => $"?") (bumped C39_document) with (_ :: _, None) => true | _ => false end = true) by (vm_compute; reflexivity).
  destruct (write_payload_to_console (fun _ => $"?") (bumped C39_document)) as [[|c text] [e|]]; try discriminate T. exists (c :: text). split; [reflexivity|discriminate].
Qed.

(** * C59: pyspdxtools3 *)

(** With an output file the exit status is 0 exactly if the document was accepted, converted and written. *)
Theorem C59_file_status :
  forall (E : environment3) (fs : files) (infile name version : pystr) (nov : bool), name <> [] -> name <> $"-" ->
  (r3_exit (main3 E fs infile (Some name) version nov) = Exit 0 <->
   exists d st doc graph context t,
     Accepted E fs infile version nov d /\ bump_spdx_document d = Ok (st, doc) /\ convert_payload_to_json_ld st = Ok graph
     /\ e3_context E = inl context /\ e_write_error (e3_base E) (name ++ $".jsonld") = None
     /\ e3_dump E (json_ld_file context graph) = (t, None)).
Proof. exact Cli3Facts.exit_0_file. Qed.
Print Assumptions C59_file_status.
(** Then the file NAME.jsonld contains the context and one entry for each element of the payload; no other file has
    changed, stdout has nothing but a line for each download location NONE, and stderr has the report (see C72). *)
Theorem C59_file :
  forall (E : environment3) (fs : files) (infile name version : pystr) (nov : bool), name <> [] -> name <> $"-" ->
  r3_exit (main3 E fs infile (Some name) version nov) = Exit 0 ->
  exists d st doc es graph context t,
    Accepted E fs infile version nov d /\ bump_spdx_document d = Ok (st, doc) /\ PayloadElements st es /\ Forall2 (Entry st) es graph
    /\ e3_context E = inl context /\ e3_dump E (JObj [($"@context", context); ($"@graph", JArr graph)]) = (t, None)
    /\ main3 E fs infile (Some name) version nov
       = {| r3_exit := Exit 0; r3_stderr := (if nov then [] else [$"The document is valid."]) ++ report d; r3_stdout := none_lines d;
            r3_files := put_file (name ++ $".jsonld") t fs |}.
Proof. exact Cli3Facts.written_file. Qed.
Print Assumptions C59_file.
(** With "-" the payload is printed, after these lines; no file changes. *)
Theorem C59_console_status :
  forall (E : environment3) (fs : files) (infile version : pystr) (nov : bool),
  r3_exit (main3 E fs infile (Some $"-") version nov) = Exit 0 <->
  exists d st doc text t,
    Accepted E fs infile version nov d /\ bump_spdx_document d = Ok (st, doc)
    /\ write_payload_to_console (e3_str_of_date E) st = (text, None) /\ e_text (e3_base E) text = (t, None).
Proof. exact Cli3Facts.exit_0_console. Qed.
Print Assumptions C59_console_status.
Theorem C59_console :
  forall (E : environment3) (fs : files) (infile version : pystr) (nov : bool),
  r3_exit (main3 E fs infile (Some $"-") version nov) = Exit 0 ->
  exists d st doc es blocks t,
    Accepted E fs infile version nov d /\ bump_spdx_document d = Ok (st, doc) /\ PayloadElements st es
    /\ Forall2 (Block (e3_str_of_date E) st) es blocks /\ e_text (e3_base E) (payload_text blocks) = (t, None)
    /\ main3 E fs infile (Some $"-") version nov
       = {| r3_exit := Exit 0; r3_stderr := (if nov then [] else [$"The document is valid."]) ++ report d; r3_stdout := none_lines d ++ t;
            r3_files := fs |}.
Proof. exact Cli3Facts.printed_payload. Qed.
Print Assumptions C59_console.
(** Without an output file the exit status is the verdict. *)
Theorem C59_verdict :
  forall (E : environment3) (fs : files) (infile : pystr) (outfile : option pystr) (version : pystr) (nov : bool),
  outfile = None \/ outfile = Some [] ->
  (r3_exit (main3 E fs infile outfile version nov) = Exit 0 <-> exists d, Accepted E fs infile version nov d).
Proof. exact Cli3Facts.exit_0_none. Qed.
Print Assumptions C59_verdict.
(** For an invalid document exactly its messages are printed, and nothing is written. *)
Theorem C59_invalid :
  forall (E : environment3) (fs : files) (infile : pystr) (outfile : option pystr) (version : pystr) (d : document),
  parse_any_file (e3_base E) fs infile = inl d -> validate_full_spdx_document (e_oracles (e3_base E)) d (Some version) <> [] ->
  main3 E fs infile outfile version false
  = {| r3_exit := Exit 1;
       r3_stderr := $"The document is invalid. The following issues have been found:"
                    :: map vm_text (validate_full_spdx_document (e_oracles (e3_base E)) d (Some version));
       r3_stdout := []; r3_files := fs |}.
Proof. exact Cli3Facts.invalid_document. Qed.
Print Assumptions C59_invalid.
(** Validity is claimed exactly for valid documents, whatever becomes of the conversion. *)
Theorem C59_valid_claim :
  forall (E : environment3) (fs : files) (infile : pystr) (outfile : option pystr) (version : pystr),
  In $"The document is valid." (r3_stderr (main3 E fs infile outfile version false)) <-> exists d, Accepted E fs infile version false d.
Proof. exact Cli3Facts.valid_claim. Qed.
Print Assumptions C59_valid_claim.
(** A file changes only if it is the output file of an accepted and completely converted document, also if the run ends
    with an exception. *)
Theorem C59_changed_files :
  forall (E : environment3) (fs : files) (infile : pystr) (outfile : option pystr) (version : pystr) (nov : bool) (n : pystr),
  r3_files (main3 E fs infile outfile version nov) n <> fs n ->
  exists d name st doc graph context,
    Accepted E fs infile version nov d /\ outfile = Some name /\ n = name ++ $".jsonld" /\ name <> [] /\ name <> $"-"
    /\ bump_spdx_document d = Ok (st, doc) /\ convert_payload_to_json_ld st = Ok graph /\ e3_context E = inl context
    /\ r3_files (main3 E fs infile outfile version nov) n = Some (fst (e3_dump E (json_ld_file context graph))).
Proof. exact Cli3Facts.changed_files. Qed.
Print Assumptions C59_changed_files.
(** The input file is never overwritten, whatever the output file is called. *)
Theorem C59_input_kept :
  forall (E : environment3) (fs : files) (infile : pystr) (outfile : option pystr) (version : pystr) (nov : bool),
  r3_files (main3 E fs infile outfile version nov) infile = fs infile.
Proof. exact Cli3Facts.input_kept. Qed.
Print Assumptions C59_input_kept.
(** Every accepted document that can be converted is written, if its dates and the file can be. *)
Theorem C59_writes :
  forall (E : environment3) (fs : files) (infile name version : pystr) (nov : bool) (d : document), name <> [] -> name <> $"-" ->
  Accepted E fs infile version nov d -> (exists st doc, bump_spdx_document d = Ok (st, doc)) -> Forall CanBeWritten (times d) ->
  (exists context, e3_context E = inl context) -> e_write_error (e3_base E) (name ++ $".jsonld") = None ->
  (forall j, exists t, e3_dump E j = (t, None)) ->
  r3_exit (main3 E fs infile (Some name) version nov) = Exit 0.
Proof. exact Cli3Facts.convertible_accepted. Qed.
Print Assumptions C59_writes.

(** An environment in which three files can be read. *)
Definition json_of (d : document) : json := match JsonConv.convert_document sample_oracles d with Ok j => j | Raise _ => JNull end.
Definition without_location (p : package) : package :=
  {| pk_id := pk_id p; pk_name := pk_name p; pk_download := NNone; pk_version := pk_version p;
     pk_file_name := pk_file_name p; pk_supplier := pk_supplier p; pk_originator := pk_originator p;
     pk_files_analyzed := pk_files_analyzed p; pk_verif := pk_verif p; pk_checksums := pk_checksums p;
     pk_homepage := pk_homepage p; pk_source_info := pk_source_info p;
     pk_concluded := pk_concluded p; pk_info := pk_info p; pk_declared := pk_declared p; pk_lic_comment := pk_lic_comment p;
     pk_copyright := pk_copyright p; pk_summary := pk_summary p; pk_description := pk_description p; pk_comment := pk_comment p;
     pk_refs := pk_refs p; pk_attribution := pk_attribution p; pk_purpose := pk_purpose p; pk_release := pk_release p;
     pk_built := pk_built p; pk_valid_until := pk_valid_until p |}.
Definition sample_json (text : pystr) : json :=
  if str_eqb text $"none" then json_of (with_packages (map without_location (do_packages C39_document)) C39_document)
  else if str_eqb text $"2.2" then json_of (sample_document $"SPDX-2.2")
  else json_of C39_document.
Definition sample_environment3 : environment3 :=
  let E := sample_environment in
  {| e3_base := {| e_oracles := e_oracles E; e_read_error := e_read_error E; e_write_error := e_write_error E;
                   e_json_load := fun t => inl (sample_json t); e_yaml_load := e_yaml_load E; e_xml_parse := e_xml_parse E;
                   e_rdf_parse := e_rdf_parse E; e_json_dump := e_json_dump E; e_yaml_dump := e_yaml_dump E;
                   e_xml_unparse := e_xml_unparse E; e_rdf_serialize := e_rdf_serialize E; e_rdf_library := e_rdf_library E;
                   e_label := e_label E; e_text := e_text E; e_partial := e_partial E; e_graphs := e_graphs E; e_draw := e_draw E |};
     e3_context := inl (JObj []); e3_dump := fun _ => ($"{}", None); e3_str_of_date := fun _ => $"?" |}.
Definition sample_files : files := fun n =>
  if str_eqb n $"a.json" then Some $"" else if str_eqb n $"none.json" then Some $"none" else if str_eqb n $"old.json" then Some $"2.2" else None.
Definition exit_code (r : run3) : option Z := match r3_exit r with Exit z => Some z | Crash _ => None end.
Example C59_sample :
  r3_exit (main3 sample_environment3 sample_files $"a.json" (Some $"out") $"SPDX-2.3" false) = Exit 0
  /\ r3_exit (main3 sample_environment3 sample_files $"a.json" (Some $"-") $"SPDX-2.3" false) = Exit 0
  /\ r3_exit (main3 sample_environment3 sample_files $"a.json" None $"SPDX-2.3" false) = Exit 0
  /\ r3_exit (main3 sample_environment3 sample_files $"old.json" (Some $"out") $"SPDX-2.3" false) = Exit 1
  /\ r3_files (main3 sample_environment3 sample_files $"a.json" (Some $"out") $"SPDX-2.3" false) $"out.jsonld" = Some $"{}".
Proof. repeat split; vm_compute; reflexivity. Qed.
(** A document without any problem is called invalid, if it is not of the version that the tool assumes. *)
Definition rejected (version : pystr) : bool :=
  match parse_any_file (e3_base sample_environment3) sample_files $"old.json" with
  | inl d => negb (truthy_list (validate_full_spdx_document sample_oracles d None))
             && match exit_code (main3 sample_environment3 sample_files $"old.json" None version false) with Some 1%Z => true | _ => false end
  | inr _ => false
  end.
Theorem C59_default_version_refuted :
  exists E fs infile d, parse_any_file (e3_base E) fs infile = inl d /\ validate_full_spdx_document (e_oracles (e3_base E)) d None = []
    /\ r3_exit (main3 E fs infile None $"SPDX-2.3" false) = Exit 1.
Proof.
  exists sample_environment3, sample_files, $"old.json". assert (T : rejected $"SPDX-2.3" = true) by (vm_compute; reflexivity). unfold rejected in T.
  destruct (parse_any_file (e3_base sample_environment3) sample_files $"old.json") as [d|f]; [|discriminate T]. exists d. split; [reflexivity|].
  apply andb_prop in T as [T1 T2]. split.
  - change (e_oracles (e3_base sample_environment3)) with sample_oracles. destruct (validate_full_spdx_document sample_oracles d None); [reflexivity|discriminate T1].
  - unfold exit_code in T2. destruct (r3_exit (main3 sample_environment3 sample_files $"old.json" None $"SPDX-2.3" false)) as [z|f]; [|discriminate T2].
    destruct z as [|[]|]; try discriminate T2. reflexivity.
Qed.
Print Assumptions C59_default_version_refuted.
(** What is printed with "-" need not be the payload alone. *)
Theorem C59_stdout_refuted :
  exists E fs infile rest, (forall t, e_text (e3_base E) t = (t, None))
    /\ r3_exit (main3 E fs infile (Some $"-") $"SPDX-2.3" false) = Exit 0
    /\ r3_stdout (main3 E fs infile (Some $"-") $"SPDX-2.3" false) = none_line ++ none_line ++ rest /\ rest <> [].
Proof.
  exists sample_environment3, sample_files, $"none.json", (skipn (List.length none_line + List.length none_line) (r3_stdout (main3 sample_environment3 sample_files $"none.json" (Some $"-") $"SPDX-2.3" false))).
  split; [reflexivity|]. split; [vm_compute; reflexivity|]. split; [vm_compute; reflexivity|]. vm_compute. discriminate.
Qed.
Print Assumptions C59_stdout_refuted.
(** A file that is missing or cannot be parsed ends the tool with an uncaught exception, not with exit status 1. *)
Theorem C59_unreadable :
  forall (E : environment3) (fs : files) (infile : pystr) (outfile : option pystr) (version : pystr) (nov : bool) (f : fault),
  parse_any_file (e3_base E) fs infile = inr f -> (forall m, f <> NotImplementedError m) -> (forall l, f <> Library (EExit l)) ->
  main3 E fs infile outfile version nov = {| r3_exit := Crash f; r3_stderr := []; r3_stdout := []; r3_files := fs |}.
Proof. exact Cli3Facts.parse_fault. Qed.
Print Assumptions C59_unreadable.
Example C59_sample_unreadable : parse_any_file (e3_base sample_environment3) sample_files $"missing.json" = inr (Library (EFileNotFound $"missing.json")).
Proof. vm_compute. reflexivity. Qed.
