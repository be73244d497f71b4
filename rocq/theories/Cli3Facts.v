(** Facts about pyspdxtools3. *)
From Verif Require Import Py Data Oracles Basics Json DocUtils Validation Payload Bump Jsonld JsonldSpec Console ConsoleSpec Files Cli3 Cli3Spec PyFacts CasingFacts BumpDoc.
From Verif Require Import BumpLog BumpLogSpec BumpLogFacts.
From Verif Require JsonldBump ConsoleDoc MessageFacts.

(** * What the conversion prints *)
Lemma printed_ok l ns refs doc : forall st st', each (fun p => bump_package p ns refs doc) l st = Ok st' ->
  printed_for l ns refs doc st = List.concat (map (fun p => match pk_download p with NNone => none_line | _ => [] end) l).
Proof.
  induction l as [|p l IH]; intros st st' H; [reflexivity|]. cbn [each] in H. apply bind_inv in H as (st1 & H1 & H2). cbn [printed_for map List.concat].
  destruct (get_full_element_spdx_id (pk_id p) ns refs) as [i|e] eqn:G.
  - rewrite H1. rewrite (IH _ _ H2). reflexivity.
  - unfold bump_package in H1. rewrite G in H1. discriminate.
Qed.
Lemma printed_is d st doc : bump_spdx_document d = Ok (st, doc) -> printed_by_conversion d = none_lines d.
Proof.
  intro B. unfold bump_spdx_document in B. unfold printed_by_conversion. cbv zeta in B |- *.
  apply bind_inv in B as ([st0 doc0] & B0 & B). rewrite B0. cbv beta iota in B. apply bind_inv in B as (st1 & B1 & _). exact (printed_ok _ _ _ _ _ _ B1).
Qed.

(** * Names *)
Lemma jsonld_unsupported n : exists e, file_name_to_format (n ++ $".jsonld") = Raise e.
Proof.
  assert (H : forall x, endswith x $".jsonld" = false -> endswith $".jsonld" x = false -> endswith x (n ++ $".jsonld") = false).
  { intros x H1 H2. destruct (endswith x (n ++ $".jsonld")) eqn:E; [|reflexivity].
    assert (E' : endswith $".jsonld" (n ++ $".jsonld") = true) by (apply endswith_spec; exists n; reflexivity).
    destruct (both_suffixes _ _ _ E E') as [X|X]; congruence. }
  unfold file_name_to_format. rewrite !H by reflexivity. eexists. reflexivity.
Qed.
Lemma parse_jsonld E fs n : exists e, parse_any_file E fs (n ++ $".jsonld") = inr (Library e).
Proof. unfold parse_any_file. destruct (jsonld_unsupported n) as [e H]. rewrite H. eexists. reflexivity. Qed.

Section Run.
Variable E : environment3.
Local Notation E0 := (e3_base E).
Local Notation O := (e_oracles (e3_base E)).

Lemma end_with_status f err out fs : r3_exit (end_with f err out fs) <> Exit 0.
Proof. destruct f as [[]| | | | | | |]; cbn; discriminate. Qed.
Lemma end_with_files f err out fs : r3_files (end_with f err out fs) = fs.
Proof. destruct f as [[]| | | | | | |]; reflexivity. Qed.
Lemma end_with_stderr f err out fs : r3_stderr (end_with f err out fs) = err.
Proof. destruct f as [[]| | | | | | |]; reflexivity. Qed.
Lemma end_with_crash f err out fs g : r3_exit (end_with f err out fs) = Crash g -> f = g /\ (forall m, g <> NotImplementedError m) /\ forall l, g <> Library (EExit l).
Proof. destruct f as [[]| | | | | | |]; cbn; intro H; inversion H; subst; repeat split; intros; discriminate. Qed.

Local Notation Accepted := (Accepted E).

Lemma main_accepted fs i o v nov d : Accepted fs i v nov d ->
  main3 E fs i o v nov = convert3 E fs d o (if nov then [] else [$"The document is valid."]).
Proof.
  intros [P V]. unfold main3. rewrite P. destruct nov; [reflexivity|]. rewrite (V eq_refl). reflexivity.
Qed.
Lemma main_else fs i o v nov : (exists d, Accepted fs i v nov d)
  \/ (exists f, parse_any_file E0 fs i = inr f /\ main3 E fs i o v nov = end_with f [] [] fs)
  \/ (exists d, parse_any_file E0 fs i = inl d /\ nov = false /\ validate_full_spdx_document O d (Some v) <> []
      /\ main3 E fs i o v nov = {| r3_exit := Exit 1;
           r3_stderr := $"The document is invalid. The following issues have been found:" :: map vm_text (validate_full_spdx_document O d (Some v));
           r3_stdout := []; r3_files := fs |}).
Proof.
  unfold main3, Accepted. destruct (parse_any_file E0 fs i) as [d|f] eqn:P.
  - destruct nov; [left; exists d; split; [reflexivity|discriminate]|]. destruct (validate_full_spdx_document O d (Some v)) as [|m ms] eqn:V.
    + left. exists d. split; [reflexivity|intros _; exact V].
    + right. right. exists d. split; [reflexivity|]. split; [reflexivity|]. rewrite V. split; [discriminate|reflexivity].
  - right. left. exists f. split; reflexivity.
Qed.

Lemma invalid_document fs i o v d : parse_any_file E0 fs i = inl d -> validate_full_spdx_document O d (Some v) <> [] ->
  main3 E fs i o v false = {| r3_exit := Exit 1;
           r3_stderr := $"The document is invalid. The following issues have been found:" :: map vm_text (validate_full_spdx_document O d (Some v));
           r3_stdout := []; r3_files := fs |}.
Proof. intros P V. unfold main3. rewrite P. destruct (validate_full_spdx_document O d (Some v)); [congruence|reflexivity]. Qed.

Lemma convert_stderr fs d o err : r3_stderr (convert3 E fs d o err) = err ++ match o with Some (_ :: _) => conversion_log d | _ => [] end.
Proof.
  unfold convert3. destruct o as [[|c name]|]; try (symmetry; apply app_nil_r). destruct (bump_spdx_document d) as [[st doc]|e]; [|apply end_with_stderr]. cbv zeta.
  destruct (str_eqb (c :: name) $"-").
  - destruct (snd _); [apply end_with_stderr|reflexivity].
  - destruct (write_payload E fs st (c :: name)) as [fs' [f|]]; [apply end_with_stderr|reflexivity].
Qed.
Lemma valid_claim fs i o v : In $"The document is valid." (r3_stderr (main3 E fs i o v false)) <-> exists d, Accepted fs i v false d.
Proof.
  split.
  - intro H. destruct (main_else fs i o v false) as [A|[(f & P & M)|(d & P & _ & V & M)]]; [exact A| |].
    + rewrite M, end_with_stderr in H. destruct H.
    + exfalso. rewrite M in H. cbn [r3_stderr] in H. destruct H as [H|H]; [discriminate H|]. apply in_map_iff in H as (m & H1 & H2).
      exact (MessageFacts.no_verdict _ _ _ _ H2 H1).
  - intros (d & A). rewrite (main_accepted _ _ _ _ _ _ A), convert_stderr. left. reflexivity.
Qed.

Lemma accepted_stderr fs i name v nov d : Accepted fs i v nov d -> name <> [] ->
  exists lines rest, r3_stderr (main3 E fs i (Some name) v nov) = (if nov then [] else [$"The document is valid."]) ++ lines /\ report d = lines ++ rest
  /\ ((exists st doc, bump_spdx_document d = Ok (st, doc)) -> rest = []).
Proof.
  intros A N. destruct (log_prefix d) as [rest R]. exists (conversion_log d), rest. rewrite (main_accepted _ _ _ _ _ _ A), convert_stderr. destruct name; [congruence|].
  split; [reflexivity|]. split; [exact R|]. intros (st & doc & B). rewrite (log_ok _ _ _ B) in R. rewrite <- (app_nil_r (report d)) in R at 1. apply app_inv_head in R. congruence.
Qed.
(** the outcome of a conversion *)
Lemma convert_file fs d name err : name <> [] -> name <> $"-" ->
  r3_exit (convert3 E fs d (Some name) err) = Exit 0 <->
  exists st doc graph context t, bump_spdx_document d = Ok (st, doc) /\ convert_payload_to_json_ld st = Ok graph /\ e3_context E = inl context
    /\ e_write_error E0 (name ++ $".jsonld") = None
    /\ e3_dump E (json_ld_file context graph) = (t, None).
Proof.
  intros N1 N2. unfold convert3. destruct name as [|c name]; [congruence|]. destruct (bump_spdx_document d) as [[st doc]|e].
  2:{ split; [intro H; destruct (end_with_status _ _ _ _ H)|]. intros (? & ? & ? & ? & ? & H & _). discriminate. }
  destruct (str_eqb (c :: name) $"-") eqn:S1; [apply str_eqb_eq in S1; congruence|]. unfold write_payload. destruct (convert_payload_to_json_ld st) as [graph|e] eqn:G.
  2:{ split; [intro H; destruct (end_with_status _ _ _ _ H)|]. intros (? & ? & ? & ? & ? & H & H' & _). congruence. }
  destruct (e3_context E) as [cx|f] eqn:C.
  2:{ split; [intro H; destruct (end_with_status _ _ _ _ H)|]. intros (? & ? & ? & ? & ? & H & H' & H'' & _). congruence. }
  cbv zeta. destruct (e_write_error E0 ((c :: name) ++ $".jsonld")) as [f|] eqn:W.
  { split; [intro H; destruct (end_with_status _ _ _ _ H)|]. intros (? & ? & ? & ? & ? & H & H' & H'' & H3 & _). congruence. }
  destruct (e3_dump E (json_ld_file cx graph)) as [t [f|]] eqn:D; cbn [fst snd].
  - split; [intro H; destruct (end_with_status _ _ _ _ H)|]. intros (? & ? & ? & ? & ? & H & H' & H'' & H3 & H4). congruence.
  - split; [intros _|reflexivity]. exists st, doc, graph, cx, t. auto.
Qed.
Lemma convert_file_is fs d name err st doc graph context t : name <> [] -> name <> $"-" ->
  bump_spdx_document d = Ok (st, doc) -> convert_payload_to_json_ld st = Ok graph -> e3_context E = inl context ->
  e_write_error E0 (name ++ $".jsonld") = None -> e3_dump E (json_ld_file context graph) = (t, None) ->
  convert3 E fs d (Some name) err = {| r3_exit := Exit 0; r3_stderr := err ++ report d; r3_stdout := none_lines d; r3_files := put_file (name ++ $".jsonld") t fs |}.
Proof.
  intros N1 N2 B G C W D. unfold convert3. destruct name as [|c name]; [congruence|]. rewrite B, (printed_is _ _ _ B), (log_ok _ _ _ B).
  destruct (str_eqb (c :: name) $"-") eqn:S1; [apply str_eqb_eq in S1; congruence|]. unfold write_payload. rewrite G, C. cbv zeta. rewrite W, D. reflexivity.
Qed.
Lemma convert_console fs d err r : convert3 E fs d (Some $"-") err = r -> r3_exit r = Exit 0 ->
  exists st doc text t, bump_spdx_document d = Ok (st, doc) /\ write_payload_to_console (e3_str_of_date E) st = (text, None)
    /\ e_text E0 text = (t, None) /\ r = {| r3_exit := Exit 0; r3_stderr := err ++ report d; r3_stdout := none_lines d ++ t; r3_files := fs |}.
Proof.
  intros <-. unfold convert3. destruct (bump_spdx_document d) as [[st doc]|e] eqn:B.
  2:{ intro H; destruct (end_with_status _ _ _ _ H). }
  rewrite (printed_is _ _ _ B), (log_ok _ _ _ B). cbv zeta. change (str_eqb $"-" $"-") with true. cbv iota.
  destruct (write_payload_to_console (e3_str_of_date E) st) as [text [e|]] eqn:W; cbn [fst snd]; [intro H; destruct (end_with_status _ _ _ _ H)|].
  destruct (e_text E0 text) as [t [f|]] eqn:T; cbn [fst snd]; [intro H; destruct (end_with_status _ _ _ _ H)|].
  intros _. exists st, doc, text, t. auto.
Qed.
Lemma convert_console_is fs d err st doc text t : bump_spdx_document d = Ok (st, doc) -> write_payload_to_console (e3_str_of_date E) st = (text, None) ->
  e_text E0 text = (t, None) -> convert3 E fs d (Some $"-") err = {| r3_exit := Exit 0; r3_stderr := err ++ report d; r3_stdout := none_lines d ++ t; r3_files := fs |}.
Proof.
  intros B W T. unfold convert3. rewrite B, (printed_is _ _ _ B), (log_ok _ _ _ B). cbv zeta. change (str_eqb $"-" $"-") with true. cbv iota. rewrite W, T. reflexivity.
Qed.

Lemma convert_files fs d o err n : r3_files (convert3 E fs d o err) n <> fs n ->
  exists name, o = Some name /\ name <> [] /\ name <> $"-" /\ n = name ++ $".jsonld"
  /\ exists st doc graph context, bump_spdx_document d = Ok (st, doc) /\ convert_payload_to_json_ld st = Ok graph /\ e3_context E = inl context
     /\ r3_files (convert3 E fs d o err) n = Some (fst (e3_dump E (json_ld_file context graph))).
Proof.
  unfold convert3. destruct o as [[|c name]|]; try (intro H; exfalso; apply H; reflexivity).
  destruct (bump_spdx_document d) as [[st doc]|e]; [|rewrite end_with_files; intro H; exfalso; apply H; reflexivity].
  destruct (str_eqb (c :: name) $"-") eqn:S1.
  - match goal with |- context [match ?w with Some f => _ | None => _ end] => destruct w end; rewrite ?end_with_files; intro H; exfalso; apply H; reflexivity.
  - unfold write_payload. destruct (convert_payload_to_json_ld st) as [graph|e] eqn:G; [|rewrite end_with_files; intro H; exfalso; apply H; reflexivity].
    destruct (e3_context E) as [cx|f] eqn:C; [|rewrite end_with_files; intro H; exfalso; apply H; reflexivity]. cbv zeta.
    destruct (e_write_error E0 ((c :: name) ++ $".jsonld")) as [f|]; [rewrite end_with_files; intro H; exfalso; apply H; reflexivity|].
    assert (F : forall f, r3_files (match f with Some f' => end_with f' (err ++ conversion_log d) (printed_by_conversion d) (put_file ((c :: name) ++ $".jsonld") (fst (e3_dump E (json_ld_file cx graph))) fs)
                | None => {| r3_exit := Exit 0; r3_stderr := err ++ conversion_log d; r3_stdout := printed_by_conversion d; r3_files := put_file ((c :: name) ++ $".jsonld") (fst (e3_dump E (json_ld_file cx graph))) fs |} end)
                = put_file ((c :: name) ++ $".jsonld") (fst (e3_dump E (json_ld_file cx graph))) fs) by (intros [f|]; [apply end_with_files|reflexivity]).
    rewrite F. unfold put_file. destruct (str_eqb n ((c :: name) ++ $".jsonld")) eqn:S2; [|intro H; exfalso; apply H; reflexivity].
    intros _. apply str_eqb_eq in S2. exists (c :: name). split; [reflexivity|]. split; [discriminate|].
    split; [intro X; rewrite X in S1; discriminate S1|]. split; [exact S2|]. exists st, doc, graph, cx. auto.
Qed.

(** * The theorems *)
Lemma exit_0_file fs i name v nov : name <> [] -> name <> $"-" ->
  (r3_exit (main3 E fs i (Some name) v nov) = Exit 0 <->
   exists d st doc graph context t, Accepted fs i v nov d /\ bump_spdx_document d = Ok (st, doc) /\ convert_payload_to_json_ld st = Ok graph
     /\ e3_context E = inl context /\ e_write_error E0 (name ++ $".jsonld") = None /\ e3_dump E (json_ld_file context graph) = (t, None)).
Proof.
  intros N1 N2. split.
  - intro H. destruct (main_else fs i (Some name) v nov) as [[d A]|[(f & _ & M)|(d & _ & _ & _ & M)]].
    + rewrite (main_accepted _ _ _ _ _ _ A) in H. apply (convert_file fs d name _ N1 N2) in H as (st & doc & graph & cx & t & H). exists d, st, doc, graph, cx, t. tauto.
    + rewrite M in H. destruct (end_with_status _ _ _ _ H).
    + rewrite M in H. discriminate H.
  - intros (d & st & doc & graph & cx & t & A & H). rewrite (main_accepted _ _ _ _ _ _ A). apply (convert_file fs d name _ N1 N2). exists st, doc, graph, cx, t. exact H.
Qed.
Lemma exit_0_console fs i v nov :
  r3_exit (main3 E fs i (Some $"-") v nov) = Exit 0 <->
  exists d st doc text t, Accepted fs i v nov d /\ bump_spdx_document d = Ok (st, doc) /\ write_payload_to_console (e3_str_of_date E) st = (text, None)
    /\ e_text E0 text = (t, None).
Proof.
  split.
  - intro H. destruct (main_else fs i (Some $"-") v nov) as [[d A]|[(f & _ & M)|(d & _ & _ & _ & M)]].
    + rewrite (main_accepted _ _ _ _ _ _ A) in H. destruct (convert_console _ _ _ _ eq_refl H) as (st & doc & text & t & X). exists d, st, doc, text, t. tauto.
    + rewrite M in H. destruct (end_with_status _ _ _ _ H).
    + rewrite M in H. discriminate H.
  - intros (d & st & doc & text & t & A & B & W & T). rewrite (main_accepted _ _ _ _ _ _ A), (convert_console_is _ _ _ _ _ _ _ B W T). reflexivity.
Qed.
Lemma exit_0_none fs i o v nov : o = None \/ o = Some [] -> (r3_exit (main3 E fs i o v nov) = Exit 0 <-> exists d, Accepted fs i v nov d).
Proof.
  intro N. split.
  - intro H. destruct (main_else fs i o v nov) as [A|[(f & _ & M)|(d & _ & _ & _ & M)]]; [exact A| |].
    + rewrite M in H. destruct (end_with_status _ _ _ _ H).
    + rewrite M in H. discriminate H.
  - intros [d A]. rewrite (main_accepted _ _ _ _ _ _ A). destruct N as [->| ->]; reflexivity.
Qed.
Lemma written_file fs i name v nov : name <> [] -> name <> $"-" -> r3_exit (main3 E fs i (Some name) v nov) = Exit 0 ->
  exists d st doc es graph context t, Accepted fs i v nov d /\ bump_spdx_document d = Ok (st, doc) /\ PayloadElements st es /\ Forall2 (Entry st) es graph
    /\ e3_context E = inl context /\ e3_dump E (JObj [($"@context", context); ($"@graph", JArr graph)]) = (t, None)
    /\ main3 E fs i (Some name) v nov = {| r3_exit := Exit 0; r3_stderr := (if nov then [] else [$"The document is valid."]) ++ report d; r3_stdout := none_lines d;
         r3_files := put_file (name ++ $".jsonld") t fs |}.
Proof.
  intros N1 N2 H. apply (exit_0_file _ _ _ _ _ N1 N2) in H as (d & st & doc & graph & cx & t & A & B & G & C & W & D).
  destruct (JsonldBump.payload_has_elements _ _ _ B) as [es P]. exists d, st, doc, es, graph, cx, t.
  split; [exact A|]. split; [exact B|]. split; [exact P|]. split; [apply (JsonldBump.payload_entries _ _ _ _ _ B P); exact G|]. split; [exact C|]. split; [exact D|].
  rewrite (main_accepted _ _ _ _ _ _ A). exact (convert_file_is _ _ _ _ _ _ _ _ _ N1 N2 B G C W D).
Qed.
Lemma printed_payload fs i v nov : r3_exit (main3 E fs i (Some $"-") v nov) = Exit 0 ->
  exists d st doc es blocks t, Accepted fs i v nov d /\ bump_spdx_document d = Ok (st, doc) /\ PayloadElements st es
    /\ Forall2 (Block (e3_str_of_date E) st) es blocks /\ e_text E0 (payload_text blocks) = (t, None)
    /\ main3 E fs i (Some $"-") v nov = {| r3_exit := Exit 0; r3_stderr := (if nov then [] else [$"The document is valid."]) ++ report d; r3_stdout := none_lines d ++ t; r3_files := fs |}.
Proof.
  intro H. apply exit_0_console in H as (d & st & doc & text & t & A & B & W & T). destruct (JsonldBump.payload_has_elements _ _ _ B) as [es P].
  destruct (proj1 (ConsoleDoc.console_blocks _ _ _ _ _ B P text) W) as (bs & Bs & E1). exists d, st, doc, es, bs, t.
  split; [exact A|]. split; [exact B|]. split; [exact P|]. split; [exact Bs|]. split; [rewrite <- E1; exact T|].
  rewrite (main_accepted _ _ _ _ _ _ A). exact (convert_console_is _ _ _ _ _ _ _ B W T).
Qed.
Lemma changed_files fs i o v nov n : r3_files (main3 E fs i o v nov) n <> fs n ->
  exists d name st doc graph context, Accepted fs i v nov d /\ o = Some name /\ n = name ++ $".jsonld" /\ name <> [] /\ name <> $"-"
    /\ bump_spdx_document d = Ok (st, doc) /\ convert_payload_to_json_ld st = Ok graph /\ e3_context E = inl context
    /\ r3_files (main3 E fs i o v nov) n = Some (fst (e3_dump E (json_ld_file context graph))).
Proof.
  intro H. destruct (main_else fs i o v nov) as [[d A]|[(f & _ & M)|(d & _ & _ & _ & M)]].
  - rewrite (main_accepted _ _ _ _ _ _ A) in *. destruct (convert_files _ _ _ _ _ H) as (name & -> & N1 & N2 & -> & st & doc & graph & cx & B & G & C & F).
    exists d, name, st, doc, graph, cx. tauto.
  - exfalso. apply H. rewrite M, end_with_files. reflexivity.
  - exfalso. apply H. rewrite M. reflexivity.
Qed.
Lemma input_kept fs i o v nov : r3_files (main3 E fs i o v nov) i = fs i.
Proof.
  destruct (main_else fs i o v nov) as [[d A]|[(f & _ & M)|(d & _ & _ & _ & M)]].
  - rewrite (main_accepted _ _ _ _ _ _ A). destruct (r3_files (convert3 E fs d o (if nov then [] else [$"The document is valid."])) i) as [x|] eqn:X, (fs i) as [y|] eqn:Y; try reflexivity.
    + destruct (str_eqb x y) eqn:S1; [apply str_eqb_eq in S1; congruence|]. exfalso.
      assert (D : r3_files (convert3 E fs d o (if nov then [] else [$"The document is valid."])) i <> fs i) by (rewrite X, Y; intro Q; injection Q as Q; subst; rewrite str_eqb_refl in S1; discriminate).
      destruct (convert_files _ _ _ _ _ D) as (name & _ & _ & _ & -> & _). destruct (parse_jsonld E0 fs name) as [e Pe]. destruct A as [P _]. congruence.
    + exfalso. assert (D : r3_files (convert3 E fs d o (if nov then [] else [$"The document is valid."])) i <> fs i) by congruence.
      destruct (convert_files _ _ _ _ _ D) as (name & _ & _ & _ & -> & _). destruct (parse_jsonld E0 fs name) as [e Pe]. destruct A as [P _]. congruence.
    + exfalso. assert (D : r3_files (convert3 E fs d o (if nov then [] else [$"The document is valid."])) i <> fs i) by congruence.
      destruct (convert_files _ _ _ _ _ D) as (name & _ & _ & _ & -> & _). destruct (parse_jsonld E0 fs name) as [e Pe]. destruct A as [P _]. congruence.
  - rewrite M, end_with_files. reflexivity.
  - rewrite M. reflexivity.
Qed.
Lemma parse_fault fs i o v nov f : parse_any_file E0 fs i = inr f -> (forall m, f <> NotImplementedError m) -> (forall l, f <> Library (EExit l)) ->
  main3 E fs i o v nov = {| r3_exit := Crash f; r3_stderr := []; r3_stdout := []; r3_files := fs |}.
Proof.
  intros P N1 N2. unfold main3. rewrite P. destruct f as [[]| | | | | | |]; try reflexivity.
  - exfalso. eapply N2. reflexivity.
  - exfalso. eapply N1. reflexivity.
Qed.
Lemma convertible_accepted fs i name v nov d : name <> [] -> name <> $"-" -> Accepted fs i v nov d ->
  (exists st doc, bump_spdx_document d = Ok (st, doc)) -> Forall CanBeWritten (times d) -> (exists cx, e3_context E = inl cx) ->
  e_write_error E0 (name ++ $".jsonld") = None -> (forall j, exists t, e3_dump E j = (t, None)) ->
  r3_exit (main3 E fs i (Some name) v nov) = Exit 0.
Proof.
  intros N1 N2 A (st & doc & B) T (cx & C) W D. apply (exit_0_file _ _ _ _ _ N1 N2). destruct (JsonldBump.payload_succeeds _ _ _ B T) as [graph G].
  destruct (D (json_ld_file cx graph)) as [t Dt]. exists d, st, doc, graph, cx, t. auto 8.
Qed.
End Run.
