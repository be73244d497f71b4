(** Property theorems: the console output for all classes of the SPDX 3 model (C68). *)
From Verif Require Import Py Data Oracles Basics Json DocUtils Payload Bump Typing Typing3 Typing3Spec Jsonld Jsonld3 Jsonld3Spec Console Console3Spec.
From Verif Require Samples Jsonld3Facts Console3Facts Console3Blocks Console3Stops PropsTyping3 PropsJsonld3.

(** ** C68 *)
(** The elements of a payload are shown one after the other, by the layouts of their classes, up to the first exception. *)
Theorem C68_shown :
  forall (str_of_date : datetime -> pystr) (es : list pyval), Forall Element es ->
  write_elements str_of_date (map object_of es) = said (flat_map (element_pieces str_of_date) es).
Proof. exact Console3Blocks.elements_printed. Qed.
Print Assumptions C68_shown.
(** There is no exception unless an element cannot be shown. *)
Theorem C68_succeeds :
  forall (str_of_date : datetime -> pystr) (es : list pyval), Forall Element es ->
  ((exists text, write_elements str_of_date (map object_of es) = (text, None)) <-> forall v e, In v es -> ~ CannotBeShown v e).
Proof. exact Console3Stops.elements_shown. Qed.
Print Assumptions C68_succeeds.
(** The exception is that of the first element that cannot be shown; the elements before it have been shown. *)
Theorem C68_fails :
  forall (str_of_date : datetime -> pystr) (es : list pyval) (text : pystr) (e : exn), Forall Element es ->
  write_elements str_of_date (map object_of es) = (text, Some e) ->
  exists before v after start, es = before ++ v :: after /\ (forall w x, In w before -> ~ CannotBeShown w x) /\ CannotBeShown v e
    /\ text = fst (said (flat_map (element_pieces str_of_date) before)) ++ start.
Proof. exact Console3Stops.elements_stop. Qed.
Print Assumptions C68_fails.
(** The payloads that come from SPDX 2 consist of such elements. *)
Theorem C68_converted :
  forall (str_of_date : datetime -> pystr) (d : document) (st : bstate) (doc : nat), bump_spdx_document d = Ok (st, doc) ->
  exists vs, Forall Element vs /\ write_payload_to_console str_of_date st = write_elements str_of_date (map object_of vs).
Proof. exact Console3Stops.bumped_elements. Qed.
Print Assumptions C68_converted.

(** ** Cases *)
Import PropsJsonld3.
Definition no_dates (d : datetime) : pystr := $"(date)".
Lemma made_element d given : Jsonld3Facts.soundb (made d given) = true ->
  match made d given with VObj c _ => str_in c (map d_name classes3) | _ => false end = true -> Element (made d given).
Proof.
  intros A B. split; [apply Jsonld3Facts.soundb_ok; exact A|]. destruct (made d given); try discriminate B. eexists. eexists. split; [reflexivity|].
  apply PyFacts.str_in_In. exact B.
Qed.
Definition C68_build : pyval :=
  made D_Build [($"spdx_id", VStr $"https://e.org/b"); ($"build_type", VStr $"t"); ($"config_source_uri", VList [VStr $"u"; VStr $"w"]);
                ($"config_source_digest", VList [VObj $"Hash" [($"comment", VNone); ($"algorithm", member $"HashAlgorithm" $"SHA3_256"); ($"hash_value", VStr $"ab")]]);
                ($"parameters", VDict [(VStr $"k", VStr $"v"); (VStr $"l", VStr $"")]); ($"build_end_time", VDatetime Samples.sample_date)].
Example C68_build_shown : Forall Element [C68_build]
  /\ write_elements no_dates (map object_of [C68_build])
     = (List.concat (map (fun s => s ++ [LF])
         [$"## Build"; $"SPDXID: https://e.org/b"; $"build_type: t"; $"config_source_uri: u, w"; $"config_source_digest  algorithm: SHA3_256"; $"  hash_value: ab";
          $"parameters: parameters: (k: v), parameters: (l: )"; $"build_end_time: (date)"; []]), None).
Proof. split; [repeat constructor; apply made_element; vm_compute; reflexivity|vm_compute; reflexivity]. Qed.
Example C68_dataset_stops : Forall Element [C68_build; made D_Dataset C67_dataset; C68_build]
  /\ snd (write_elements no_dates (map object_of [C68_build; made D_Dataset C67_dataset; C68_build])) = Some (EType $"sequence item").
Proof. split; [repeat constructor; apply made_element; vm_compute; reflexivity|vm_compute; reflexivity]. Qed.

(** A data set with a type is never shown, although the constructor accepts it. *)
Theorem C68_datasets_refuted :
  (forall (str_of_date : datetime -> pystr) (es : list pyval) i x l, Forall Element es -> In (VObj $"Dataset" i) es ->
     field $"dataset_type" (VObj $"Dataset" i) = VList (x :: l) -> exists text e, write_elements str_of_date (map object_of es) = (text, Some e))
  /\ exists i x l, Element (VObj $"Dataset" i) /\ new3 classes3 PropsTyping3.first_items $"Dataset" C67_dataset = Ok (VObj $"Dataset" i)
                   /\ field $"dataset_type" (VObj $"Dataset" i) = VList (x :: l).
Proof.
  split.
  - intros sd es i x l F I D. destruct (write_elements sd (map object_of es)) as [text [e|]] eqn:W; [eauto|]. exfalso.
    refine (proj1 (C68_succeeds sd es F) (ex_intro _ text W) _ (EType []) I _). right. left. exists i, x, l. split; [reflexivity|]. split; [exact D|]. exists []. reflexivity.
  - assert (T : match new3 classes3 PropsTyping3.first_items $"Dataset" C67_dataset with
                | Ok (VObj c i) => str_eqb c $"Dataset" && Jsonld3Facts.soundb (VObj $"Dataset" i)
                                   && match field $"dataset_type" (VObj $"Dataset" i) with VList (_ :: _) => true | _ => false end
                | _ => false
                end = true) by (vm_compute; reflexivity).
    destruct (new3 classes3 PropsTyping3.first_items $"Dataset" C67_dataset) as [v|] eqn:E; [|discriminate]. destruct v as [| | | | | | | | | |c i]; try discriminate.
    apply andb_prop in T as [T T3]. apply andb_prop in T as [T1 T2]. apply PyFacts.str_eqb_eq in T1. subst c.
    destruct (field $"dataset_type" (VObj $"Dataset" i)) as [| | | | | | |l| | |] eqn:A; try discriminate. destruct l as [|x l]; [discriminate|].
    exists i, x, l. split; [|split; [reflexivity|exact A]]. split; [apply Jsonld3Facts.soundb_ok; exact T2|]. exists $"Dataset", i. split; [reflexivity|].
    apply PyFacts.str_in_In. vm_compute. reflexivity.
Qed.
Print Assumptions C68_datasets_refuted.
(** There are classes of elements that are never shown, although they can be made, such as vulnerabilities. *)
Theorem C68_classes_refuted :
  (forall (str_of_date : datetime -> pystr) (es : list pyval) c i, Forall Element es -> In (VObj c i) es -> ~ In c (map fst layouts) ->
     exists text e, write_elements str_of_date (map object_of es) = (text, Some e))
  /\ exists v, Element v /\ new3 classes3 PropsTyping3.first_items $"Vulnerability" [($"spdx_id", VStr $"https://e.org/v")] = Ok v
               /\ forall str_of_date, write_elements str_of_date [object_of v] = ([], Some (EKey $"Vulnerability")).
Proof.
  split.
  - intros sd es c i F I N. destruct (write_elements sd (map object_of es)) as [text [e|]] eqn:W; [eauto|]. exfalso.
    refine (proj1 (C68_succeeds sd es F) (ex_intro _ text W) _ (EKey c) I _). left. exists c, i. auto.
  - exists (made D_Vulnerability [($"spdx_id", VStr $"https://e.org/v")]). split; [apply made_element; vm_compute; reflexivity|]. split; [vm_compute; reflexivity|].
    intro sd. lazy. reflexivity.
Qed.
Print Assumptions C68_classes_refuted.
(** Not everything is shown: the copyright of packages is not. *)
Definition C68_package (copyright : pyval) : pyval :=
  made D_Package [($"spdx_id", VStr $"https://e.org/p"); ($"name", VStr $"p"); ($"copyright_text", copyright)].
Theorem C68_copyright_refuted :
  exists v w : pyval, Element v /\ Element w /\ field $"copyright_text" v <> field $"copyright_text" w
    /\ forall str_of_date, snd (write_elements str_of_date [object_of v]) = None
                           /\ write_elements str_of_date [object_of v] = write_elements str_of_date [object_of w].
Proof.
  exists (C68_package (VStr $"me")), (C68_package VNone). split; [apply made_element; vm_compute; reflexivity|]. split; [apply made_element; vm_compute; reflexivity|].
  split; [|intro sd; split; lazy; reflexivity]. intro E.
  assert (B : forall a b : pyval, a = b -> match a, b with VStr _, VNone => false | _, _ => true end = true) by (intros a b <-; destruct a; reflexivity).
  specialize (B _ _ E). vm_compute in B. discriminate B.
Qed.
Print Assumptions C68_copyright_refuted.
