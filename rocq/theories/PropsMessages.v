(** Property theorems: the messages of the validation (C71).  Statements use the API function of Validation.v and the specification in
    MessageSpec.v. *)
From Verif Require Import Py Data Oracles DocUtils Validation ValidationSpec MessageSpec Samples.
From Verif Require MessageFacts.

(** * C71 *)
(** For a supported version that fits, exactly the deserved messages are reported, with their texts and contexts. *)
Theorem C71_messages :
  forall (O : oracles) (d : document) (asked : option pystr),
  SupportedVersion (ci_version (do_ci d)) -> VersionFits d asked ->
  forall m, In m (validate_full_spdx_document O d asked) <-> Deserved O (ci_version (do_ci d)) d m.
Proof. exact MessageFacts.messages_exactly. Qed.
Print Assumptions C71_messages.
(** Every message points to the document or to a part of it, with the ids of the part and of its parent. *)
Theorem C71_contexts :
  forall (O : oracles) (d : document) (asked : option pystr) (m : vmsg),
  In m (validate_full_spdx_document O d asked) -> PointsInto d (vm_ctx m).
Proof. exact MessageFacts.messages_point. Qed.
Print Assumptions C71_contexts.

(** a document with a tool that has an email address and annotates, two files with the same id and a relationship that is wrong in three ways *)
Definition C71_tool : actor := {| ac_type := AT_TOOL; ac_name := $"tool"; ac_email := Some $"tool@example.com" |}.
Definition C71_annotation : annotation :=
  {| an_id := $"SPDXRef-File-1"; an_type := ANT_REVIEW; an_annotator := C71_tool; an_date := sample_date; an_comment := $"reviewed" |}.
Definition C71_relationship : relationship := rel $"SPDXRef-Nowhere" RT_SPECIFICATION_FOR $"a:b:c".
Definition C71_document : document :=
  {| do_ci := sample_ci $"SPDX-2.2"; do_packages := []; do_files := [sample_file $"SPDXRef-File-1"; sample_file $"SPDXRef-File-1"];
     do_snippets := [sample_snippet $"SPDXRef-Snippet" $"SPDXRef-Snippet"]; do_annotations := [C71_annotation];
     do_relationships := [C71_relationship]; do_extracted := [sample_extracted] |}.
Example C71_sample :
  validate_full_spdx_document sample_oracles C71_document None
  = [message $"did not find the referenced spdx_id ""SPDXRef-Snippet"" in the SPDX document's files"
       (Some $"SPDXRef-Snippet") (Some $"SPDXRef-DOCUMENT") VT_SNIPPET (VE_Snippet (sample_snippet $"SPDXRef-Snippet" $"SPDXRef-Snippet"));
     message $"email must be None if actor_type is TOOL, but is: tool@example.com" None (Some $"annotation") VT_ACTOR (VE_Actor C71_tool);
     message $"did not find the referenced spdx_id ""SPDXRef-Nowhere"" in the SPDX document" None None VT_RELATIONSHIP (VE_Relationship C71_relationship);
     message $"spdx_id must not contain more than one colon in order to separate the external document reference id from the internal SPDX id, but is: a:b:c"
       None None VT_RELATIONSHIP (VE_Relationship C71_relationship);
     message $"RelationshipType.SPECIFICATION_FOR is not supported in SPDX-2.2" None None VT_RELATIONSHIP (VE_Relationship C71_relationship);
     message $"there must be at least one relationship ""SPDXRef-DOCUMENT DESCRIBES ..."" or ""... DESCRIBED_BY SPDXRef-DOCUMENT"" when there is not only a single package present"
       (Some $"SPDXRef-DOCUMENT") None VT_DOCUMENT VE_None;
     message $"every spdx_id must be unique within the document, but found the following duplicates: ..." (Some $"SPDXRef-DOCUMENT") None VT_DOCUMENT VE_None]
  /\ SupportedVersion (ci_version (do_ci C71_document)) /\ VersionFits C71_document None.
Proof. split; [vm_compute; reflexivity|]. split; [left; reflexivity|]. intros v H. discriminate. Qed.
(** The parent id of a message is not always an id of the document: for annotators it is the word "annotation". *)
Theorem C71_parent_refuted :
  exists (O : oracles) (d : document) (m : vmsg) (parent : pystr),
  In m (validate_full_spdx_document O d None) /\ cx_parent (vm_ctx m) = Some parent /\ ~ In parent (all_ids d).
Proof.
  exists sample_oracles, C71_document, (message $"email must be None if actor_type is TOOL, but is: tool@example.com" None (Some $"annotation") VT_ACTOR (VE_Actor C71_tool)),
    $"annotation".
  split; [|split; [reflexivity|]].
  - rewrite (proj1 C71_sample). right. left. reflexivity.
  - vm_compute. intuition discriminate.
Qed.
Print Assumptions C71_parent_refuted.
