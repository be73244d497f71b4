(** Property theorems: reading tag-value files gives exactly what their attributes say (C62), for every text (C63). *)
From Verif Require Import Py PyFacts Data Oracles Basics BasicsSpec JsonSpec Samples TvWriter TvLexer TvParser TvSpec TvTokSpec TvReadSpec TvStreamSpec.
From Verif Require TvLineEnds TvSamples TvRead4 TvRead8 TvRead11.

(** ** C62 *)
(** For a text that consists of attributes "Tag: value" with values of the right kind: the parser returns a document exactly
    if the attributes say that document; otherwise it raises an exception. *)
Theorem C62_exactly_what_it_says :
  forall (O : oracles) text gs d, Attributes text gs -> (tv_parse O text = Ok d <-> SaysDocument O gs d).
Proof. exact TvRead8.attributes_say. Qed.
Print Assumptions C62_exactly_what_it_says.
(** The same attributes never say two different documents. *)
Theorem C62_one_document :
  forall (O : oracles) text gs d d', Attributes text gs -> SaysDocument O gs d -> SaysDocument O gs d' -> d = d'.
Proof. exact TvRead8.one_document. Qed.
Print Assumptions C62_one_document.
(** The kinds of value that the tags take. *)
Theorem C62_kinds_of_values :
  forall g, Good g <-> In (tk_type (g_val g)) (takes (g_tag g))
                       /\ match g_com g with Some c => In (g_tag g) commented /\ In (tk_type c) texts | None => True end.
Proof. exact TvRead11.good_iff. Qed.
Print Assumptions C62_kinds_of_values.

(** A file with an element of each kind, and a comment line *)
Definition a_line (t : tag) (v : pystr) : grp := {| g_tag := t; g_val := {| tk_type := TT_LINE; tk_value := v |}; g_com := None |}.
Definition C62_actor (t : tag) : grp :=
  {| g_tag := t; g_val := {| tk_type := TT_TOOL_VALUE; tk_value := $"Tool: tools-python" |}; g_com := None |}.
Definition C62_date (t : tag) : grp :=
  {| g_tag := t; g_val := {| tk_type := TT_ISO8601_DATE; tk_value := $"2023-02-28T23:59:07Z" |}; g_com := None |}.
Definition C62_two_lines : pystr := $"two" ++ [LF] ++ $"lines".
Definition C62_enclosed : pystr := $"<text>" ++ C62_two_lines ++ $"</text>".
Definition C62_attributes : list grp :=
  [a_line T_SPDXVersion $"SPDX-2.3"; a_line T_DataLicense $"CC0-1.0"; a_line T_SPDXID $"SPDXRef-DOCUMENT"; a_line T_DocumentName $"doc";
   a_line T_DocumentNamespace $"https://example.com/doc"; C62_actor T_Creator; C62_date T_Created;
   a_line T_PackageName $"pkg"; a_line T_SPDXID $"SPDXRef-Package";
   {| g_tag := T_PackageDownloadLocation; g_val := {| tk_type := TT_NO_ASSERTION; tk_value := $"NOASSERTION" |}; g_com := None |};
   {| g_tag := T_PackageComment; g_val := {| tk_type := TT_TEXT; tk_value := C62_enclosed |}; g_com := None |};
   {| g_tag := T_ExternalRef; g_val := {| tk_type := TT_LINE; tk_value := $"PACKAGE-MANAGER purl pkg:a/b" |};
      g_com := Some {| tk_type := TT_LINE; tk_value := $"where it is" |} |};
   a_line T_FileName $"./file"; a_line T_SPDXID $"SPDXRef-File";
   {| g_tag := T_FileChecksum; g_val := {| tk_type := TT_CHECKSUM; tk_value := $"SHA1: 85ed0817af83a24ad8da68c2b5094de69833983c" |}; g_com := None |};
   a_line T_SnippetSPDXID $"SPDXRef-Snippet"; a_line T_SnippetFromFileSPDXID $"SPDXRef-File"; a_line T_SnippetByteRange $"310:420";
   C62_actor T_Annotator; C62_date T_AnnotationDate; a_line T_AnnotationType $"REVIEW"; a_line T_SPDXREF $"SPDXRef-File"; a_line T_AnnotationComment $"fine";
   a_line T_LicenseID $"LicenseRef-1"; a_line T_ExtractedText $"You may";
   {| g_tag := T_Relationship; g_val := {| tk_type := TT_LINE; tk_value := $"SPDXRef-DOCUMENT DESCRIBES SPDXRef-Package" |}; g_com := None |}].
Definition C62_text : pystr := $"## created by hand" ++ [LF] ++ List.concat (map (fun x : tag * token => tag_name (fst x) ++ $": " ++ tk_value (snd x) ++ [LF]) (flat_map fields C62_attributes)).
Example C62_is_a_text : Attributes C62_text C62_attributes.
Proof.
  split.
  - unfold C62_text. rewrite app_assoc. apply Lines_filler; [right; exists $" created by hand"; split; [reflexivity|]; apply has_char_false; reflexivity|].
    unfold C62_attributes, a_line, C62_actor, C62_date. cbn [flat_map fields g_tag g_val g_com comment_tag app map List.concat fst snd tk_value]. rewrite <- !app_assoc.
    repeat first [ apply Lines_nil
                 | apply (Lines_field T_Creator); [apply (Sp_actor sample_tool (proj1 (TvSamples.actor_by_test sample_tool eq_refl eq_refl)))|]
                 | apply (Lines_field T_Annotator); [apply (Sp_actor sample_tool (proj1 (TvSamples.actor_by_test sample_tool eq_refl eq_refl)))|]
                 | apply (Lines_field T_Created); [apply (Sp_date sample_date); [exact TvSamples.date_ok|vm_compute; reflexivity]|]
                 | apply (Lines_field T_AnnotationDate); [apply (Sp_date sample_date); [exact TvSamples.date_ok|vm_compute; reflexivity]|]
                 | apply (Lines_field T_FileChecksum); [apply (Sp_checksum sample_sha1); [apply TvSamples.hex_by_test; vm_compute; reflexivity|vm_compute; reflexivity]|]
                 | apply (Lines_field T_PackageDownloadLocation); [apply Sp_noassertion|]
                 | apply (Lines_field T_PackageComment); [exact (Sp_text C62_two_lines eq_refl)|]
                 | apply Lines_field; [apply Sp_line, TvSamples.line_by_test; vm_compute; reflexivity|] ].
  - repeat (constructor; [split; [eexists; split; reflexivity|first [exact Logic.I|split; [discriminate|reflexivity]]]|]). constructor.
Qed.

(** what it says: one element of each kind, the document's relationship and "the package contains the file" *)
Definition C62_elements (d : document) : bool :=
  match do_packages d, do_files d, do_snippets d, do_annotations d, do_extracted d, do_relationships d with
  | [p], [f], [s], [a], [e], [r1; r2] =>
      str_eqb (pk_name p) $"pkg" && str_eqb (fi_id f) $"SPDXRef-File" && Z.eqb (snd (sn_bytes s)) 420
      && str_eqb (an_comment a) $"fine" && str_eqb (re_id r1) $"SPDXRef-Package" && str_eqb (re_id r2) $"SPDXRef-DOCUMENT"
      && match pk_comment p with Some c => str_eqb c C62_two_lines | None => false end
      && match pk_refs p with [r] => match er_comment r with Some c => str_eqb c $"where it is" | None => false end | _ => false end
  | _, _, _, _, _, _ => false
  end.
Definition C62_read (r : result document) : bool := match r with Ok d => C62_elements d | Raise _ => false end.
Lemma C62_read_says r gs : C62_read r = true -> (forall d, r = Ok d -> SaysDocument sample_oracles gs d) ->
  exists d, SaysDocument sample_oracles gs d /\ C62_elements d = true.
Proof. destruct r as [d|]; [|discriminate]. intros H K. exists d. split; [apply K; reflexivity|exact H]. Qed.
Example C62_says : exists d, SaysDocument sample_oracles C62_attributes d /\ C62_elements d = true.
Proof.
  assert (T : C62_read (tv_parse sample_oracles C62_text) = true) by (vm_compute; reflexivity).
  apply (C62_read_says _ _ T). intros d H. apply (C62_exactly_what_it_says _ _ _ _ C62_is_a_text). exact H.
Qed.

(** ** C63 *)
(** For every text: the parser returns a document exactly if the attributes that are taken from the text say that document, and
    no element begins after or before a broken attribute.  [Taken] lists what is passed over without a message. *)
Theorem C63_every_text :
  forall (O : oracles) text d,
    tv_parse O text = Ok d <->
    exists gs broken, Taken true (tokens text) gs broken /\ (broken = true -> Unnoticed gs) /\ SaysDocument O gs d.
Proof. exact TvRead11.text_says. Qed.
Print Assumptions C63_every_text.
Theorem C63_every_file :
  forall (O : oracles) contents d,
    tv_parse_from_file O contents = Ok d <->
    exists gs broken, Taken true (tokens (universal_newlines contents)) gs broken /\ (broken = true -> Unnoticed gs)
                      /\ SaysDocument O gs d.
Proof. exact TvRead11.file_says. Qed.
Print Assumptions C63_every_file.
(** There is only one way to take attributes from a text. *)
Theorem C63_taken_once :
  forall text gs gs' broken broken',
    Taken true (tokens text) gs broken -> Taken true (tokens text) gs' broken' -> gs = gs' /\ broken = broken'.
Proof. exact TvRead11.taken_once. Qed.
Print Assumptions C63_taken_once.
(** From a text of attributes all attributes are taken. *)
Theorem C63_nothing_passed_over :
  forall text gs, Attributes text gs -> Taken true (tokens text) gs false.
Proof. exact TvRead11.attributes_taken. Qed.
Print Assumptions C63_nothing_passed_over.
Example C63_sample : Taken true (tokens C62_text) C62_attributes false.
Proof. apply C63_nothing_passed_over. exact C62_is_a_text. Qed.

(** Passing over is not harmless. *)
Definition C63_head : pystr :=
  List.concat (map (fun x : tag * token => tag_name (fst x) ++ $": " ++ tk_value (snd x) ++ [LF]) (flat_map fields (firstn 7 C62_attributes))).
Definition C63_unknown : pystr := C63_head ++ $"NoSuchTag: Tool: x" ++ [LF] ++ $"PackageName: pkg" ++ [LF] ++ $"SPDXID: SPDXRef-p" ++ [LF] ++ $"PackageDownloadLocation: NONE" ++ [LF].
Definition C63_lost : pystr := C63_head ++ $"SPDXID" ++ [LF] ++ $"PackageName: pkg" ++ [LF].
Definition C63_cut : pystr := C63_head ++ $"Relationship: SPDXRef-DOCUMENT DESCRIBES NONE" ++ [LF] ++ $"RelationshipComment" ++ [LF].
Definition C63_unseen : pystr := C63_head ++ $"PackageVersion: Tool: x" ++ [LF].
Definition has_token (t : ttype) (text : pystr) : bool :=
  existsb (fun k => match tk_type k, t with TT_TAG a, TT_TAG b => tag_eqb a b | TT_UNKNOWN_TAG, TT_UNKNOWN_TAG => true | _, _ => false end) (tokens text).
Definition C63_check (t : ttype) (text : pystr) (p : document -> bool) : bool :=
  has_token t text && match tv_parse sample_oracles text with Ok d => p d | Raise _ => false end.
Lemma C63_checked t text p : (t = TT_UNKNOWN_TAG \/ exists x, t = TT_TAG x) -> C63_check t text p = true ->
  exists d k, tv_parse sample_oracles text = Ok d /\ In k (tokens text) /\ tk_type k = t /\ p d = true.
Proof.
  unfold C63_check, has_token. intros Ht H. apply andb_true_iff in H as [A B]. apply existsb_exists in A as (k & Hk & A).
  destruct (tv_parse sample_oracles text) as [d|]; [|discriminate]. exists d, k. repeat split; auto.
  destruct Ht as [->|[x ->]].
  - destruct (tk_type k); try discriminate. reflexivity.
  - destruct (tk_type k); try discriminate. f_equal. apply TvRead4.tag_eqb_spec. exact A.
Qed.
(** It does not matter how the lines end. *)
Theorem C63_line_ends :
  forall (O : oracles) text e, ~ In CR text -> In e [[LF]; [CR]; [CR; LF]] -> tv_parse_from_file O (with_line_ends e text) = tv_parse O text.
Proof. exact TvLineEnds.line_ends. Qed.
Print Assumptions C63_line_ends.
Example C63_line_ends_sample : ~ In CR C62_text /\ with_line_ends [CR; LF] C62_text <> C62_text /\ is_ok (tv_parse sample_oracles C62_text) = true.
Proof.
  split; [apply has_char_false; vm_compute; reflexivity|]. split; [|vm_compute; reflexivity]. intro H.
  assert (T : str_eqb (with_line_ends [CR; LF] C62_text) C62_text = false) by (vm_compute; reflexivity). rewrite H, str_eqb_refl in T. discriminate T.
Qed.
(** An unknown tag is reported, but not if its value is a checksum, a tool or an organization. *)
Theorem C63_unknown_tag_refuted :
  exists (O : oracles) text d k, tv_parse O text = Ok d /\ In k (tokens text) /\ tk_type k = TT_UNKNOWN_TAG.
Proof.
  assert (T : C63_check TT_UNKNOWN_TAG C63_unknown (fun _ => true) = true) by (vm_compute; reflexivity).
  apply C63_checked in T as (d & k & A & B & C & _); [|left; reflexivity]. exists sample_oracles, C63_unknown, d, k. auto.
Qed.
Print Assumptions C63_unknown_tag_refuted.
(** A package begins in the file, but there is none in the document and no message. *)
Theorem C63_package_lost_refuted :
  exists (O : oracles) text d k, tv_parse O text = Ok d /\ In k (tokens text) /\ tk_type k = TT_TAG T_PackageName /\ do_packages d = [].
Proof.
  assert (T : C63_check (TT_TAG T_PackageName) C63_lost (fun d => match do_packages d with [] => true | _ => false end) = true) by (vm_compute; reflexivity).
  apply C63_checked in T as (d & k & A & B & C & D); [|right; eexists; reflexivity]. exists sample_oracles, C63_lost, d, k. repeat split; auto.
  destruct (do_packages d); [reflexivity|discriminate].
Qed.
Print Assumptions C63_package_lost_refuted.
(** The same for a relationship whose comment is cut off by the end of the file. *)
Theorem C63_relationship_lost_refuted :
  exists (O : oracles) text d k, tv_parse O text = Ok d /\ In k (tokens text) /\ tk_type k = TT_TAG T_Relationship /\ do_relationships d = [].
Proof.
  assert (T : C63_check (TT_TAG T_Relationship) C63_cut (fun d => match do_relationships d with [] => true | _ => false end) = true) by (vm_compute; reflexivity).
  apply C63_checked in T as (d & k & A & B & C & D); [|right; eexists; reflexivity]. exists sample_oracles, C63_cut, d, k. repeat split; auto.
  destruct (do_relationships d); [reflexivity|discriminate].
Qed.
Print Assumptions C63_relationship_lost_refuted.
(** An attribute of a package outside any package, whose value does not fit: no message if no element follows. *)
Theorem C63_message_lost_refuted :
  exists (O : oracles) text d k, tv_parse O text = Ok d /\ In k (tokens text) /\ tk_type k = TT_TAG T_PackageVersion /\ do_packages d = [].
Proof.
  assert (T : C63_check (TT_TAG T_PackageVersion) C63_unseen (fun d => match do_packages d with [] => true | _ => false end) = true) by (vm_compute; reflexivity).
  apply C63_checked in T as (d & k & A & B & C & D); [|right; eexists; reflexivity]. exists sample_oracles, C63_unseen, d, k. repeat split; auto.
  destruct (do_packages d); [reflexivity|discriminate].
Qed.
Print Assumptions C63_message_lost_refuted.
