(** Property theorems: the message about a tag that is given twice (C32), and the message about one mistake in an otherwise correct
    tag-value text (C73). *)
From Verif Require Import Py PyFacts Data Oracles Basics BasicsSpec Json Construct JsonSpec Samples TvWriter TvLexer TvParser TvSpec TvTokSpec TvReadSpec TvReportSpec.
From Verif Require TvSamples TvReport2 TvReport3 TvReport4.

(** ** C32 *)
(** [one] is the text without the second occurrence; it is read without an error. *)
Theorem C32_message :
  forall (O : oracles) one pre g1 mid before after g2 post d s,
    Attributes before (pre ++ g1 :: mid) -> Attributes (tag_name (g_tag g2) ++ after) (g2 :: post) ->
    Attributes one ((pre ++ g1 :: mid) ++ post) -> tv_parse O one = Ok d ->
    In (g_tag g2) element_tags -> g_tag g1 = g_tag g2 -> belongs (g_tag g2) = Some s -> (forall g, In g mid -> ~ In (g_tag g) start_tags) -> Readable O g2 ->
    tv_parse O (before ++ tag_name (g_tag g2) ++ after) =
    Raise (EParsing [$"Error while parsing " ++ element_name s ++ $": "
                     ++ show_list [$"Multiple values for " ++ tag_name (g_tag g2) ++ $" found. Line: " ++ line_after before]]).
Proof. exact TvReport2.one_repeated. Qed.
Print Assumptions C32_message.
Theorem C32_document_message :
  forall (O : oracles) one pre g1 mid before after g2 post d,
    Attributes before (pre ++ g1 :: mid) -> Attributes (tag_name (g_tag g2) ++ after) (g2 :: post) ->
    Attributes one ((pre ++ g1 :: mid) ++ post) -> tv_parse O one = Ok d -> In (g_tag g2) document_tags -> g_tag g1 = g_tag g2 ->
    tv_parse O (before ++ tag_name (g_tag g2) ++ after) =
    Raise (EParsing [$"Error while parsing CreationInfo: "
                     ++ show_list [$"Multiple values for " ++ tag_name (g_tag g2) ++ $" found. Line: " ++ line_after before]]).
Proof. exact TvReport2.one_repeated_info. Qed.
Print Assumptions C32_document_message.

(** ** C73 *)
(** An attribute of an element that is not the open one *)
Theorem C73_outside_of_its_element :
  forall (O : oracles) one gs1 before after g gs2 d s,
    Attributes before gs1 -> Attributes (tag_name (g_tag g) ++ after) (g :: gs2) -> Attributes one (gs1 ++ gs2) -> tv_parse O one = Ok d ->
    belongs (g_tag g) = Some s -> opened gs1 <> Some s -> Readable O g ->
    tv_parse O (before ++ tag_name (g_tag g) ++ after) =
    Raise (EParsing [$"Element " ++ element_name s ++ $" is not the current element in scope, probably the expected tag to start the element ("
                     ++ tag_name s ++ $") is missing. Line: " ++ line_after before]).
Proof. exact TvReport2.one_outside. Qed.
Print Assumptions C73_outside_of_its_element.
(** A wrong value in the open element *)
Theorem C73_wrong_value :
  forall (O : oracles) one gs1 before after g gs2 d s m,
    Attributes before gs1 -> Attributes (tag_name (g_tag g) ++ after) (g :: gs2) -> Attributes one (gs1 ++ gs2) -> tv_parse O one = Ok d ->
    Mistake (line_after before) g m -> belongs (g_tag g) = Some s -> opened gs1 = Some s ->
    ~ In (g_tag g) (given gs1) \/ g_tag g = T_FileType \/ g_tag g = T_ExternalRef ->
    tv_parse O (before ++ tag_name (g_tag g) ++ after) = Raise (EParsing [$"Error while parsing " ++ element_name s ++ $": " ++ show_list [m]]).
Proof. exact TvReport2.one_wrong_value. Qed.
Print Assumptions C73_wrong_value.
(** A wrong version of the license list or a wrong reference to another document, wherever it stands *)
Theorem C73_wrong_header :
  forall (O : oracles) one gs1 before after g gs2 d m,
    Attributes before gs1 -> Attributes (tag_name (g_tag g) ++ after) (g :: gs2) -> Attributes one (gs1 ++ gs2) -> tv_parse O one = Ok d ->
    HeaderMistake (line_after before) g m -> ~ In T_LicenseListVersion (map g_tag gs1) \/ g_tag g = T_ExternalDocumentRef ->
    tv_parse O (before ++ tag_name (g_tag g) ++ after) = Raise (EParsing [$"Error while parsing CreationInfo: " ++ show_list [m]]).
Proof. exact TvReport2.one_wrong_header. Qed.
Print Assumptions C73_wrong_header.

(** A value of a kind that the tag does not take: a tag about the document, and any other tag. The second message names the open element, whatever the
    tag. *)
Theorem C73_unfit_header :
  forall (O : oracles) one gs1 before after t k gs2 d,
    Attributes before gs1 -> Lines (tag_name t ++ after) ((t, k) :: flat_map fields gs2) -> Forall Good gs2 -> Attributes one (gs1 ++ gs2) -> tv_parse O one = Ok d ->
    In t header_tags -> ~ In (tk_type k) (kinds_of_value t) ->
    tv_parse O (before ++ tag_name t ++ after) = Raise (EParsing [$"Error while parsing CreationInfo: " ++ show_list [mismatch t (line_after before)]]).
Proof. exact TvReport3.one_unfit_header. Qed.
Print Assumptions C73_unfit_header.
Theorem C73_unfit :
  forall (O : oracles) one gs1 before after t k gs2 d s,
    Attributes before gs1 -> Lines (tag_name t ++ after) ((t, k) :: flat_map fields gs2) -> Forall Good gs2 -> Attributes one (gs1 ++ gs2) -> tv_parse O one = Ok d ->
    ~ In t (header_tags ++ start_tags ++ following_tags ++ [T_SPDXID]) -> ~ In (tk_type k) (kinds_of_value t) -> opened gs1 = Some s ->
    tv_parse O (before ++ tag_name t ++ after) = Raise (EParsing [$"Error while parsing " ++ element_name s ++ $": " ++ show_list [mismatch t (line_after before)]]).
Proof. exact TvReport3.one_unfit_inside. Qed.
Print Assumptions C73_unfit.
(** The exception is SPDXID: an identifier that is not a line is ignored, and the file is read as if the line was not there. *)
Theorem C73_unfit_identifier_ignored :
  forall (O : oracles) one gs1 before after k gs2 d,
    Attributes before gs1 -> Lines (tag_name T_SPDXID ++ after) ((T_SPDXID, k) :: flat_map fields gs2) -> Forall Good gs2 -> Attributes one (gs1 ++ gs2) -> tv_parse O one = Ok d ->
    tk_type k <> TT_LINE -> tv_parse O (before ++ tag_name T_SPDXID ++ after) = Ok d.
Proof. exact TvReport3.one_unfit_id. Qed.
Print Assumptions C73_unfit_identifier_ignored.

(** A line with an unknown tag. The exception: if its value is a tool, an organization or a checksum, the line is ignored. *)
Theorem C73_unknown_tag :
  forall (O : oracles) one gs1 before x v k after gs2 d,
    Attributes before gs1 -> UnknownTag x -> Spelled v k -> Attributes after gs2 -> Attributes one (gs1 ++ gs2) -> tv_parse O one = Ok d ->
    ~ In (tk_type k) [TT_TOOL_VALUE; TT_ORGANIZATION_VALUE; TT_CHECKSUM] ->
    tv_parse O (before ++ x ++ $": " ++ v ++ [LF] ++ after) = Raise (EParsing [$"Unknown tag provided in line " ++ line_after before]).
Proof. exact TvReport4.one_unknown_told. Qed.
Print Assumptions C73_unknown_tag.
Theorem C73_unknown_tag_ignored :
  forall (O : oracles) one gs1 before x v k after gs2 d,
    Attributes before gs1 -> UnknownTag x -> Spelled v k -> Attributes after gs2 -> Attributes one (gs1 ++ gs2) -> tv_parse O one = Ok d ->
    In (tk_type k) [TT_TOOL_VALUE; TT_ORGANIZATION_VALUE; TT_CHECKSUM] ->
    tv_parse O (before ++ x ++ $": " ++ v ++ [LF] ++ after) = Ok d.
Proof. exact TvReport4.one_unknown_ignored. Qed.
Print Assumptions C73_unknown_tag_ignored.

(** A document with a package, and then a file; each mistake is on line 11, 12 or 13. *)
Definition C73_text (gs : list grp) : pystr :=
  List.concat (map (fun x : tag * token => tag_name (fst x) ++ $": " ++ tk_value (snd x) ++ [LF]) (flat_map fields gs)).
Definition C73_line (t : tag) (v : pystr) : grp := a_line t v None.
Definition C73_head : list grp :=
  [C73_line T_SPDXVersion $"SPDX-2.3"; C73_line T_DataLicense $"CC0-1.0"; C73_line T_SPDXID $"SPDXRef-DOCUMENT"; C73_line T_DocumentName $"doc";
   C73_line T_DocumentNamespace $"https://example.com/doc";
   {| g_tag := T_Creator; g_val := {| tk_type := TT_TOOL_VALUE; tk_value := $"Tool: tools-python" |}; g_com := None |};
   {| g_tag := T_Created; g_val := {| tk_type := TT_ISO8601_DATE; tk_value := $"2023-02-28T23:59:07Z" |}; g_com := None |};
   C73_line T_PackageName $"pkg"; C73_line T_SPDXID $"SPDXRef-Package"].
Definition C73_version : grp := C73_line T_PackageVersion $"1".
Definition C73_two_lines : pystr := $"two" ++ [LF] ++ $"lines".
Definition C73_enclosed : pystr := $"<text>" ++ C73_two_lines ++ $"</text>".
Definition C73_middle : list grp := [{| g_tag := T_PackageComment; g_val := {| tk_type := TT_TEXT; tk_value := C73_enclosed |}; g_com := None |}].
Definition C73_tail : list grp :=
  [{| g_tag := T_PackageDownloadLocation; g_val := {| tk_type := TT_NO_ASSERTION; tk_value := $"NOASSERTION" |}; g_com := None |};
   C73_line T_FileName $"./file"; C73_line T_SPDXID $"SPDXRef-File";
   {| g_tag := T_FileChecksum; g_val := {| tk_type := TT_CHECKSUM; tk_value := $"SHA1: 85ed0817af83a24ad8da68c2b5094de69833983c" |}; g_com := None |}].
Definition C73_rest (v : pystr) : pystr := $": " ++ v ++ [LF] ++ C73_text C73_tail.
Ltac C73_attributes :=
  split;
  [ unfold C73_rest, C73_text, C73_head, C73_version, C73_middle, C73_tail, C73_line, a_line; cbn [flat_map fields g_tag g_val g_com comment_tag app map List.concat fst snd tk_value];
    rewrite <- ?app_assoc;
    repeat first [ apply Lines_nil
                 | apply (Lines_field T_Creator); [apply (Sp_actor sample_tool (proj1 (TvSamples.actor_by_test sample_tool eq_refl eq_refl)))|]
                 | apply (Lines_field T_Created); [apply (Sp_date sample_date); [exact TvSamples.date_ok|vm_compute; reflexivity]|]
                 | apply (Lines_field T_FileChecksum); [apply (Sp_checksum sample_sha1); [apply TvSamples.hex_by_test; vm_compute; reflexivity|vm_compute; reflexivity]|]
                 | apply (Lines_field T_PackageDownloadLocation); [apply Sp_noassertion|]
                 | apply (Lines_field T_PackageComment); [exact (Sp_text C73_two_lines eq_refl)|]
                 | apply Lines_field; [apply Sp_line, TvSamples.line_by_test; vm_compute; reflexivity|] ]
  | repeat (constructor; [split; [eexists; split; reflexivity|first [exact Logic.I|split; [discriminate|reflexivity]]]|]); constructor ].
Lemma C73_is_ok {A} (r : result A) : match r with Ok _ => true | Raise _ => false end = true -> exists a, r = Ok a.
Proof. destruct r; [eauto|discriminate]. Qed.
Example C32_message_sample :
  tv_parse sample_oracles (C73_text (C73_head ++ C73_version :: C73_middle) ++ C73_text (C73_line T_PackageVersion $"2" :: C73_tail)) =
  Raise (EParsing [$"Error while parsing Package: ['Multiple values for PackageVersion found. Line: 13']"]).
Proof.
  destruct (C73_is_ok (tv_parse sample_oracles (C73_text ((C73_head ++ C73_version :: C73_middle) ++ C73_tail))) ltac:(vm_compute; reflexivity)) as (d & P).
  refine (C32_message sample_oracles _ C73_head C73_version C73_middle (C73_text (C73_head ++ C73_version :: C73_middle)) (C73_rest $"2") (C73_line T_PackageVersion $"2") C73_tail d T_PackageName _ _ _ P _ _ _ _ _).
  - C73_attributes.
  - C73_attributes.
  - C73_attributes.
  - cbn; tauto.
  - reflexivity.
  - reflexivity.
  - intros g [<-|[]] H. cbn in H. repeat (destruct H as [H|H]; [discriminate H|]). destruct H.
  - intros K. discriminate K.
Qed.
Example C32_document_message_sample :
  tv_parse sample_oracles (C73_text (C73_head ++ C73_version :: C73_middle) ++ C73_text (C73_line T_DocumentName $"2" :: C73_tail)) =
  Raise (EParsing [$"Error while parsing CreationInfo: ['Multiple values for DocumentName found. Line: 13']"]).
Proof.
  destruct (C73_is_ok (tv_parse sample_oracles (C73_text ((C73_head ++ C73_version :: C73_middle) ++ C73_tail))) ltac:(vm_compute; reflexivity)) as (d & P).
  refine (C32_document_message sample_oracles (C73_text ((C73_head ++ C73_version :: C73_middle) ++ C73_tail)) (firstn 3 C73_head) (C73_line T_DocumentName $"doc") (skipn 4 C73_head ++ C73_version :: C73_middle) (C73_text (C73_head ++ C73_version :: C73_middle)) (C73_rest $"2") (C73_line T_DocumentName $"2") C73_tail d _ _ _ P _ _).
  - cbn [firstn skipn C73_head app]. C73_attributes.
  - C73_attributes.
  - cbn [firstn skipn C73_head app]. C73_attributes.
  - cbn; tauto.
  - reflexivity.
Qed.
Example C73_outside_sample :
  tv_parse sample_oracles (C73_text (C73_head ++ C73_version :: C73_middle) ++ C73_text (C73_line T_FileComment $"x" :: C73_tail)) =
  Raise (EParsing [$"Element File is not the current element in scope, probably the expected tag to start the element (FileName) is missing. Line: 13"]).
Proof.
  destruct (C73_is_ok (tv_parse sample_oracles (C73_text ((C73_head ++ C73_version :: C73_middle) ++ C73_tail))) ltac:(vm_compute; reflexivity)) as (d & P).
  refine (C73_outside_of_its_element sample_oracles _ (C73_head ++ C73_version :: C73_middle) (C73_text (C73_head ++ C73_version :: C73_middle)) (C73_rest $"x") (C73_line T_FileComment $"x") C73_tail d T_FileName _ _ _ P _ _ _).
  - C73_attributes.
  - C73_attributes.
  - C73_attributes.
  - reflexivity.
  - discriminate.
  - intros K. discriminate K.
Qed.
Example C73_wrong_value_sample :
  tv_parse sample_oracles (C73_text (C73_head ++ C73_version :: C73_middle) ++ C73_text (C73_line T_ExternalRef $"OTHER" :: C73_tail)) =
  Raise (EParsing [$"Error while parsing Package: [""Couldn't split PackageExternalRef in category, reference_type and locator. Line: 13""]"]).
Proof.
  destruct (C73_is_ok (tv_parse sample_oracles (C73_text ((C73_head ++ C73_version :: C73_middle) ++ C73_tail))) ltac:(vm_compute; reflexivity)) as (d & P).
  refine (C73_wrong_value sample_oracles _ (C73_head ++ C73_version :: C73_middle) (C73_text (C73_head ++ C73_version :: C73_middle)) (C73_rest $"OTHER") (C73_line T_ExternalRef $"OTHER") C73_tail d T_PackageName
            ($"Couldn't split PackageExternalRef in category, reference_type and locator. Line: 13") _ _ _ P _ _ _ _).
  - C73_attributes.
  - C73_attributes.
  - C73_attributes.
  - apply (M_reference _ $"OTHER" None). discriminate.
  - reflexivity.
  - reflexivity.
  - right. right. reflexivity.
Qed.
Definition C73_before : list grp := C73_head ++ C73_version :: C73_middle.
Lemma C73_before_ok : Attributes (C73_text C73_before) C73_before. Proof. unfold C73_before. C73_attributes. Qed.
Lemma C73_tail_ok : Attributes (C73_text C73_tail) C73_tail. Proof. C73_attributes. Qed.
Lemma C73_one_ok : Attributes (C73_text (C73_before ++ C73_tail)) (C73_before ++ C73_tail). Proof. unfold C73_before. C73_attributes. Qed.
Lemma C73_parsed : exists d, tv_parse sample_oracles (C73_text (C73_before ++ C73_tail)) = Ok d.
Proof. apply C73_is_ok. vm_compute. reflexivity. Qed.
Example C73_wrong_code_sample :
  tv_parse sample_oracles (C73_text C73_before ++ C73_text (C73_line T_PackageVerificationCode $"abc" :: C73_tail)) =
  Raise (EParsing [$"Error while parsing Package: ['Error while parsing PackageVerificationCode: Value did not match expected format. Line: 13']"]).
Proof.
  destruct C73_parsed as (d & P).
  refine (C73_wrong_value sample_oracles _ C73_before (C73_text C73_before) (C73_rest $"abc") (C73_line T_PackageVerificationCode $"abc") C73_tail d T_PackageName
            ($"Error while parsing PackageVerificationCode: Value did not match expected format. Line: 13") C73_before_ok _ C73_one_ok P _ _ _ _).
  - C73_attributes.
  - apply (M_code _ $"abc"). intros h r E L. exfalso. apply (f_equal (@List.length _)) in E. rewrite app_length, L in E. discriminate E.
  - reflexivity.
  - reflexivity.
  - left. vm_compute. intuition discriminate.
Qed.
(** a range "7" in a snippet *)
Example C73_wrong_range_sample : Mistake $"9" (C73_line T_SnippetByteRange $"7") $"Value for SnippetByteRange doesn't match valid range pattern. Line: 9".
Proof. apply (M_range $"9" T_SnippetByteRange $"7"); [cbn; tauto|]. intros [|x [|y a]] b E; auto; discriminate E. Qed.
Example C73_wrong_header_sample :
  tv_parse sample_oracles (C73_text C73_before ++ C73_text (C73_line T_LicenseListVersion $"x" :: C73_tail)) =
  Raise (EParsing [$"Error while parsing CreationInfo: ['x is not a valid version string']"]).
Proof.
  destruct C73_parsed as (d & P).
  refine (C73_wrong_header sample_oracles _ C73_before (C73_text C73_before) (C73_rest $"x") (C73_line T_LicenseListVersion $"x") C73_tail d ($"x is not a valid version string") C73_before_ok _ C73_one_ok P _ _).
  - C73_attributes.
  - apply (M_version _ $"x"). intros x ([|y [|z a]] & b & E & _); discriminate E.
  - left. vm_compute. intuition discriminate.
Qed.
Definition C73_reference : pystr := $"DocumentRef-a SHA1: " ++ repeat #"0" 40.
Example C73_wrong_reference_sample :
  tv_parse sample_oracles (C73_text C73_before ++ C73_text (C73_line T_ExternalDocumentRef C73_reference :: C73_tail)) =
  Raise (EParsing [$"Error while parsing CreationInfo: [""Error while parsing ExternalDocumentRef: Couldn't split the first part of the value into document_ref_id and document_uri. Line: 13""]"]).
Proof.
  destruct C73_parsed as (d & P).
  refine (C73_wrong_header sample_oracles _ C73_before (C73_text C73_before) (C73_rest C73_reference) (C73_line T_ExternalDocumentRef C73_reference) C73_tail d
            ($"Error while parsing ExternalDocumentRef: Couldn't split the first part of the value into document_ref_id and document_uri. Line: 13") C73_before_ok _ C73_one_ok P _ _).
  - C73_attributes.
  - apply (M_parts _ $"DocumentRef-a " (repeat #"0" 40)); vm_compute; try reflexivity. discriminate.
  - right. reflexivity.
Qed.
Example C73_unfit_header_sample :
  tv_parse sample_oracles (C73_text C73_before ++ $"Created: yesterday" ++ [LF] ++ C73_text C73_tail) =
  Raise (EParsing [$"Error while parsing CreationInfo: ['Error while parsing Created: Token did not match specified grammar rule. Line: 13']"]).
Proof.
  destruct C73_parsed as (d & P).
  refine (C73_unfit_header sample_oracles _ C73_before (C73_text C73_before) (C73_rest $"yesterday") T_Created {| tk_type := TT_LINE; tk_value := $"yesterday" |} C73_tail d C73_before_ok _ _ C73_one_ok P _ _).
  - unfold C73_rest. apply Lines_field; [apply Sp_line, TvSamples.line_by_test; vm_compute; reflexivity|exact (proj1 C73_tail_ok)].
  - exact (proj2 C73_tail_ok).
  - cbn; tauto.
  - intros [K|[]]. discriminate K.
Qed.
Example C73_unfit_sample :
  tv_parse sample_oracles (C73_text C73_before ++ $"FilesAnalyzed: NOASSERTION" ++ [LF] ++ C73_text C73_tail) =
  Raise (EParsing [$"Error while parsing Package: ['Error while parsing FilesAnalyzed: Token did not match specified grammar rule. Line: 13']"]).
Proof.
  destruct C73_parsed as (d & P).
  refine (C73_unfit sample_oracles _ C73_before (C73_text C73_before) (C73_rest $"NOASSERTION") T_FilesAnalyzed {| tk_type := TT_NO_ASSERTION; tk_value := $"NOASSERTION" |} C73_tail d T_PackageName
            C73_before_ok _ _ C73_one_ok P _ _ _).
  - unfold C73_rest. apply Lines_field; [apply Sp_noassertion|exact (proj1 C73_tail_ok)].
  - exact (proj2 C73_tail_ok).
  - cbn. intro K. repeat (destruct K as [K|K]; [discriminate K|]). destruct K.
  - intros [K|[]]. discriminate K.
  - reflexivity.
Qed.
Example C73_unfit_identifier_sample :
  tv_parse sample_oracles (C73_text C73_before ++ $"SPDXID: NONE" ++ [LF] ++ C73_text C73_tail) = tv_parse sample_oracles (C73_text (C73_before ++ C73_tail)).
Proof.
  destruct C73_parsed as (d & P). rewrite P.
  refine (C73_unfit_identifier_ignored sample_oracles _ C73_before (C73_text C73_before) (C73_rest $"NONE") {| tk_type := TT_NONE; tk_value := $"NONE" |} C73_tail d
            C73_before_ok _ _ C73_one_ok P _).
  - unfold C73_rest. apply Lines_field; [apply Sp_none|exact (proj1 C73_tail_ok)].
  - exact (proj2 C73_tail_ok).
  - discriminate.
Qed.
Lemma C73_word : UnknownTag $"Foo".
Proof.
  split; [discriminate|]. split; [reflexivity|]. split; intro H; apply str_in_In in H; vm_compute in H; discriminate H.
Qed.
Example C73_unknown_tag_sample :
  tv_parse sample_oracles (C73_text C73_before ++ $"Foo: bar" ++ [LF] ++ C73_text C73_tail) = Raise (EParsing [$"Unknown tag provided in line 13"]).
Proof.
  destruct C73_parsed as (d & P).
  refine (C73_unknown_tag sample_oracles _ C73_before (C73_text C73_before) $"Foo" $"bar" _ (C73_text C73_tail) C73_tail d C73_before_ok C73_word _ C73_tail_ok C73_one_ok P _).
  - apply Sp_line, TvSamples.line_by_test. vm_compute. reflexivity.
  - cbn. intros [K|[K|[K|[]]]]; discriminate K.
Qed.
Example C73_unknown_tag_ignored_sample :
  tv_parse sample_oracles (C73_text C73_before ++ $"Foo: " ++ actor_str sample_tool ++ [LF] ++ C73_text C73_tail) = tv_parse sample_oracles (C73_text (C73_before ++ C73_tail)).
Proof.
  destruct C73_parsed as (d & P). rewrite P.
  refine (C73_unknown_tag_ignored sample_oracles _ C73_before (C73_text C73_before) $"Foo" (actor_str sample_tool) _ (C73_text C73_tail) C73_tail d C73_before_ok C73_word
            (Sp_actor sample_tool (proj1 (TvSamples.actor_by_test sample_tool eq_refl eq_refl))) C73_tail_ok C73_one_ok P _).
  cbn; tauto.
Qed.
