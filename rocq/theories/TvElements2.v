(** Every written element is read back (3): files, snippets, annotations, relationships, license texts. *)
From Verif Require Import Py PyFacts PyRe PyReFacts Data Oracles Basics BasicsSpec BasicsFacts ActorFacts Json Construct JsonConv JsonParse JsonSpec
  JsonRound TvWriter TvLexer TvSpec TvTokSpec TvLexFacts TvLexValues TvParser TvParseFacts TvFieldFacts TvElemFacts TvSpecialFacts TvElements.
From Coq Require Import Permutation.

Lemma insert_perm x l : Permutation (x :: l) (insert_str x l).
Proof.
  induction l as [|y l IH]; cbn [insert_str]; auto. destruct (str_leb x y); auto. rewrite perm_swap. constructor. exact IH.
Qed.
Lemma sorted_perm l : Permutation l (sorted l).
Proof. induction l as [|x l IH]; cbn [sorted fold_right]; auto. rewrite <- insert_perm. constructor. exact IH. Qed.
Lemma sorted_Forall (P : pystr -> Prop) l : Forall P l -> Forall P (sorted l).
Proof. intro H. eapply Permutation_Forall; [apply sorted_perm|exact H]. Qed.
Definition sorted_file (f : file) : file :=
  {| fi_name := fi_name f; fi_id := fi_id f; fi_checksums := fi_checksums f; fi_types := fi_types f;
     fi_concluded := fi_concluded f; fi_info := fi_info f; fi_lic_comment := fi_lic_comment f;
     fi_copyright := fi_copyright f; fi_comment := fi_comment f; fi_notice := fi_notice f;
     fi_contributors := sorted (fi_contributors f); fi_attribution := fi_attribution f |}.
Definition sorted_extracted (e : extracted) : extracted :=
  {| el_id := el_id e; el_text := el_text e; el_name := el_name e; el_xrefs := sorted (el_xrefs e); el_comment := el_comment e |}.
Lemma same_sorted_file f : SameFile f (sorted_file f).
Proof. exists (sorted (fi_contributors f)). split; [apply sorted_perm|reflexivity]. Qed.
Lemma same_sorted_extracted f : SameExtracted f (sorted_extracted f).
Proof. exists (sorted (el_xrefs f)). split; [apply sorted_perm|reflexivity]. Qed.

Section WithOracles.
Variable O : oracles.
Notation Steps := (Steps O).
Notation Adds := (Adds O).

Theorem adds_file f : TvFile O f -> Adds (write_file O f) (add_file (sorted_file f)).
Proof.
  intros [H1 [H2 _] H3 H4 H5 H6 H7 H8 H9 H10 H11 H12] st ci b y Hy Hs Hc. apply sorted_Forall in H11.
  eexists. split.
  - unfold write_file.
    eapply Steps_writes; [apply (Steps_heading O $"# File Information"); reflexivity|].
    eapply Steps_writes; [apply (start_generic O T_FileName K_line (fi_name f) (line_tok (fi_name f)) (VStr (fi_name f)) st b ci C_File $"name");
      auto using ValTok_line, line_CR; try (intro line; exists (fi_name f); reflexivity)|].
    eapply Steps_writes; [eapply f_spdx_id; eauto; reflexivity|].
    eapply Steps_writes; [apply f_types; auto|].
    eapply Steps_writes; [apply (f_checksums O _ _ _ _ T_FileChecksum); auto|].
    eapply Steps_writes; [apply (f_opt_license O _ _ _ _ T_LicenseConcluded _ $"license_concluded"); auto|].
    eapply Steps_writes; [apply (f_licenses O _ _ _ _ T_LicenseInfoInFile _ $"license_info_in_file"); auto|].
    eapply Steps_writes; [apply (f_opt_text O _ _ _ _ T_LicenseComments _ $"license_comment"); auto|].
    eapply Steps_writes; [apply (f_text_value O _ _ _ _ T_FileCopyrightText _ $"copyright_text"); auto|].
    eapply Steps_writes; [apply (f_opt_text O _ _ _ _ T_FileComment _ $"comment"); auto|].
    eapply Steps_writes; [apply (f_opt_text O _ _ _ _ T_FileNotice _ $"notice"); auto|].
    eapply Steps_writes; [apply (f_lines O _ _ _ _ T_FileContributor _ $"contributors"); auto|].
    eapply Steps_writes; [apply (f_texts O _ _ _ _ T_FileAttributionText _ $"attribution_texts"); auto|].
    apply Steps_done.
  - cbn [app]. apply closed_file; auto. assert (E : entry VChecksums (fi_checksums f) = Some (VChecksums (fi_checksums f))) by (destruct (fi_checksums f); [congruence|reflexivity]).
    unfold construct_file. rewrite kwargs_table; [|reflexivity|reflexivity|cbn; rewrite E; reflexivity]. apply construct_ok.
    match goal with |- context [table ?L] => assert (D : keys_distinct L = true) by reflexivity end.
    unfold sorted_file. args D.
Qed.
Theorem adds_snippet s : TvSnippet O s -> Adds (write_snippet O s) (add_snippet s).
Proof.
  intros [H1 H2 H3 H4 H5 H6 H7 H8 H9 H10 H11] st ci b y Hy Hs Hc.
  eexists. split.
  - unfold write_snippet.
    eapply Steps_writes; [apply (Steps_heading O $"# Snippet Information"); reflexivity|].
    eapply Steps_writes; [apply (start_generic O T_SnippetSPDXID K_line (sn_id s) (line_tok (sn_id s)) (VStr (sn_id s)) st b ci C_Snippet $"spdx_id");
      auto using ValTok_line, line_CR; try (intro line; exists (sn_id s); reflexivity)|].
    eapply Steps_writes; [apply (f_line O _ _ _ _ T_SnippetFromFileSPDXID _ $"file_spdx_id"); auto|].
    eapply Steps_writes; [apply (f_range O _ _ _ T_SnippetByteRange $"byte_range"); auto|].
    eapply Steps_writes; [apply (f_range O _ _ _ T_SnippetLineRange $"line_range"); auto|].
    eapply Steps_writes; [apply (f_opt_license O _ _ _ _ T_SnippetLicenseConcluded _ $"license_concluded"); auto|].
    eapply Steps_writes; [apply (f_licenses O _ _ _ _ T_LicenseInfoInSnippet _ $"license_info_in_snippet"); auto|].
    eapply Steps_writes; [apply (f_opt_text O _ _ _ _ T_SnippetLicenseComments _ $"license_comment"); auto|].
    eapply Steps_writes; [apply (f_text_value O _ _ _ _ T_SnippetCopyrightText _ $"copyright_text"); auto|].
    eapply Steps_writes; [apply (f_opt_text O _ _ _ _ T_SnippetComment _ $"comment"); auto|].
    eapply Steps_writes; [apply (f_opt_line O _ _ _ _ T_SnippetName _ $"name"); auto|].
    eapply Steps_writes; [apply (f_texts O _ _ _ _ T_SnippetAttributionText _ $"attribution_texts"); auto|].
    apply Steps_done.
  - cbn [app]. apply closed_snippet. unfold construct_snippet. rewrite kwargs_table by reflexivity. apply construct_ok.
    match goal with |- context [table ?L] => assert (D : keys_distinct L = true) by reflexivity end.
    transitivity (COk (Build_snippet (sn_id s) (sn_file s) (sn_bytes s) (sn_lines s) (sn_concluded s) (sn_info s) (sn_lic_comment s)
      (sn_copyright s) (sn_comment s) (sn_name s) (sn_attribution s))); [|destruct s; reflexivity].
    args D.
Qed.
Theorem adds_annotation a : TvAnnotation a -> Adds (write_annotation a) (add_annotation a).
Proof.
  intros [H1 H2 H3 H4] st ci b y Hy Hs Hc. eexists. split.
  - unfold write_annotation.
    eapply Steps_writes; [apply (Steps_field O T_Annotator K_actor (actor_str (an_annotator a)) (act_tok (an_annotator a)) st (est b ci C_Annotation [($"annotator", Some (VActor (an_annotator a)))]));
      [apply ValTok_actor, H2|apply actor_CR; auto|reflexivity|unfold act_tok; destruct (ac_type (an_annotator a)); reflexivity|]|].
    { intro line. cbn [act act_tok tk_value]. unfold annotator_action. rewrite (Closed_init st ci b C_Annotation Hc). cbn [bind].
      destruct H2 as [H2 _]. apply actor_round_trip in H2. rewrite H2. cbn [bind]. rewrite set_cur_est by reflexivity. reflexivity. }
    eapply Steps_writes; [apply (f_opt_date O _ _ _ _ T_AnnotationDate (Some (an_date a))); auto|].
    eapply Steps_writes.
    { apply (f_set O _ _ C_Annotation _ T_AnnotationType K_line (annotation_type_name (an_type a)) (line_tok (annotation_type_name (an_type a))) (VAnnType (an_type a)) $"annotation_type"); try reflexivity.
      - apply ValTok_line. destruct (an_type a); (split; [apply has_char_false; reflexivity|]; split; [apply has_char_false; reflexivity|]; split; [reflexivity|left; reflexivity]).
      - apply has_char_false. destruct (an_type a); reflexivity.
      - intro line. exists []. cbn [act line_tok tk_value]. destruct (an_type a); reflexivity. }
    eapply Steps_writes; [apply (f_line O _ _ _ _ T_SPDXREF _ $"spdx_id"); auto|].
    eapply Steps_writes; [apply (f_text O _ _ _ _ T_AnnotationComment _ $"annotation_comment"); auto|].
    apply Steps_done.
  - cbn [app]. apply closed_annotation. unfold construct_annotation. rewrite kwargs_table by reflexivity. apply construct_ok.
    match goal with |- context [table ?L] => assert (D : keys_distinct L = true) by reflexivity end.
    transitivity (COk (Build_annotation (an_id a) (an_type a) (an_annotator a) (an_date a) (an_comment a))); [|destruct a; reflexivity].
    args D.
Qed.
Theorem adds_extracted e : TvExtracted e -> Adds (write_extracted_licensing_info e) (add_extracted (sorted_extracted e)).
Proof.
  intros [(id & H1 & H1') H2 H3 H4 H5] st ci b y Hy Hs Hc. apply sorted_Forall in H4. eexists. split.
  - unfold write_extracted_licensing_info. rewrite H1. cbn [write_opt].
    eapply Steps_writes; [apply (start_generic O T_LicenseID K_line id (line_tok id) (VStr id) st b ci C_Extracted $"license_id");
      auto using ValTok_line, line_CR; try (intro line; exists id; reflexivity)|].
    eapply Steps_writes; [apply (f_opt_text O _ _ _ _ T_ExtractedText _ $"extracted_text"); auto|].
    eapply Steps_writes.
    { rewrite write_opt_eq. apply (optional O (fun x => match x with AVal s => Line s | _ => True end) _ na_tval _ _ _ _ _ $"license_name"); [exact H3|].
      intros x Hx. apply (field_generic O T_LicenseName K_line_or_na (na_to_str (fun s => s) x) (match x with AVal s => line_tok s | ANoAssertion => nn_tok NNoAssertion end)); try reflexivity.
      - destruct x; [apply ValTok_line; auto|apply ValTok_noassertion].
      - destruct x; [apply line_CR; auto|apply has_char_false; reflexivity].
      - destruct x; reflexivity.
      - intro line. exists []. destruct x; reflexivity. }
    eapply Steps_writes; [apply (f_lines O _ _ _ _ T_LicenseCrossReference _ $"cross_references"); auto|].
    eapply Steps_writes; [apply (f_opt_text O _ _ _ _ T_LicenseComment _ $"comment"); auto|].
    apply Steps_done.
  - cbn [app]. apply closed_extracted. unfold construct_extracted. rewrite kwargs_table by reflexivity. apply construct_ok.
    match goal with |- context [table ?L] => assert (D : keys_distinct L = true) by reflexivity end.
    unfold sorted_extracted. rewrite H1. 
    match goal with |- ?l = _ => assert (X : l = COk (Build_extracted (Some id) (el_text e) (el_name e) (sorted (el_xrefs e)) (el_comment e))) end; [|exact X].
    args D.
Qed.
Definition rel_line (r : relationship) : pystr := join $" " [re_id r; rel_type_name (re_type r); text_str (re_related r)].
Theorem adds_relationship r : TvRelationship r -> Adds (write_relationship r) (add_relationship r).
Proof.
  intros [[H1 H1'] H2 H3] st ci b y Hy Hs Hc.
  assert (U : Unspaced (rel_type_name (re_type r))) by (apply unspaced_word; destruct (re_type r); reflexivity).
  assert (U2 : Unspaced (text_str (re_related r))).
  { destruct (re_related r); [apply H2|apply unspaced_word; reflexivity|apply unspaced_word; reflexivity]. }
  assert (HL : Line (rel_line r)) by (apply three_line; auto using unspaced_solid, unspaced_LF, unspaced_CR).
  assert (A : forall line, relationship_action line (rel_line r) (re_comment r) st = Ok (est b ci C_Relationship
     [($"relationship_type", Some (VRelType (re_type r))); ($"related_spdx_element_id", Some (nn_tval (re_related r)));
      ($"spdx_element_id", Some (VStr (re_id r))); ($"comment", option_map VStr (re_comment r))])).
  { intro line. unfold relationship_action. rewrite (Closed_init st ci b C_Relationship Hc). cbn [bind]. unfold rel_line.
    rewrite split_three by auto using unspaced_not_space.
    assert (E : enum_lookup rel_type_all rel_type_name (rel_type_name (re_type r)) = Some (re_type r)) by (destruct (re_type r); vm_compute; reflexivity).
    rewrite E. cbn zeta.
    assert (V : (if str_eqb (text_str (re_related r)) $"NONE" then VNone else if str_eqb (text_str (re_related r)) $"NOASSERTION" then VNoAssertion else VStr (text_str (re_related r))) = nn_tval (re_related r)).
    { destruct (re_related r) as [s| |]; try reflexivity. destruct H2 as (_ & N1 & N2). cbn [text_str nn_to_str nn_tval].
      destruct (str_eqb s $"NONE") eqn:E1; [apply str_eqb_eq in E1; congruence|]. destruct (str_eqb s $"NOASSERTION") eqn:E2; [apply str_eqb_eq in E2; congruence|]. reflexivity. }
    rewrite V. destruct (re_comment r); reflexivity. }
  exists (est b ci C_Relationship
     [($"relationship_type", Some (VRelType (re_type r))); ($"related_spdx_element_id", Some (nn_tval (re_related r)));
      ($"spdx_element_id", Some (VStr (re_id r))); ($"comment", option_map VStr (re_comment r))]). split.
  - unfold write_relationship. fold (rel_line r). destruct (re_comment r) as [cm|] eqn:E.
    + cbn [write_opt_text]. rewrite write_text_eq.
      apply (Steps_field_comment O T_Relationship T_RelationshipComment K_line _ (line_tok (rel_line r)) _ (text_tok cm));
        auto using ValTok_line, line_CR, ValTok_text_form, text_CR.
      * apply text_accepts.
      * intro line. cbn [act line_tok tk_value option_map]. rewrite text_value by exact H3. apply A.
    + eapply Steps_writes; [|eapply Steps_writes; [apply Steps_nil|apply Steps_done]].
      apply (Steps_field O T_Relationship K_line _ (line_tok (rel_line r))); auto using ValTok_line, line_CR.
  - apply closed_relationship. unfold construct_relationship. rewrite kwargs_table by reflexivity. apply construct_ok.
    match goal with |- context [table ?L] => assert (D : keys_distinct L = true) by reflexivity end.
    transitivity (COk (Build_relationship (re_id r) (re_type r) (re_related r) (re_comment r))); [|destruct r; reflexivity].
    args D.
Qed.
End WithOracles.
