(** Blocks of elements and the document. *)
From Verif Require Import Py PyFacts PyRe PyReFacts PyReSound Data Oracles Basics Json Construct JsonConv JsonParse JsonSpec JsonRead
  TvWriter TvLexer TvSpec TvTokSpec TvLexFacts TvLexValues TvFieldFacts TvSpecialFacts TvParser TvParseFacts TvErrors TvRepeat TvRaises TvReadSpec TvRead TvRead2 TvRead3 TvRead4 TvRead5 TvRead6.

Lemma in_tag_all t : In t tag_all.
Proof. assert (H : existsb (tag_eqb t) tag_all = true) by (destruct t; vm_compute; reflexivity). apply existsb_exists in H as (x & Hx & E). apply tag_eqb_spec in E. congruence. Qed.
Lemma only_all gs : Only tag_all gs.
Proof. apply Forall_forall. intros g _. apply in_tag_all. Qed.
Lemma is_in_In t l : is_in t l = true -> In t l.
Proof. unfold is_in. intro H. apply existsb_exists in H as (x & Hx & E). apply tag_eqb_spec in E. congruence. Qed.
Section WithOracles.
Variable O : oracles.
Lemma only_from sh tags gs : forallb (fun t => match sh t with Sh_fail => true | _ => is_in t tags end) tag_all = true ->
  Forall (fun g => sh (g_tag g) <> Sh_fail) gs -> Only tags gs.
Proof.
  intros C. apply Forall_impl. intros g N. rewrite forallb_forall in C. specialize (C _ (in_tag_all (g_tag g))). apply is_in_In. destruct (sh (g_tag g)); auto; congruence.
Qed.
Lemma dict_cells sh gs d : do_ops (map (the_op O sh) gs) [] = Some d -> forall n, cells n (map (the_op O sh) gs) None = Some (assoc n d).
Proof. intros H n. exact (do_ops_cells _ _ _ H n). Qed.
Lemma cells_reads {Y} sh n gs (T : option tval -> chk Y) y d : cells n (map (the_op O sh) gs) None = Some (assoc n d) -> T (assoc n d) = COk y -> Reads O sh n gs T y.
Proof. intros A B. exists (assoc n d). auto. Qed.
Lemma assoc_some_in {V} k (v : V) d : assoc k d = Some v -> exists k', In (k', v) d /\ k' = k.
Proof.
  induction d as [|[k' v'] d IH]; cbn [assoc]; [discriminate|]. destruct (str_eqb k k') eqn:E.
  - intro H. injection H as ->. apply str_eqb_eq in E. exists k'. split; [left; reflexivity|auto].
  - intro H. destruct (IH H) as (k'' & A & B). exists k''. split; [right; exact A|exact B].
Qed.
Lemma extracted_only gs d x : do_ops (map (the_op O (cshape C_Extracted)) gs) [] = Some d -> construct_extracted d = Ok x -> Only extracted_tags gs.
Proof.
  intros F K. assert (Ho : Only (T_SPDXID :: extracted_tags) gs) by (apply (only_from (cshape C_Extracted) (T_SPDXID :: extracted_tags) gs); [vm_compute; reflexivity|exact (not_failed O _ _ _ _ F)]).
  pose proof (dict_cells _ _ _ F $"spdx_id") as C. rewrite (over_cells O (cshape C_Extracted) $"spdx_id" T_SPDXID (T_SPDXID :: extracted_tags) gs Ho None) in C by (vm_compute; reflexivity).
  destruct (rev (with_tag T_SPDXID gs)) as [|g l] eqn:R.
  - apply rev_nil in R. apply Forall_forall. intros g Hg. unfold Only in Ho. rewrite Forall_forall in Ho. destruct (Ho g Hg) as [E|I]; auto.
    exfalso. assert (I : In g (with_tag T_SPDXID gs)) by (apply filter_In; split; [exact Hg|apply tag_eqb_spec; symmetry; exact E]). rewrite R in I. destruct I.
  - exfalso. assert (C' : assoc $"spdx_id" d = Some (VStr (tk_value (g_val g)))) by congruence. apply assoc_some_in in C' as (k & I & E). apply kwargs_iff in K as (K & _). rewrite Forall_forall in K. apply K in I. cbn [fst] in I. subst k.
    apply str_in_In in I. revert I. clear. vm_compute. discriminate.
Qed.
Ltac names := repeat first [apply Forall_nil | apply Forall_cons; [eapply reads_defined; eassumption|]].

Lemma package_says gs x : (forall g, In g gs -> Fine g) -> ((exists d, fill O C_Package gs [] = Some d /\ construct_package d = Ok x) <-> SaysPackage O gs x).
Proof.
  intros Hf. split.
  - intros (d & F & K). rewrite fill_ops in F by discriminate. assert (Ho : Only package_tags gs) by (apply (only_from (cshape C_Package) package_tags gs); [vm_compute; reflexivity|exact (not_failed O _ _ _ _ F)]).
    pose proof (dict_cells _ _ _ F) as C. apply kwargs_iff in K as (_ & K2 & K3). cbv zeta in K3. ap_inv K3.
    assert (Q : forall k, In k [$"spdx_id"; $"name"; $"download_location"] -> assoc k d <> None) by (apply Forall_forall; exact K2). clear K2.
    constructor.
    + exact Ho.
    + apply (f_pk_id O gs _ Ho); eapply cells_reads; [apply C|eassumption].
    + apply (f_pk_name O gs Hf _ Ho); eapply cells_reads; [apply C|eassumption].
    + apply (f_pk_download O gs Hf _ Ho); eapply cells_reads; [apply C|eassumption].
    + apply (f_pk_version O gs Hf _ Ho); eapply cells_reads; [apply C|eassumption].
    + apply (f_pk_file_name O gs Hf _ Ho); eapply cells_reads; [apply C|eassumption].
    + apply (f_pk_supplier O gs Hf _ Ho); eapply cells_reads; [apply C|eassumption].
    + apply (f_pk_originator O gs Hf _ Ho); eapply cells_reads; [apply C|eassumption].
    + apply (f_pk_files_analyzed O gs Hf _ Ho); eapply cells_reads; [apply C|eassumption].
    + apply (f_pk_verif O gs Hf _ Ho); eapply cells_reads; [apply C|eassumption].
    + eapply (proj1 (f_pk_checksums O gs Hf _ Ho)); [apply C|eassumption].
    + apply (f_pk_homepage O gs Hf _ Ho); eapply cells_reads; [apply C|eassumption].
    + apply (f_pk_source_info O gs Hf _ Ho); eapply cells_reads; [apply C|eassumption].
    + apply (f_pk_concluded O gs Hf _ Ho); eapply cells_reads; [apply C|eassumption].
    + eapply (proj1 (f_pk_info O gs Hf _ Ho)); [apply C|eassumption].
    + apply (f_pk_declared O gs Hf _ Ho); eapply cells_reads; [apply C|eassumption].
    + apply (f_pk_lic_comment O gs Hf _ Ho); eapply cells_reads; [apply C|eassumption].
    + apply (f_pk_copyright O gs Hf _ Ho); eapply cells_reads; [apply C|eassumption].
    + apply (f_pk_summary O gs Hf _ Ho); eapply cells_reads; [apply C|eassumption].
    + apply (f_pk_description O gs Hf _ Ho); eapply cells_reads; [apply C|eassumption].
    + apply (f_pk_comment O gs Hf _ Ho); eapply cells_reads; [apply C|eassumption].
    + eapply (proj1 (f_pk_refs O gs Hf _ Ho)); [apply C|eassumption].
    + eapply (proj1 (f_pk_attribution O gs Hf _ Ho)); [apply C|eassumption].
    + apply (f_pk_purpose O gs Hf _ Ho); eapply cells_reads; [apply C|eassumption].
    + apply (f_pk_release O gs Hf _ Ho); eapply cells_reads; [apply C|eassumption].
    + apply (f_pk_built O gs Hf _ Ho); eapply cells_reads; [apply C|eassumption].
    + apply (f_pk_valid_until O gs Hf _ Ho); eapply cells_reads; [apply C|eassumption].
  - intro S. pose proof (sp_only _ _ _ S) as Ho.
    pose proof (proj2 (f_pk_id O gs _ Ho) (sp_id _ _ _ S)) as R0.
    pose proof (proj2 (f_pk_name O gs Hf _ Ho) (sp_name _ _ _ S)) as R1.
    pose proof (proj2 (f_pk_download O gs Hf _ Ho) (sp_download _ _ _ S)) as R2.
    pose proof (proj2 (f_pk_version O gs Hf _ Ho) (sp_version _ _ _ S)) as R3.
    pose proof (proj2 (f_pk_file_name O gs Hf _ Ho) (sp_file_name _ _ _ S)) as R4.
    pose proof (proj2 (f_pk_supplier O gs Hf _ Ho) (sp_supplier _ _ _ S)) as R5.
    pose proof (proj2 (f_pk_originator O gs Hf _ Ho) (sp_originator _ _ _ S)) as R6.
    pose proof (proj2 (f_pk_files_analyzed O gs Hf _ Ho) (sp_analyzed _ _ _ S)) as R7.
    pose proof (proj2 (f_pk_verif O gs Hf _ Ho) (sp_verif _ _ _ S)) as R8.
    pose proof (proj1 (proj2 (f_pk_checksums O gs Hf _ Ho) (sp_checksums _ _ _ S))) as R9.
    pose proof (proj2 (f_pk_homepage O gs Hf _ Ho) (sp_homepage _ _ _ S)) as R10.
    pose proof (proj2 (f_pk_source_info O gs Hf _ Ho) (sp_source_info _ _ _ S)) as R11.
    pose proof (proj2 (f_pk_concluded O gs Hf _ Ho) (sp_concluded _ _ _ S)) as R12.
    pose proof (proj1 (proj2 (f_pk_info O gs Hf _ Ho) (sp_info _ _ _ S))) as R13.
    pose proof (proj2 (f_pk_declared O gs Hf _ Ho) (sp_declared _ _ _ S)) as R14.
    pose proof (proj2 (f_pk_lic_comment O gs Hf _ Ho) (sp_lic_comment _ _ _ S)) as R15.
    pose proof (proj2 (f_pk_copyright O gs Hf _ Ho) (sp_copyright _ _ _ S)) as R16.
    pose proof (proj2 (f_pk_summary O gs Hf _ Ho) (sp_summary _ _ _ S)) as R17.
    pose proof (proj2 (f_pk_description O gs Hf _ Ho) (sp_description _ _ _ S)) as R18.
    pose proof (proj2 (f_pk_comment O gs Hf _ Ho) (sp_comment _ _ _ S)) as R19.
    pose proof (proj1 (proj2 (f_pk_refs O gs Hf _ Ho) (sp_refs _ _ _ S))) as R20.
    pose proof (proj1 (proj2 (f_pk_attribution O gs Hf _ Ho) (sp_attribution _ _ _ S))) as R21.
    pose proof (proj2 (f_pk_purpose O gs Hf _ Ho) (sp_purpose _ _ _ S)) as R22.
    pose proof (proj2 (f_pk_release O gs Hf _ Ho) (sp_release _ _ _ S)) as R23.
    pose proof (proj2 (f_pk_built O gs Hf _ Ho) (sp_built _ _ _ S)) as R24.
    pose proof (proj2 (f_pk_valid_until O gs Hf _ Ho) (sp_valid _ _ _ S)) as R25.
    destruct (have_dict O (cshape C_Package) [$"spdx_id"; $"name"; $"download_location"; $"version"; $"file_name"; $"supplier"; $"originator"; $"files_analyzed"; $"verification_code"; $"checksums"; $"homepage"; $"source_info"; $"license_concluded"; $"license_info_from_files"; $"license_declared"; $"license_comment"; $"copyright_text"; $"summary"; $"description"; $"comment"; $"external_references"; $"attribution_texts"; $"primary_package_purpose"; $"release_date"; $"built_date"; $"valid_until_date"] package_tags gs) as (d & F & C & N); [vm_compute; reflexivity|exact Ho|names|]. clear S.
    exists d. split; [rewrite fill_ops by discriminate; exact F|].
    apply (reads_at O _ _ _ _ _ d) in R0; [|exact C].
    apply (reads_at O _ _ _ _ _ d) in R1; [|exact C].
    apply (reads_at O _ _ _ _ _ d) in R2; [|exact C].
    apply (reads_at O _ _ _ _ _ d) in R3; [|exact C].
    apply (reads_at O _ _ _ _ _ d) in R4; [|exact C].
    apply (reads_at O _ _ _ _ _ d) in R5; [|exact C].
    apply (reads_at O _ _ _ _ _ d) in R6; [|exact C].
    apply (reads_at O _ _ _ _ _ d) in R7; [|exact C].
    apply (reads_at O _ _ _ _ _ d) in R8; [|exact C].
    apply (reads_at O _ _ _ _ _ d) in R9; [|exact C].
    apply (reads_at O _ _ _ _ _ d) in R10; [|exact C].
    apply (reads_at O _ _ _ _ _ d) in R11; [|exact C].
    apply (reads_at O _ _ _ _ _ d) in R12; [|exact C].
    apply (reads_at O _ _ _ _ _ d) in R13; [|exact C].
    apply (reads_at O _ _ _ _ _ d) in R14; [|exact C].
    apply (reads_at O _ _ _ _ _ d) in R15; [|exact C].
    apply (reads_at O _ _ _ _ _ d) in R16; [|exact C].
    apply (reads_at O _ _ _ _ _ d) in R17; [|exact C].
    apply (reads_at O _ _ _ _ _ d) in R18; [|exact C].
    apply (reads_at O _ _ _ _ _ d) in R19; [|exact C].
    apply (reads_at O _ _ _ _ _ d) in R20; [|exact C].
    apply (reads_at O _ _ _ _ _ d) in R21; [|exact C].
    apply (reads_at O _ _ _ _ _ d) in R22; [|exact C].
    apply (reads_at O _ _ _ _ _ d) in R23; [|exact C].
    apply (reads_at O _ _ _ _ _ d) in R24; [|exact C].
    apply (reads_at O _ _ _ _ _ d) in R25; [|exact C].
    apply kwargs_iff. split; [exact N|]. split.
    + repeat first [apply Forall_nil | apply Forall_cons].
      * intro Z. rewrite Z in R0. discriminate R0.
      * intro Z. rewrite Z in R1. discriminate R1.
      * intro Z. rewrite Z in R2. discriminate R2.
    + destruct x as [v0 v1 v2 v3 v4 v5 v6 v7 v8 v9 v10 v11 v12 v13 v14 v15 v16 v17 v18 v19 v20 v21 v22 v23 v24 v25]. cbn [pk_id pk_name pk_download pk_version pk_file_name pk_supplier pk_originator pk_files_analyzed pk_verif pk_checksums pk_homepage pk_source_info pk_concluded pk_info pk_declared pk_lic_comment pk_copyright pk_summary pk_description pk_comment pk_refs pk_attribution pk_purpose pk_release pk_built pk_valid_until] in *. ap_go; assumption.
Qed.
Lemma file_says gs x : (forall g, In g gs -> Fine g) -> ((exists d, fill O C_File gs [] = Some d /\ construct_file d = Ok x) <-> SaysFile O gs x).
Proof.
  intros Hf. split.
  - intros (d & F & K). rewrite fill_ops in F by discriminate. assert (Ho : Only file_tags gs) by (apply (only_from (cshape C_File) file_tags gs); [vm_compute; reflexivity|exact (not_failed O _ _ _ _ F)]).
    pose proof (dict_cells _ _ _ F) as C. apply kwargs_iff in K as (_ & K2 & K3). cbv zeta in K3. ap_inv K3.
    assert (Q : forall k, In k [$"name"; $"spdx_id"; $"checksums"] -> assoc k d <> None) by (apply Forall_forall; exact K2). clear K2.
    constructor.
    + exact Ho.
    + apply (f_fi_name O gs Hf _ Ho); eapply cells_reads; [apply C|eassumption].
    + apply (f_fi_id O gs _ Ho); eapply cells_reads; [apply C|eassumption].
    + match goal with H : t_checksums _ _ _ = COk ?l |- _ => destruct (proj1 (f_fi_checksums O gs Hf l Ho) _ (C $"checksums") H) as [X1 X2] end; split; [exact X1|]; intro Z; apply X2 in Z; apply (Q $"checksums"); [cbn [In]; auto 20|exact Z].
    + eapply (proj1 (f_fi_types O gs Hf _ Ho)); [apply C|eassumption].
    + apply (f_fi_concluded O gs Hf _ Ho); eapply cells_reads; [apply C|eassumption].
    + eapply (proj1 (f_fi_info O gs Hf _ Ho)); [apply C|eassumption].
    + apply (f_fi_lic_comment O gs Hf _ Ho); eapply cells_reads; [apply C|eassumption].
    + apply (f_fi_copyright O gs Hf _ Ho); eapply cells_reads; [apply C|eassumption].
    + apply (f_fi_comment O gs Hf _ Ho); eapply cells_reads; [apply C|eassumption].
    + apply (f_fi_notice O gs Hf _ Ho); eapply cells_reads; [apply C|eassumption].
    + eapply (proj1 (f_fi_contributors O gs Hf _ Ho)); [apply C|eassumption].
    + eapply (proj1 (f_fi_attribution O gs Hf _ Ho)); [apply C|eassumption].
  - intro S. pose proof (sf_only _ _ _ S) as Ho.
    pose proof (proj2 (f_fi_name O gs Hf _ Ho) (sf_name _ _ _ S)) as R0.
    pose proof (proj2 (f_fi_id O gs _ Ho) (sf_id _ _ _ S)) as R1.
    destruct (sf_checksums _ _ _ S) as [E2 N2].
    pose proof (proj2 (f_fi_checksums O gs Hf _ Ho) E2) as [R2 M2]. specialize (M2 N2).
    pose proof (proj1 (proj2 (f_fi_types O gs Hf _ Ho) (sf_types _ _ _ S))) as R3.
    pose proof (proj2 (f_fi_concluded O gs Hf _ Ho) (sf_concluded _ _ _ S)) as R4.
    pose proof (proj1 (proj2 (f_fi_info O gs Hf _ Ho) (sf_info _ _ _ S))) as R5.
    pose proof (proj2 (f_fi_lic_comment O gs Hf _ Ho) (sf_lic_comment _ _ _ S)) as R6.
    pose proof (proj2 (f_fi_copyright O gs Hf _ Ho) (sf_copyright _ _ _ S)) as R7.
    pose proof (proj2 (f_fi_comment O gs Hf _ Ho) (sf_comment _ _ _ S)) as R8.
    pose proof (proj2 (f_fi_notice O gs Hf _ Ho) (sf_notice _ _ _ S)) as R9.
    pose proof (proj1 (proj2 (f_fi_contributors O gs Hf _ Ho) (sf_contributors _ _ _ S))) as R10.
    pose proof (proj1 (proj2 (f_fi_attribution O gs Hf _ Ho) (sf_attribution _ _ _ S))) as R11.
    destruct (have_dict O (cshape C_File) [$"name"; $"spdx_id"; $"checksums"; $"file_types"; $"license_concluded"; $"license_info_in_file"; $"license_comment"; $"copyright_text"; $"comment"; $"notice"; $"contributors"; $"attribution_texts"] file_tags gs) as (d & F & C & N); [vm_compute; reflexivity|exact Ho|names|]. clear S.
    exists d. split; [rewrite fill_ops by discriminate; exact F|].
    apply (reads_at O _ _ _ _ _ d) in R0; [|exact C].
    apply (reads_at O _ _ _ _ _ d) in R1; [|exact C].
    apply (reads_at O _ _ _ _ _ d) in R2; [|exact C].
    apply (reads_at O _ _ _ _ _ d) in R3; [|exact C].
    apply (reads_at O _ _ _ _ _ d) in R4; [|exact C].
    apply (reads_at O _ _ _ _ _ d) in R5; [|exact C].
    apply (reads_at O _ _ _ _ _ d) in R6; [|exact C].
    apply (reads_at O _ _ _ _ _ d) in R7; [|exact C].
    apply (reads_at O _ _ _ _ _ d) in R8; [|exact C].
    apply (reads_at O _ _ _ _ _ d) in R9; [|exact C].
    apply (reads_at O _ _ _ _ _ d) in R10; [|exact C].
    apply (reads_at O _ _ _ _ _ d) in R11; [|exact C].
    apply kwargs_iff. split; [exact N|]. split.
    + repeat first [apply Forall_nil | apply Forall_cons].
      * intro Z. rewrite Z in R0. discriminate R0.
      * intro Z. rewrite Z in R1. discriminate R1.
      * rewrite C in M2. congruence.
    + destruct x as [v0 v1 v2 v3 v4 v5 v6 v7 v8 v9 v10 v11]. cbn [fi_name fi_id fi_checksums fi_types fi_concluded fi_info fi_lic_comment fi_copyright fi_comment fi_notice fi_contributors fi_attribution] in *. ap_go; assumption.
Qed.
Lemma snippet_says gs x : (forall g, In g gs -> Fine g) -> with_tag T_SnippetSPDXID gs <> [] -> ((exists d, fill O C_Snippet gs [] = Some d /\ construct_snippet d = Ok x) <-> SaysSnippet O gs x).
Proof.
  intros Hf Hs. split.
  - intros (d & F & K). rewrite fill_ops in F by discriminate. assert (Ho : Only snippet_tags gs) by (apply (only_from (cshape C_Snippet) snippet_tags gs); [vm_compute; reflexivity|exact (not_failed O _ _ _ _ F)]).
    pose proof (dict_cells _ _ _ F) as C. apply kwargs_iff in K as (_ & K2 & K3). cbv zeta in K3. ap_inv K3.
    assert (Q : forall k, In k [$"spdx_id"; $"file_spdx_id"; $"byte_range"] -> assoc k d <> None) by (apply Forall_forall; exact K2). clear K2.
    constructor.
    + exact Ho.
    + match goal with |- IdFrom _ _ ?s => assert (X : IdFrom T_SnippetSPDXID gs s \/ with_tag T_SnippetSPDXID gs = [] /\ LastId gs s) by (apply (f_sn_id O gs Hf _ Ho); eapply cells_reads; [apply C|eassumption]); destruct X as [X|[X _]]; [exact X|contradiction] end.
    + apply (f_sn_file O gs Hf _ Ho); eapply cells_reads; [apply C|eassumption].
    + apply (f_sn_bytes O gs Hf _ Ho); eapply cells_reads; [apply C|eassumption].
    + apply (f_sn_lines O gs Hf _ Ho); eapply cells_reads; [apply C|eassumption].
    + apply (f_sn_concluded O gs Hf _ Ho); eapply cells_reads; [apply C|eassumption].
    + eapply (proj1 (f_sn_info O gs Hf _ Ho)); [apply C|eassumption].
    + apply (f_sn_lic_comment O gs Hf _ Ho); eapply cells_reads; [apply C|eassumption].
    + apply (f_sn_copyright O gs Hf _ Ho); eapply cells_reads; [apply C|eassumption].
    + apply (f_sn_comment O gs Hf _ Ho); eapply cells_reads; [apply C|eassumption].
    + apply (f_sn_name O gs Hf _ Ho); eapply cells_reads; [apply C|eassumption].
    + eapply (proj1 (f_sn_attribution O gs Hf _ Ho)); [apply C|eassumption].
  - intro S. pose proof (ss_only _ _ _ S) as Ho.
    pose proof (proj2 (f_sn_id O gs Hf _ Ho) (or_introl (ss_id _ _ _ S))) as R0.
    pose proof (proj2 (f_sn_file O gs Hf _ Ho) (ss_file _ _ _ S)) as R1.
    pose proof (proj2 (f_sn_bytes O gs Hf _ Ho) (ss_bytes _ _ _ S)) as R2.
    pose proof (proj2 (f_sn_lines O gs Hf _ Ho) (ss_lines _ _ _ S)) as R3.
    pose proof (proj2 (f_sn_concluded O gs Hf _ Ho) (ss_concluded _ _ _ S)) as R4.
    pose proof (proj1 (proj2 (f_sn_info O gs Hf _ Ho) (ss_info _ _ _ S))) as R5.
    pose proof (proj2 (f_sn_lic_comment O gs Hf _ Ho) (ss_lic_comment _ _ _ S)) as R6.
    pose proof (proj2 (f_sn_copyright O gs Hf _ Ho) (ss_copyright _ _ _ S)) as R7.
    pose proof (proj2 (f_sn_comment O gs Hf _ Ho) (ss_comment _ _ _ S)) as R8.
    pose proof (proj2 (f_sn_name O gs Hf _ Ho) (ss_name _ _ _ S)) as R9.
    pose proof (proj1 (proj2 (f_sn_attribution O gs Hf _ Ho) (ss_attribution _ _ _ S))) as R10.
    destruct (have_dict O (cshape C_Snippet) [$"spdx_id"; $"file_spdx_id"; $"byte_range"; $"line_range"; $"license_concluded"; $"license_info_in_snippet"; $"license_comment"; $"copyright_text"; $"comment"; $"name"; $"attribution_texts"] snippet_tags gs) as (d & F & C & N); [vm_compute; reflexivity|exact Ho|names|]. clear S.
    exists d. split; [rewrite fill_ops by discriminate; exact F|].
    apply (reads_at O _ _ _ _ _ d) in R0; [|exact C].
    apply (reads_at O _ _ _ _ _ d) in R1; [|exact C].
    apply (reads_at O _ _ _ _ _ d) in R2; [|exact C].
    apply (reads_at O _ _ _ _ _ d) in R3; [|exact C].
    apply (reads_at O _ _ _ _ _ d) in R4; [|exact C].
    apply (reads_at O _ _ _ _ _ d) in R5; [|exact C].
    apply (reads_at O _ _ _ _ _ d) in R6; [|exact C].
    apply (reads_at O _ _ _ _ _ d) in R7; [|exact C].
    apply (reads_at O _ _ _ _ _ d) in R8; [|exact C].
    apply (reads_at O _ _ _ _ _ d) in R9; [|exact C].
    apply (reads_at O _ _ _ _ _ d) in R10; [|exact C].
    apply kwargs_iff. split; [exact N|]. split.
    + repeat first [apply Forall_nil | apply Forall_cons].
      * intro Z. rewrite Z in R0. discriminate R0.
      * intro Z. rewrite Z in R1. discriminate R1.
      * intro Z. rewrite Z in R2. discriminate R2.
    + destruct x as [v0 v1 v2 v3 v4 v5 v6 v7 v8 v9 v10]. cbn [sn_id sn_file sn_bytes sn_lines sn_concluded sn_info sn_lic_comment sn_copyright sn_comment sn_name sn_attribution] in *. ap_go; assumption.
Qed.
Lemma annotation_says gs x : (forall g, In g gs -> Fine g) -> ((exists d, fill O C_Annotation gs [] = Some d /\ construct_annotation d = Ok x) <-> SaysAnnotation gs x).
Proof.
  intros Hf. split.
  - intros (d & F & K). rewrite fill_ops in F by discriminate. assert (Ho : Only annotation_tags gs) by (apply (only_from (cshape C_Annotation) annotation_tags gs); [vm_compute; reflexivity|exact (not_failed O _ _ _ _ F)]).
    pose proof (dict_cells _ _ _ F) as C. apply kwargs_iff in K as (_ & K2 & K3). cbv zeta in K3. ap_inv K3.
    assert (Q : forall k, In k [$"spdx_id"; $"annotation_type"; $"annotator"; $"annotation_date"; $"annotation_comment"] -> assoc k d <> None) by (apply Forall_forall; exact K2). clear K2.
    constructor.
    + exact Ho.
    + apply (f_an_id O gs Hf _ Ho); eapply cells_reads; [apply C|eassumption].
    + apply (f_an_type O gs Hf _ Ho); eapply cells_reads; [apply C|eassumption].
    + apply (f_an_annotator O gs Hf _ Ho); eapply cells_reads; [apply C|eassumption].
    + apply (f_an_date O gs Hf _ Ho); eapply cells_reads; [apply C|eassumption].
    + apply (f_an_comment O gs Hf _ Ho); eapply cells_reads; [apply C|eassumption].
  - intro S. pose proof (sa_only _ _ S) as Ho.
    pose proof (proj2 (f_an_id O gs Hf _ Ho) (sa_id _ _ S)) as R0.
    pose proof (proj2 (f_an_type O gs Hf _ Ho) (sa_type _ _ S)) as R1.
    pose proof (proj2 (f_an_annotator O gs Hf _ Ho) (sa_annotator _ _ S)) as R2.
    pose proof (proj2 (f_an_date O gs Hf _ Ho) (sa_date _ _ S)) as R3.
    pose proof (proj2 (f_an_comment O gs Hf _ Ho) (sa_comment _ _ S)) as R4.
    destruct (have_dict O (cshape C_Annotation) [$"spdx_id"; $"annotation_type"; $"annotator"; $"annotation_date"; $"annotation_comment"] annotation_tags gs) as (d & F & C & N); [vm_compute; reflexivity|exact Ho|names|]. clear S.
    exists d. split; [rewrite fill_ops by discriminate; exact F|].
    apply (reads_at O _ _ _ _ _ d) in R0; [|exact C].
    apply (reads_at O _ _ _ _ _ d) in R1; [|exact C].
    apply (reads_at O _ _ _ _ _ d) in R2; [|exact C].
    apply (reads_at O _ _ _ _ _ d) in R3; [|exact C].
    apply (reads_at O _ _ _ _ _ d) in R4; [|exact C].
    apply kwargs_iff. split; [exact N|]. split.
    + repeat first [apply Forall_nil | apply Forall_cons].
      * intro Z. rewrite Z in R0. discriminate R0.
      * intro Z. rewrite Z in R1. discriminate R1.
      * intro Z. rewrite Z in R2. discriminate R2.
      * intro Z. rewrite Z in R3. discriminate R3.
      * intro Z. rewrite Z in R4. discriminate R4.
    + destruct x as [v0 v1 v2 v3 v4]. cbn [an_id an_type an_annotator an_date an_comment] in *. ap_go; assumption.
Qed.
Lemma extracted_says gs x : (forall g, In g gs -> Fine g) -> with_tag T_LicenseID gs <> [] -> ((exists d, fill O C_Extracted gs [] = Some d /\ construct_extracted d = Ok x) <-> SaysExtracted gs x).
Proof.
  intros Hf Hs. split.
  - intros (d & F & K). rewrite fill_ops in F by discriminate. pose proof (extracted_only gs d x F K) as Ho.
    pose proof (dict_cells _ _ _ F) as C. apply kwargs_iff in K as (_ & K2 & K3). cbv zeta in K3. ap_inv K3.
    assert (Q : forall k, In k [] -> assoc k d <> None) by (apply Forall_forall; exact K2). clear K2.
    constructor.
    + exact Ho.
    + match goal with |- exists s, ?o = Some s /\ _ => assert (X : Optional SaysLine T_LicenseID gs o) by (apply (f_el_id O gs Hf _ Ho); eapply cells_reads; [apply C|eassumption]) end; unfold Optional in X; unfold One; destruct (with_tag T_LicenseID gs) as [|g0 [|]]; [congruence| |destruct X]; destruct X as (s & X & Y); exists s; split; [exact X|eauto].
    + apply (f_el_text O gs Hf _ Ho); eapply cells_reads; [apply C|eassumption].
    + apply (f_el_name O gs Hf _ Ho); eapply cells_reads; [apply C|eassumption].
    + eapply (proj1 (f_el_xrefs O gs Hf _ Ho)); [apply C|eassumption].
    + apply (f_el_comment O gs Hf _ Ho); eapply cells_reads; [apply C|eassumption].
  - intro S. pose proof (se_only _ _ S) as Ho.
    assert (R0 : Reads O (cshape C_Extracted) $"license_id" gs (t_opt_str $"ExtractedLicensingInfo" $"license_id") (el_id x)) by (apply (f_el_id O gs Hf _ Ho); destruct (se_id _ _ S) as (s & E & g0 & W & L); unfold Optional; rewrite W; eauto).
    pose proof (proj2 (f_el_text O gs Hf _ Ho) (se_text _ _ S)) as R1.
    pose proof (proj2 (f_el_name O gs Hf _ Ho) (se_name _ _ S)) as R2.
    pose proof (proj1 (proj2 (f_el_xrefs O gs Hf _ Ho) (se_refs _ _ S))) as R3.
    pose proof (proj2 (f_el_comment O gs Hf _ Ho) (se_comment _ _ S)) as R4.
    destruct (have_dict O (cshape C_Extracted) [$"license_id"; $"extracted_text"; $"license_name"; $"cross_references"; $"comment"] extracted_tags gs) as (d & F & C & N); [vm_compute; reflexivity|exact Ho|names|]. clear S.
    exists d. split; [rewrite fill_ops by discriminate; exact F|].
    apply (reads_at O _ _ _ _ _ d) in R0; [|exact C].
    apply (reads_at O _ _ _ _ _ d) in R1; [|exact C].
    apply (reads_at O _ _ _ _ _ d) in R2; [|exact C].
    apply (reads_at O _ _ _ _ _ d) in R3; [|exact C].
    apply (reads_at O _ _ _ _ _ d) in R4; [|exact C].
    apply kwargs_iff. split; [exact N|]. split.
    + repeat first [apply Forall_nil | apply Forall_cons].
    + destruct x as [v0 v1 v2 v3 v4]. cbn [el_id el_text el_name el_xrefs el_comment] in *. ap_go; assumption.
Qed.
Lemma creation_info_says gs x : (forall g, In g gs -> Fine g) -> ((exists d, ci_puts O gs [] = Some d /\ construct_creation_info d = Ok x) <-> SaysCreation gs x).
Proof.
  intros Hf. split.
  - intros (d & F & K). rewrite ci_puts_ops in F. pose proof (only_all gs) as Ho.
    pose proof (dict_cells _ _ _ F) as C. apply kwargs_iff in K as (_ & K2 & K3). cbv zeta in K3. ap_inv K3.
    assert (Q : forall k, In k [$"spdx_version"; $"spdx_id"; $"name"; $"document_namespace"; $"creators"; $"created"] -> assoc k d <> None) by (apply Forall_forall; exact K2). clear K2.
    constructor.
    + apply (f_ci_version O gs Hf _ Ho); eapply cells_reads; [apply C|eassumption].
    + apply (f_ci_id O gs _ Ho); eapply cells_reads; [apply C|eassumption].
    + apply (f_ci_name O gs Hf _ Ho); eapply cells_reads; [apply C|eassumption].
    + apply (f_ci_namespace O gs Hf _ Ho); eapply cells_reads; [apply C|eassumption].
    + match goal with H : t_actors _ _ _ = COk ?l |- _ => destruct (proj1 (f_ci_creators O gs Hf l Ho) _ (C $"creators") H) as [X1 X2] end; split; [exact X1|]; intro Z; apply X2 in Z; apply (Q $"creators"); [cbn [In]; auto 20|exact Z].
    + apply (f_ci_created O gs Hf _ Ho); eapply cells_reads; [apply C|eassumption].
    + apply (f_ci_creator_comment O gs Hf _ Ho); eapply cells_reads; [apply C|eassumption].
    + apply (f_ci_data_license O gs _ Ho); eapply cells_reads; [apply C|]; match goal with H : match assoc $"data_license" d with _ => _ end = _ |- _ => revert H end; unfold t_data_license; destruct (assoc $"data_license" d); auto.
    + eapply (proj1 (f_ci_refs O gs Hf _ Ho)); [apply C|eassumption].
    + apply (f_ci_list_version O gs Hf _ Ho); eapply cells_reads; [apply C|eassumption].
    + apply (f_ci_doc_comment O gs Hf _ Ho); eapply cells_reads; [apply C|eassumption].
  - intro S. pose proof (only_all gs) as Ho.
    pose proof (proj2 (f_ci_version O gs Hf _ Ho) (sc_version _ _ S)) as R0.
    pose proof (proj2 (f_ci_id O gs _ Ho) (sc_id _ _ S)) as R1.
    pose proof (proj2 (f_ci_name O gs Hf _ Ho) (sc_name _ _ S)) as R2.
    pose proof (proj2 (f_ci_namespace O gs Hf _ Ho) (sc_namespace _ _ S)) as R3.
    destruct (sc_creators _ _ S) as [E4 N4].
    pose proof (proj2 (f_ci_creators O gs Hf _ Ho) E4 N4) as [R4 M4].
    pose proof (proj2 (f_ci_created O gs Hf _ Ho) (sc_created _ _ S)) as R5.
    pose proof (proj2 (f_ci_creator_comment O gs Hf _ Ho) (sc_creator_comment _ _ S)) as R6.
    pose proof (proj2 (f_ci_data_license O gs _ Ho) (sc_data_license _ _ S)) as R7.
    pose proof (proj1 (proj2 (f_ci_refs O gs Hf _ Ho) (sc_refs _ _ S))) as R8.
    pose proof (proj2 (f_ci_list_version O gs Hf _ Ho) (sc_list_version _ _ S)) as R9.
    pose proof (proj2 (f_ci_doc_comment O gs Hf _ Ho) (sc_comment _ _ S)) as R10.
    destruct (have_dict O ci_shape [$"spdx_version"; $"spdx_id"; $"name"; $"document_namespace"; $"creators"; $"created"; $"creator_comment"; $"data_license"; $"external_document_refs"; $"license_list_version"; $"document_comment"] tag_all gs) as (d & F & C & N); [vm_compute; reflexivity|exact Ho|names|]. clear S.
    exists d. split; [rewrite ci_puts_ops; exact F|].
    apply (reads_at O _ _ _ _ _ d) in R0; [|exact C].
    apply (reads_at O _ _ _ _ _ d) in R1; [|exact C].
    apply (reads_at O _ _ _ _ _ d) in R2; [|exact C].
    apply (reads_at O _ _ _ _ _ d) in R3; [|exact C].
    apply (reads_at O _ _ _ _ _ d) in R4; [|exact C].
    apply (reads_at O _ _ _ _ _ d) in R5; [|exact C].
    apply (reads_at O _ _ _ _ _ d) in R6; [|exact C].
    apply (reads_at O _ _ _ _ _ d) in R7; [|exact C].
    apply (reads_at O _ _ _ _ _ d) in R8; [|exact C].
    apply (reads_at O _ _ _ _ _ d) in R9; [|exact C].
    apply (reads_at O _ _ _ _ _ d) in R10; [|exact C].
    apply kwargs_iff. split; [exact N|]. split.
    + repeat first [apply Forall_nil | apply Forall_cons].
      * intro Z. rewrite Z in R0. discriminate R0.
      * intro Z. rewrite Z in R1. discriminate R1.
      * intro Z. rewrite Z in R2. discriminate R2.
      * intro Z. rewrite Z in R3. discriminate R3.
      * intro Z. rewrite Z in R4. discriminate R4.
      * intro Z. rewrite Z in R5. discriminate R5.
    + destruct x as [v0 v1 v2 v3 v4 v5 v6 v7 v8 v9 v10]. cbn [ci_version ci_id ci_name ci_namespace ci_creators ci_created ci_creator_comment ci_data_license ci_refs ci_list_version ci_doc_comment] in *. ap_go; try assumption; revert R7; unfold t_data_license; destruct (assoc $"data_license" d); auto.
Qed.
End WithOracles.
