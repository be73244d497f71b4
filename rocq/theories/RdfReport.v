(** C75: what the RDF reader makes of graphs that differ in one property of one node. *)
From Verif Require Import Py PyRe PyFacts Data Oracles Basics BasicsSpec BasicsFacts Json Construct JsonParse JsonErrors JsonRead Rdf RdfParser RdfReadSpec RdfIff JsonReportSpec JsonReport RdfReportSpec.

Lemma str_eqb_true a b : str_eqb a b = true -> a = b. Proof. apply str_eqb_eq. Qed.
Lemma sb_objects s p G G' : SameBut s p G G' -> forall n q, n <> s \/ q <> p -> objects G' n q = objects G n q.
Proof.
  induction 1 as [|t G G' _ IH|o G G' _ IH|o G G' _ IH]; intros n q D; [reflexivity| | |]; unfold objects in *; cbn [filter fst snd].
  - destruct (_ && _); cbn [map]; [f_equal|]; apply IH; exact D.
  - destruct (node_eqb s n && str_eqb p q) eqn:E; [|apply IH; exact D]. apply andb_true_iff in E as [E1 E2]. apply node_eqb_iff in E1. apply str_eqb_true in E2. destruct D; congruence.
  - destruct (node_eqb s n && str_eqb p q) eqn:E; [|apply IH; exact D]. apply andb_true_iff in E as [E1 E2]. apply node_eqb_iff in E1. apply str_eqb_true in E2. destruct D; congruence.
Qed.
Lemma sb_subjects s p G G' : SameBut s p G G' -> forall q o, q <> p -> subjects G' q o = subjects G q o.
Proof.
  induction 1 as [|t G G' _ IH|o G G' _ IH|o G G' _ IH]; intros q x D; [reflexivity| | |]; unfold subjects in *; cbn [filter fst snd].
  - destruct (_ && _); cbn [map]; [f_equal|]; apply IH; exact D.
  - destruct (str_eqb p q) eqn:E; [apply str_eqb_true in E; congruence|]. apply IH; exact D.
  - destruct (str_eqb p q) eqn:E; [apply str_eqb_true in E; congruence|]. apply IH; exact D.
Qed.
Lemma sb_pairs s p G G' : SameBut s p G G' -> forall q, q <> p -> pairs G' q = pairs G q.
Proof.
  induction 1 as [|t G G' _ IH|o G G' _ IH|o G G' _ IH]; intros q D; [reflexivity| | |]; unfold pairs in *; cbn [filter fst snd].
  - destruct (str_eqb _ _); cbn [map]; [f_equal|]; apply IH; exact D.
  - destruct (str_eqb p q) eqn:E; [apply str_eqb_true in E; congruence|]. apply IH; exact D.
  - destruct (str_eqb p q) eqn:E; [apply str_eqb_true in E; congruence|]. apply IH; exact D.
Qed.

(** ** Loops *)
Lemma each_ext {A B} (f g : A -> result B) l : (forall x, In x l -> f x = g x) -> each f l = each g l.
Proof. induction l as [|x l IH]; intro H; [reflexivity|]. cbn [each]. rewrite H by (left; reflexivity). rewrite IH by (intros; apply H; right; assumption). reflexivity. Qed.
Lemma each_log_ext {A B} (f g : A -> logged B) l : (forall x, In x l -> f x = g x) -> each_log f l = each_log g l.
Proof. induction l as [|x l IH]; intro H; [reflexivity|]. cbn [each_log]. rewrite H by (left; reflexivity). rewrite IH by (intros; apply H; right; assumption). reflexivity. Qed.
Lemma each_try_ext {A B} (f g : A -> result B) l : (forall x, In x l -> f x = g x) -> each_try f l = each_try g l.
Proof. induction l as [|x l IH]; intro H; [reflexivity|]. cbn [each_try]. rewrite H by (left; reflexivity). rewrite IH by (intros; apply H; right; assumption). reflexivity. Qed.
Lemma each_try_mid {A B} (f g : A -> result B) a x b r m : each_try f (a ++ x :: b) = Ok ([], r) -> (forall y, In y (a ++ b) -> g y = f y) -> g x = Raise (EParsing [m]) ->
  exists r', each_try g (a ++ x :: b) = Ok ([m], r').
Proof.
  revert r. induction a as [|y a IH]; intros r H E X; cbn [app each_try] in *.
  - rewrite X. rewrite (each_try_ext g f) by exact E. destruct (f x) as [z|e]; [|destruct e; try discriminate H].
    + destruct (each_try f b) as [[ms rs]|]; [|discriminate H]. cbn [bind] in *. apply pair_ok in H as [-> _]. eexists. reflexivity.
    + destruct (each_try f b) as [[ms rs]|]; [|discriminate H]. cbn [bind] in *. apply pair_ok in H as [H _]. apply app_eq_nil in H as [-> ->]. eexists. reflexivity.
  - rewrite E by (left; reflexivity). destruct (f y) as [z|e]; [|destruct e; try discriminate H].
    + destruct (each_try f (a ++ x :: b)) as [[ms rs]|]; [|discriminate H]. cbn [bind] in H. apply pair_ok in H as [-> _].
      destruct (IH rs eq_refl) as (r' & ->); [intros; apply E; right; assumption|exact X|]. cbn [bind]. eexists. reflexivity.
    + destruct (each_try f (a ++ x :: b)) as [[ms rs]|]; [|discriminate H]. cbn [bind] in H. apply pair_ok in H as [H _]. apply app_eq_nil in H as [-> ->].
      destruct (IH rs eq_refl) as (r' & ->); [intros; apply E; right; assumption|exact X|]. cbn [bind]. eexists. reflexivity.
Qed.

(** ** What the functions of the reader ask for *)
Definition expression_asks := [RDF_type; spdx "member"; spdx "licenseException"; spdx "licenseExceptionId"].
Definition checksum_asks := [spdx "algorithm"; spdx "checksumValue"].
Definition code_asks := [spdx "packageVerificationCodeValue"; spdx "packageVerificationCodeExcludedFile"].
Definition ref_asks := [spdx "referenceLocator"; spdx "referenceCategory"; spdx "referenceType"; RDFS_comment].
Definition package_asks := [spdx "name"; spdx "downloadLocation"; spdx "checksum"; spdx "versionInfo"; spdx "packageFileName"; spdx "supplier"; spdx "originator";
  spdx "packageVerificationCode"; spdx "externalRef"; spdx "filesAnalyzed"; spdx "licenseConcluded"; spdx "licenseDeclared"; spdx "licenseInfoFromFiles";
  spdx "licenseComments"; RDFS_comment; spdx "summary"; spdx "description"; spdx "copyrightText"; spdx "sourceInfo"; spdx "primaryPackagePurpose"; DOAP_homepage;
  spdx "attributionText"; spdx "releaseDate"; spdx "builtDate"; spdx "validUntilDate"].
Definition file_asks := [spdx "fileName"; spdx "checksum"; spdx "fileType"; spdx "licenseConcluded"; spdx "licenseInfoInFile"; spdx "licenseComments"; spdx "copyrightText";
  spdx "fileContributor"; spdx "noticeText"; RDFS_comment; spdx "attributionText"].
Definition range_asks := [ptr "startPointer"; ptr "endPointer"; RDF_type; ptr "offset"; ptr "lineNumber"].
Definition snippet_asks := [spdx "snippetFromFile"; spdx "range"; spdx "licenseConcluded"; spdx "licenseInfoInSnippet"; spdx "licenseComments"; spdx "copyrightText"; RDFS_comment;
  spdx "name"; spdx "attributionText"].
Definition annotation_asks := [spdx "annotator"; spdx "annotationType"; spdx "annotationDate"; RDFS_comment].
Definition relationship_asks := [spdx "relationshipType"; spdx "relatedSpdxElement"; RDFS_comment].
Definition info_asks := [spdx "licenseId"; spdx "extractedText"; RDFS_comment; spdx "name"; RDFS_seeAlso].
Definition docref_asks := [spdx "spdxDocument"; spdx "checksum"].
Definition document_asks := [spdx "specVersion"; spdx "dataLicense"; RDFS_comment; spdx "name"; spdx "externalDocumentRef"].
Definition creation_asks := [spdx "created"; spdx "licenseListVersion"; RDFS_comment; spdx "creator"].

Ltac member := repeat (first [left; reflexivity|right]).
Section Same.
Variable O : oracles.
Variable L : rdf_library.
Variables (s : node) (p : pystr) (G G' : list triple).
Hypothesis SB : SameBut s p G G'.
Definition Off (n : node) (q : pystr) : Prop := n <> s \/ q <> p.

Lemma off_asks n q l : n <> s \/ ~ In p l -> In q l -> Off n q.
Proof. intros [D|D] I; [left; exact D|right; intros ->; exact (D I)]. Qed.
Lemma same_objects n q : Off n q -> objects G' n q = objects G n q. Proof. apply sb_objects. exact SB. Qed.
Lemma apply_ext {A} (f g : node -> result A) n : f n = g n -> apply_parsing_method f n = apply_parsing_method g n.
Proof. unfold apply_parsing_method. intros ->. reflexivity. Qed.
Lemma same_literal {A} (f g : node -> result A) n q : Off n q -> (forall x, f x = g x) -> parse_literal L f G' n q = parse_literal L g G n q.
Proof. intros D E. unfold parse_literal, get_unique_value. rewrite same_objects by exact D. destruct (only_value _) as [[x|]|]; try reflexivity. rewrite (apply_ext f g) by apply E. reflexivity. Qed.
Lemma typed_ext {A} (f g : node -> result A) v : (forall x, f x = g x) -> get_correctly_typed_value L f v = get_correctly_typed_value L g v.
Proof. intro E. unfold get_correctly_typed_value. destruct v as [x|]; [|reflexivity]. rewrite (apply_ext f g) by apply E. reflexivity. Qed.
Lemma same_literal_nn {A} (f g : node -> result A) n q : Off n q -> (forall x, f x = g x) -> parse_literal_nn L f G' n q = parse_literal_nn L g G n q.
Proof. intros D E. unfold parse_literal_nn, get_unique_value. rewrite same_objects by exact D. destruct (only_value _) as [x|]; [rewrite (typed_ext f g) by exact E|rewrite (typed_ext f g) by exact E]; reflexivity. Qed.

Lemma same_expression ns : ~ In p expression_asks -> forall k v, parse_expression O L k G' ns v = parse_expression O L k G ns v.
Proof.
  intros D. assert (F : forall n q, In q expression_asks -> Off n q) by (intros n q I; apply (off_asks n q expression_asks); [right; exact D|exact I]).
  induction k as [|k IH]; intro v; [reflexivity|]. cbn [parse_expression]. destruct v as [n|]; [|reflexivity].
  rewrite !same_objects by (apply F; cbn; tauto). destruct (startswith _ _); [reflexivity|]. destruct (startswith _ _); [reflexivity|]. destruct (any_value (objects G n RDF_type)) as [ty|]; [|reflexivity]. cbv zeta.
  rewrite (each_ext (fun m => parse_expression O L k G' ns (Some m)) (fun m => parse_expression O L k G ns (Some m))) by (intros; apply IH). rewrite IH.
  assert (X : forall y, parse_license_exception L G' y = parse_license_exception L G y). { intros [y|]; [|reflexivity]. unfold parse_license_exception. rewrite same_objects by (apply F; cbn; tauto). reflexivity. }
  rewrite X. reflexivity.
Qed.
Lemma same_license_field ns n q : ~ In p expression_asks -> Off n q -> parse_license_field O L G' ns n q = parse_license_field O L G ns n q.
Proof. intros D F. unfold parse_license_field. rewrite (same_literal_nn _ (parse_license O L G ns)) by (try exact F; intro; apply same_expression; exact D). reflexivity. Qed.
Lemma same_license_list ns n q : ~ In p expression_asks -> Off n q -> parse_license_list O L G' ns n q = parse_license_list O L G ns n q.
Proof.
  intros D F. unfold parse_license_list. rewrite same_objects by exact F. apply each_log_ext. intros x _. rewrite (typed_ext _ (parse_license O L G ns)) by (intro; apply same_expression; exact D). reflexivity.
Qed.
Ltac off D := apply (off_asks _ _ _ D); member.
Lemma same_checksum n : n <> s \/ ~ In p checksum_asks -> parse_checksum L G' n = parse_checksum L G n.
Proof. intro D. unfold parse_checksum. rewrite !(same_literal _ _ n _) by (try reflexivity; apply (off_asks _ _ _ D); cbn; tauto). reflexivity. Qed.
Lemma same_code n : n <> s \/ ~ In p code_asks -> parse_package_verification_code L G' n = parse_package_verification_code L G n.
Proof. intro D. unfold parse_package_verification_code. rewrite (same_literal _ _ n _) by (try reflexivity; off D). rewrite same_objects by off D. reflexivity. Qed.
Lemma same_ref ns n : n <> s \/ ~ In p ref_asks -> parse_external_package_ref L G' ns n = parse_external_package_ref L G ns n.
Proof. intro D. unfold parse_external_package_ref. rewrite !(same_literal _ _ n _) by (try reflexivity; off D). reflexivity. Qed.
Lemma same_each_checksum l : (forall x, In x l -> x <> s \/ ~ In p checksum_asks) -> each (parse_checksum L G') l = each (parse_checksum L G) l.
Proof. intro D. apply each_ext. intros x I. apply same_checksum. exact (D x I). Qed.
Lemma same_each_ref ns l : (forall x, In x l -> x <> s \/ ~ In p ref_asks) -> each (parse_external_package_ref L G' ns) l = each (parse_external_package_ref L G ns) l.
Proof. intro D. apply each_ext. intros x I. apply same_ref. exact (D x I). Qed.
(** the values of a property that are nodes themselves *)
Definition Apart (n : node) (q : pystr) (asks : list pystr) : Prop := forall x, In x (objects G n q) -> x <> s \/ ~ In p asks.

Lemma same_package b ns n : n <> s \/ ~ In p package_asks -> ~ In p expression_asks -> ~ In p code_asks -> Apart n (spdx "checksum") checksum_asks -> Apart n (spdx "externalRef") ref_asks ->
  parse_package O L G' b ns n = parse_package O L G b ns n.
Proof.
  intros D E C A1 A2. unfold parse_package.
  rewrite !(same_objects n) by off D.
  rewrite (same_each_checksum _ A1), (same_each_ref ns _ A2).
  rewrite (same_literal (parse_package_verification_code L G') (parse_package_verification_code L G) n) by (try (off D); intro; apply same_code; right; exact C).
  rewrite !(same_license_field ns n) by (try exact E; off D). rewrite !(same_license_list ns n) by (try exact E; off D).
  rewrite !(same_literal_nn _ _ n) by (try reflexivity; off D). rewrite !(same_literal _ _ n) by (try reflexivity; off D). reflexivity.
Qed.
Lemma same_file b ns n : n <> s \/ ~ In p file_asks -> ~ In p expression_asks -> Apart n (spdx "checksum") checksum_asks -> parse_file O L G' b ns n = parse_file O L G b ns n.
Proof.
  intros D E A1. unfold parse_file.
  rewrite !(same_objects n) by off D. rewrite (same_each_checksum _ A1).
  rewrite !(same_license_field ns n) by (try exact E; off D). rewrite !(same_license_list ns n) by (try exact E; off D).
  rewrite !(same_literal_nn _ _ n) by (try reflexivity; off D). rewrite !(same_literal _ _ n) by (try reflexivity; off D). reflexivity.
Qed.
Lemma same_ranges n : ~ In p range_asks -> parse_ranges L G' n = parse_ranges L G n.
Proof.
  intro D. assert (F : forall n q, In q range_asks -> Off n q) by (intros x q I; apply (off_asks x q range_asks); [right; exact D|exact I]).
  unfold parse_ranges, get_pointer_type, parse_range_value.
  rewrite !(same_objects n (ptr "startPointer")) by (apply F; member). rewrite !(same_objects n (ptr "endPointer")) by (apply F; member).
  assert (X : forall x, objects G' x RDF_type = objects G x RDF_type) by (intro x; apply same_objects; apply F; member).
  assert (Y : forall x, objects G' x (ptr "offset") = objects G x (ptr "offset")) by (intro x; apply same_objects; apply F; member).
  assert (Z : forall x, objects G' x (ptr "lineNumber") = objects G x (ptr "lineNumber")) by (intro x; apply same_objects; apply F; member).
  destruct (only_value (objects G n (ptr "startPointer"))) as [[x|]|]; try reflexivity. destruct (node_truthy L x); [|reflexivity]. rewrite X. cbn [bind].
  destruct (only_value (objects G n (ptr "endPointer"))) as [[y|]|]; try reflexivity. destruct (node_truthy L y); [|reflexivity]. rewrite X. cbn [bind].
  destruct (opt_node_eq_dec _ _); [|reflexivity]. unfold pointer_matching. destruct (any_value (objects G x RDF_type)) as [t|]; [|reflexivity]. destruct (is_uri t _); [rewrite !Y; reflexivity|]. destruct (is_uri t _); [rewrite !Z; reflexivity|reflexivity].
Qed.
Lemma same_read_ranges : ~ In p range_asks -> forall l v w, read_ranges L G' l v w = read_ranges L G l v w.
Proof.
  intro D. induction l as [|n l IH]; intros v w; [reflexivity|]. cbn [read_ranges]. rewrite (apply_ext (parse_ranges L G') (parse_ranges L G) n) by (apply same_ranges; exact D).
  destruct (apply_parsing_method (parse_ranges L G) n) as [[m r]|]; [|reflexivity]. cbn [bind]. destruct r as [[[] r]|]; [destruct v|destruct w|]; rewrite IH; reflexivity.
Qed.
Lemma same_snippet b ns n : n <> s \/ ~ In p snippet_asks -> ~ In p expression_asks -> ~ In p range_asks -> parse_snippet O L G' b ns n = parse_snippet O L G b ns n.
Proof.
  intros D E R. unfold parse_snippet. rewrite !(same_objects n) by off D. rewrite same_read_ranges by exact R.
  rewrite !(same_license_field ns n) by (try exact E; off D). rewrite !(same_license_list ns n) by (try exact E; off D).
  rewrite !(same_literal_nn _ _ n) by (try reflexivity; off D). rewrite !(same_literal _ _ n) by (try reflexivity; off D). reflexivity.
Qed.
Lemma same_annotation b ns x : snd x <> s \/ ~ In p annotation_asks -> parse_annotation L G' b ns x = parse_annotation L G b ns x.
Proof. destruct x as [y n]. cbn [snd]. intro D. unfold parse_annotation. rewrite !(same_literal _ _ n) by (try reflexivity; off D). reflexivity. Qed.
Lemma same_relationship b ns x : snd x <> s \/ ~ In p relationship_asks -> parse_relationship L G' b ns x = parse_relationship L G b ns x.
Proof. destruct x as [y n]. cbn [snd]. intro D. unfold parse_relationship. rewrite !(same_literal_nn _ _ n) by (try reflexivity; off D). rewrite !(same_literal _ _ n) by (try reflexivity; off D). reflexivity. Qed.
Lemma same_info ns n : n <> s \/ ~ In p info_asks -> parse_extracted_licensing_info L G' ns n = parse_extracted_licensing_info L G ns n.
Proof.
  intro D. unfold parse_extracted_licensing_info. rewrite !(same_objects n) by off D. rewrite !(same_literal_nn _ _ n) by (try reflexivity; off D). rewrite !(same_literal _ _ n) by (try reflexivity; off D). reflexivity.
Qed.
Lemma same_docref b ns n : n <> s \/ ~ In p docref_asks -> Apart n (spdx "checksum") checksum_asks -> parse_external_document_ref L G' b ns n = parse_external_document_ref L G b ns n.
Proof.
  intros D A. unfold parse_external_document_ref. rewrite (same_literal stripped stripped n) by (try reflexivity; off D).
  replace (parse_literal L (parse_checksum L G') G' n (spdx "checksum")) with (parse_literal L (parse_checksum L G) G n (spdx "checksum")); [reflexivity|].
  unfold parse_literal, get_unique_value. rewrite same_objects by off D. unfold Apart in A. destruct (objects G n (spdx "checksum")) as [|x [|y l]]; cbn [only_value]; try reflexivity.
  destruct (node_truthy L x); [|reflexivity]. rewrite (apply_ext (parse_checksum L G') (parse_checksum L G) x); [reflexivity|]. apply same_checksum. apply A. left. reflexivity.
Qed.
Lemma same_docrefs ns l : (forall n, In n l -> (n <> s \/ ~ In p docref_asks) /\ Apart n (spdx "checksum") checksum_asks) -> forall b, parse_external_document_refs L G' b ns l = parse_external_document_refs L G b ns l.
Proof.
  induction l as [|n l IH]; intros H b; [reflexivity|]. cbn [parse_external_document_refs]. destruct (H n (or_introl eq_refl)) as [D A]. rewrite (same_docref b ns n D A).
  destruct (parse_external_document_ref L G b ns n) as [r|]; [|reflexivity]. cbn [bind]. rewrite IH by (intros; apply H; right; assumption). reflexivity.
Qed.
End Same.
