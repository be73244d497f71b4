(** C75: mistakes in checksums and in references of packages of an RDF graph. *)
From Verif Require Import Py PyRe PyFacts Data Oracles Basics ValidationSpec BasicsSpec BasicsFacts Json Construct JsonParse JsonErrors JsonRead Rdf RdfParser RdfReadSpec RdfIff JsonReportSpec JsonReport RdfReportSpec RdfReport RdfReport2 RdfReport3 RdfReport4 RdfReport5.

Lemma objects_pairs G n q x : In x (objects G n q) -> In (n, x) (pairs G q).
Proof.
  unfold objects, pairs. intro I. apply in_map_iff in I as (t & <- & I). apply filter_In in I as [I E]. apply andb_true_iff in E as [E1 E2]. apply node_eqb_iff in E1. subst n.
  apply in_map_iff. exists t. split; [reflexivity|]. apply filter_In. auto.
Qed.
Lemma each_raise {A B} (f f' : A -> result B) u x v r e : each f (u ++ x :: v) = Ok r -> (forall y, In y u -> f' y = f y) -> f' x = Raise e -> each f' (u ++ x :: v) = Raise e.
Proof.
  revert r. induction u as [|y u IH]; intros r H E X; cbn [app each] in *; [rewrite X; reflexivity|]. rewrite E by (left; reflexivity). destruct (f y) as [k|]; [|discriminate H]. cbn [bind] in *.
  destruct (each f (u ++ x :: v)) as [ks|]; [|discriminate H]. rewrite (IH ks eq_refl) by (try assumption; intros; apply E; right; assumption). reflexivity.
Qed.
Lemma each_at {A B} (f : A -> result B) u x v r : each f (u ++ x :: v) = Ok r -> exists k, f x = Ok k.
Proof.
  revert r. induction u as [|y u IH]; intros r H; cbn [app each] in H; [destruct (f x); [eauto|discriminate H]|]. destruct (f y); [|discriminate H]. cbn [bind] in H. destruct (each f (u ++ x :: v)) as [ks|]; [|discriminate H]. exact (IH _ eq_refl).
Qed.
Lemma no_algorithm n m : NoAlgorithm n m -> convert_rdf_to_algorithm n = Raise (EParsing [m]).
Proof.
  intros (N & s & U & ->). destruct (convert_rdf_to_algorithm n) as [a|e] eqn:E; [apply algorithm_iff in E; destruct (N a E)|]. apply unprefixed_iff in U. change (term "checksumAlgorithm_") with (spdx "checksumAlgorithm_") in U.
  unfold convert_rdf_to_algorithm in E. rewrite U in E. cbv zeta in E. 
  assert (K : (if contains $"BLAKE2B" (upper s) then replace $"BLAKE2B" $"BLAKE2B_" (upper s) else upper s) = replace $"BLAKE2B" $"BLAKE2B_" (upper s)).
  { destruct (contains _ (upper s)) eqn:Q; [reflexivity|]. symmetry. apply contains_replace; exact Q. }
  rewrite K in E. destruct (enum_lookup _ _ _); [discriminate E|]. symmetry. exact E.
Qed.

Section Parts.
Variable O : oracles.
Variable L : rdf_library.
Lemma checksum_mistake s p G G' k m : SameBut s p G G' -> parse_checksum L G s = Ok k -> ChecksumMistake L G' s p m -> parse_checksum L G' s = Raise (EParsing [parsing $"Checksum" m]).
Proof.
  intros SB R M. unfold parse_checksum in R. walk_all R. no_logs R. clear R. unfold parse_checksum. destruct M as [m B|m B].
  - apply (bad_literal L convert_rdf_to_algorithm) in B; [|intros n x H; rewrite (no_algorithm _ _ H); eauto]. change (term "algorithm") with (spdx "algorithm") in *. rewrite B; rest SB; cbn [bind]; replay; reflexivity.
  - apply (bad_text L stripped) in B. change (term "checksumValue") with (spdx "checksumValue") in *. rewrite B; rest SB; cbn [bind]; replay; reflexivity.
Qed.
Lemma ref_mistake s p G G' ns k m : SameBut s p G G' -> parse_external_package_ref L G ns s = Ok k -> RefMistake L G' s p m ->
  parse_external_package_ref L G' ns s = Raise (EParsing [parsing $"ExternalPackageRef" m]).
Proof.
  intros SB R M. unfold parse_external_package_ref in R. walk_all R. no_logs R. clear R. unfold parse_external_package_ref. destruct M as [m B|p m I B].
  - apply (bad_member L ref_category_all ref_category_name "referenceCategory_" "ExternalPackageRefCategory") in B; [|exact cat_lookup|reflexivity].
    change (term "referenceCategory") with (spdx "referenceCategory") in *. rewrite B; rest SB; cbn [bind]; replay; reflexivity.
  - destruct I as [<-|[<-|[]]].
    + apply (bad_text L stripped) in B. change (term "referenceLocator") with (spdx "referenceLocator") in *. rewrite B; rest SB; cbn [bind]; replay; reflexivity.
    + apply (bad_text L (parse_external_package_ref_type L ns)) in B. change (term "referenceType") with (spdx "referenceType") in *. rewrite B; rest SB; cbn [bind]; replay; reflexivity.
Qed.

Lemma package_checksum s p G G' b ns o u v k m : SameBut s p G G' -> parse_package O L G b ns o = Ok k -> objects G o (spdx "checksum") = u ++ s :: v -> ~ In s u -> ChecksumMistake L G' s p m ->
  parse_package O L G' b ns o = Raise (EParsing [parsing $"Checksum" m]).
Proof.
  intros SB R S D M. assert (F := checksum_foreign _ _ _ _ _ M). rewrite !in_app_iff in F. assert (Fp : forall q, In q package_asks -> Off s p o q) by (intros q I; apply (off_asks s p o q package_asks); [right; tauto|exact I]). unfold parse_package in *.
  rewrite (same_objects s p _ _ SB o (spdx "checksum")) by (apply Fp; member). rewrite S in *. 
  walk1 R. rewrite (same_literal L s p _ _ SB stripped stripped o (spdx "name")) by (first [reflexivity|apply Fp; member]). walk1 R. split_pairs R.
  rewrite (same_literal_nn L s p _ _ SB stripped stripped o (spdx "downloadLocation")) by (first [reflexivity|apply Fp; member]). walk1 R. split_pairs R.
  match type of R with bind ?X _ = _ => destruct X as [cs|] eqn:EC; [|discriminate R] end. destruct (each_at _ _ _ _ _ EC) as (x & K).
  rewrite (each_raise _ (parse_checksum L G') _ _ _ _ (EParsing [parsing $"Checksum" m]) EC); [reflexivity| |exact (checksum_mistake _ _ _ _ _ _ SB K M)].
  intros y I. apply (same_checksum L s p _ _ SB). left. intros ->. exact (D I).
Qed.
Lemma file_checksum s p G G' b ns o u v k m : SameBut s p G G' -> parse_file O L G b ns o = Ok k -> objects G o (spdx "checksum") = u ++ s :: v -> ~ In s u -> ChecksumMistake L G' s p m ->
  parse_file O L G' b ns o = Raise (EParsing [parsing $"Checksum" m]).
Proof.
  intros SB R S D M. assert (F := checksum_foreign _ _ _ _ _ M). rewrite !in_app_iff in F. assert (Fp : forall q, In q file_asks -> Off s p o q) by (intros q I; apply (off_asks s p o q file_asks); [right; tauto|exact I]). unfold parse_file in *.
  rewrite (same_objects s p _ _ SB o (spdx "checksum")) by (apply Fp; member). rewrite S in *. 
  walk1 R. rewrite (same_literal L s p _ _ SB stripped stripped o (spdx "fileName")) by (first [reflexivity|apply Fp; member]). walk1 R. split_pairs R.
  match type of R with bind ?X _ = _ => destruct X as [cs|] eqn:EC; [|discriminate R] end. destruct (each_at _ _ _ _ _ EC) as (x & K).
  rewrite (each_raise _ (parse_checksum L G') _ _ _ _ (EParsing [parsing $"Checksum" m]) EC); [reflexivity| |exact (checksum_mistake _ _ _ _ _ _ SB K M)].
  intros y I. apply (same_checksum L s p _ _ SB). left. intros ->. exact (D I).
Qed.
Lemma package_ref s p G G' b ns o u v k m : SameBut s p G G' -> parse_package O L G b ns o = Ok k -> objects G o (spdx "externalRef") = u ++ s :: v -> ~ In s u -> RefMistake L G' s p m ->
  parse_package O L G' b ns o = Raise (EParsing [parsing $"ExternalPackageRef" m]).
Proof.
  intros SB R S D M. assert (F := ref_foreign _ _ _ _ _ M). rewrite !in_app_iff in F. assert (Fp : forall q, In q package_asks -> Off s p o q) by (intros q I; apply (off_asks s p o q package_asks); [right; tauto|exact I]). unfold parse_package in *.
  rewrite (same_objects s p _ _ SB o (spdx "externalRef")) by (apply Fp; member). rewrite (same_objects s p _ _ SB o (spdx "checksum")) by (apply Fp; member). rewrite (same_each_checksum L s p _ _ SB) by (intros ? _; right; tauto). rewrite S in *. 
  walk1 R. rewrite (same_literal L s p _ _ SB stripped stripped o (spdx "name")) by (first [reflexivity|apply Fp; member]). walk1 R. split_pairs R.
  rewrite (same_literal_nn L s p _ _ SB stripped stripped o (spdx "downloadLocation")) by (first [reflexivity|apply Fp; member]). walk1 R. split_pairs R. walk1 R.
  rewrite (same_literal L s p _ _ SB stripped stripped o (spdx "versionInfo")) by (first [reflexivity|apply Fp; member]). walk1 R. split_pairs R.
  rewrite (same_literal L s p _ _ SB stripped stripped o (spdx "packageFileName")) by (first [reflexivity|apply Fp; member]). walk1 R. split_pairs R.
  rewrite (same_literal_nn L s p _ _ SB node_actor node_actor o (spdx "supplier")) by (first [reflexivity|apply Fp; member]). walk1 R. split_pairs R.
  rewrite (same_literal_nn L s p _ _ SB node_actor node_actor o (spdx "originator")) by (first [reflexivity|apply Fp; member]). walk1 R. split_pairs R.
  rewrite (same_literal L s p _ _ SB (parse_package_verification_code L G') (parse_package_verification_code L G) o (spdx "packageVerificationCode")) by (first [intro; apply (same_code L s p _ _ SB); right; tauto|apply Fp; member]). walk1 R. split_pairs R.
  match type of R with bind ?X _ = _ => destruct X as [cs|] eqn:EC; [|discriminate R] end. destruct (each_at _ _ _ _ _ EC) as (x & K).
  rewrite (each_raise _ (parse_external_package_ref L G' ns) _ _ _ _ (EParsing [parsing $"ExternalPackageRef" m]) EC); [reflexivity| |exact (ref_mistake _ _ _ _ _ _ _ SB K M)].
  intros y I. apply (same_ref L s p _ _ SB). left. intros ->. exact (D I).
Qed.
End Parts.

Section Reports.
Variable O : oracles.
Variable L : rdf_library.
Hypothesis FR : Foreign O L.
Variables (g g' : graph) (d : document) (s : node) (p m : pystr).
Hypothesis R : translate_graph_to_document O L g = Ok d.
Hypothesis SB : SameBut s p (g_triples g) (g_triples g').
Hypothesis BD : g_bound g' = g_bound g.
Notation G := (g_triples g).
Notation G' := (g_triples g').

Lemma same_creation_apart : ~ In p head_asks -> ~ In p creation_asks -> (forall y n, In (y, n) (pairs G (spdx "externalDocumentRef")) -> Apart s p G n (spdx "checksum") checksum_asks) ->
  parse_creation_info L g' = parse_creation_info L g.
Proof.
  intros H C K. unfold parse_creation_info. rewrite (same_namespace L s p g g' SB H), BD. destruct (parse_namespace_and_spdx_id L G) as [[[ns id] doc]|]; [|reflexivity]. cbn [bind].
  rewrite !(same_literal _ _ _ _ _ SB _ _ doc) by (try reflexivity; apply (off_document s p H); member).
  rewrite (sb_subjects _ _ _ _ SB) by (apply (not_asked p H); left; reflexivity). destruct (any_value _) as [b|]; [|reflexivity].
  rewrite !(same_literal _ _ _ _ _ SB _ _ b) by (first [reflexivity|apply (off_asks _ _ _ _ creation_asks); [right; exact C|member]]).
  rewrite (same_objects _ _ _ _ SB b) by (apply (off_asks _ _ _ _ creation_asks); [right; exact C|member]).
  rewrite (same_objects _ _ _ _ SB doc) by (apply (off_document s p H); member).
  rewrite (same_docrefs _ _ _ _ _ SB). 1: reflexivity.
  intros n I. split; [right; intro J; exact (H (in_docref _ J))|]. apply (K doc). apply objects_pairs. exact I.
Qed.
Lemma apart_but o : (forall n l, n <> o -> Objects n (term "checksum") G l -> ~ In s l) -> forall n, n <> o -> Apart s p G n (spdx "checksum") checksum_asks.
Proof. intros H n N x I. left. intros ->. exact (H n _ N (proj2 (objects_iff _ _ _ _) eq_refl) I). Qed.

Ltac everywhere F := first
  [ intros ? ? y Iy; apply (same_snippet O L s p _ _ SB); [right; tauto|tauto|tauto]
  | intros ? ? y Iy; apply (same_annotation L s p _ _ SB); right; tauto
  | intros ? ? y Iy; apply (same_relationship L s p _ _ SB); right; tauto
  | intros ? ?; apply (same_info L s p _ _ SB); right; tauto ].

Lemma report_package_checksum o a c u v files refs : Subjects is_a (NUri (term "Package")) G (a ++ o :: c) -> ~ In o (a ++ c) ->
  Objects o (term "checksum") G (u ++ s :: v) -> ~ In s u -> (forall n l, n <> o -> Objects n (term "checksum") G l -> ~ In s l) ->
  Subjects is_a (NUri (term "File")) G files -> ~ In o files -> Links (term "externalDocumentRef") G refs -> ~ In o (map snd refs) ->
  ChecksumMistake L G' s p m -> translate_graph_to_document O L g' = Raise (EParsing [parsing $"Checksum" m]).
Proof.
  intros S D J U N Fi ND Re NR M. apply subjects_iff in S, Fi. apply objects_iff in J. apply links_iff in Re. pose proof (checksum_foreign _ _ _ _ _ M) as F. unfold common_asks in F. rewrite !in_app_iff in F.
  apply (top_package O L s p g g' SB BD FR ltac:(tauto) a o c d _ R S); try (everywhere F).
  - apply same_creation_apart; [tauto|tauto|]. intros y n I. apply (apart_but o N). intros ->. apply NR. change (spdx "externalDocumentRef") with (term "externalDocumentRef") in I. rewrite Re in I. exact (in_map snd _ _ I).
  - intros b ns y I. apply (same_file O L s p _ _ SB); [right; tauto|tauto|]. apply (apart_but o N). intros ->. apply ND. rewrite <- Fi. exact I.
  - intros b ns y I. apply (same_package O L s p _ _ SB); [right; tauto|tauto|tauto| |intros ? _; right; tauto]. apply (apart_but o N). intros ->. exact (D I).
  - intros b ns k K. exact (package_checksum O L s p _ _ b ns o u v k m SB K J U M).
Qed.
Lemma report_file_checksum o a c u v packages refs : Subjects is_a (NUri (term "File")) G (a ++ o :: c) -> ~ In o (a ++ c) ->
  Objects o (term "checksum") G (u ++ s :: v) -> ~ In s u -> (forall n l, n <> o -> Objects n (term "checksum") G l -> ~ In s l) ->
  Subjects is_a (NUri (term "Package")) G packages -> ~ In o packages -> Links (term "externalDocumentRef") G refs -> ~ In o (map snd refs) ->
  ChecksumMistake L G' s p m -> translate_graph_to_document O L g' = Raise (EParsing [parsing $"Checksum" m]).
Proof.
  intros S D J U N Fi ND Re NR M. apply subjects_iff in S, Fi. apply objects_iff in J. apply links_iff in Re. pose proof (checksum_foreign _ _ _ _ _ M) as F. unfold common_asks in F. rewrite !in_app_iff in F.
  apply (top_file O L s p g g' SB BD FR ltac:(tauto) a o c d _ R S); try (everywhere F).
  - apply same_creation_apart; [tauto|tauto|]. intros y n I. apply (apart_but o N). intros ->. apply NR. change (spdx "externalDocumentRef") with (term "externalDocumentRef") in I. rewrite Re in I. exact (in_map snd _ _ I).
  - intros b ns y I. apply (same_package O L s p _ _ SB); [right; tauto|tauto|tauto| |intros ? _; right; tauto]. apply (apart_but o N). intros ->. apply ND. rewrite <- Fi. exact I.
  - intros b ns y I. apply (same_file O L s p _ _ SB); [right; tauto|tauto|]. apply (apart_but o N). intros ->. exact (D I).
  - intros b ns k K. exact (file_checksum O L s p _ _ b ns o u v k m SB K J U M).
Qed.
Lemma report_ref o a c u v : Subjects is_a (NUri (term "Package")) G (a ++ o :: c) -> ~ In o (a ++ c) ->
  Objects o (term "externalRef") G (u ++ s :: v) -> ~ In s u -> (forall n l, n <> o -> Objects n (term "externalRef") G l -> ~ In s l) ->
  RefMistake L G' s p m -> translate_graph_to_document O L g' = Raise (EParsing [parsing $"ExternalPackageRef" m]).
Proof.
  intros S D J U N M. apply subjects_iff in S. apply objects_iff in J. pose proof (ref_foreign _ _ _ _ _ M) as F. unfold common_asks in F. rewrite !in_app_iff in F.
  apply (top_package O L s p g g' SB BD FR ltac:(tauto) a o c d _ R S); try (everywhere F).
  - apply (same_creation L s p g g' SB BD); tauto.
  - intros b ns y I. apply (same_file O L s p _ _ SB); [right; tauto|tauto|intros ? _; right; tauto].
  - intros b ns y I. apply (same_package O L s p _ _ SB); [right; tauto|tauto|tauto|intros ? _; right; tauto|].
    intros x Ix. left. intros ->. refine (N y _ _ (proj2 (objects_iff _ _ _ _) eq_refl) Ix). intros ->. exact (D I).
  - intros b ns k K. exact (package_ref O L s p _ _ b ns o u v k m SB K J U M).
Qed.
End Reports.
