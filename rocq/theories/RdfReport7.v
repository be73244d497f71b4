(** C75: every broken element of an RDF graph is reported. *)
From Verif Require Import Py PyFacts Data Oracles Basics Construct JsonParse Rdf RdfParser RdfReadSpec RdfIff JsonReportSpec RdfReportSpec.

Lemma each_try_all {A B} (f : A -> result B) l : (forall x, In x l -> Handled (f x)) -> exists r, each_try f l = Ok (flat_map (fun x => complaint (f x)) l, r).
Proof.
  induction l as [|x l IH]; intro H; [eexists; reflexivity|]. destruct IH as (r & E); [intros; apply H; right; assumption|]. cbn [each_try flat_map].
  destruct (H x (or_introl eq_refl)) as [(a & ->)|(ms & ->)]; rewrite E; cbn [bind complaint app]; eexists; reflexivity.
Qed.

Lemma all_reported (O : oracles) (L : rdf_library) g ci packages files snippets annotations relationships contained described infos : parse_creation_info L g = Ok ci ->
  let G := g_triples g in let ns := ci_namespace ci in let bound := g_bound g ++ map binding (ci_refs ci) in
  Subjects is_a (NUri (term "Package")) G packages -> Subjects is_a (NUri (term "File")) G files -> Subjects is_a (NUri (term "Snippet")) G snippets ->
  Links (term "annotation") G annotations -> Links (term "relationship") G relationships -> Links (term "hasFile") G contained -> Links (term "describesPackage") G described ->
  Links (term "hasExtractedLicensingInfo") G infos ->
  (forall x, In x packages -> Handled (parse_package O L G bound ns x)) -> (forall x, In x files -> Handled (parse_file O L G bound ns x)) ->
  (forall x, In x snippets -> Handled (parse_snippet O L G bound ns x)) -> (forall x, In x annotations -> Handled (parse_annotation L G bound ns x)) ->
  (forall x, In x relationships -> Handled (parse_relationship L G bound ns x)) -> (forall x, In x contained -> Handled (parse_implicit_relationship L bound ns RT_CONTAINS x)) ->
  (forall x, In x described -> Handled (parse_implicit_relationship L bound ns RT_DESCRIBES x)) -> (forall x, In x infos -> Handled (parse_extracted_licensing_info L G ns (snd x))) ->
  let ms := flat_map (fun x => complaint (parse_package O L G bound ns x)) packages ++ flat_map (fun x => complaint (parse_file O L G bound ns x)) files
    ++ flat_map (fun x => complaint (parse_snippet O L G bound ns x)) snippets ++ flat_map (fun x => complaint (parse_annotation L G bound ns x)) annotations
    ++ flat_map (fun x => complaint (parse_relationship L G bound ns x)) relationships
    ++ flat_map (fun x => complaint (parse_implicit_relationship L bound ns RT_CONTAINS x)) contained
    ++ flat_map (fun x => complaint (parse_implicit_relationship L bound ns RT_DESCRIBES x)) described
    ++ flat_map (fun x => complaint (parse_extracted_licensing_info L G ns (snd x))) infos in
  (ms = [] -> exists d, translate_graph_to_document O L g = Ok d) /\ (ms <> [] -> translate_graph_to_document O L g = Raise (EParsing ms)).
Proof.
  intros C G ns bound S1 S2 S3 S4 S5 S6 S7 S8 H1 H2 H3 H4 H5 H6 H7 H8 ms. apply subjects_iff in S1, S2, S3. apply links_iff in S4, S5, S6, S7, S8.
  apply each_try_all in H1 as (r1 & E1), H2 as (r2 & E2), H3 as (r3 & E3), H4 as (r4 & E4), H5 as (r5 & E5), H6 as (r6 & E6), H7 as (r7 & E7).
  apply (each_try_all (fun x => parse_extracted_licensing_info L G ns (snd x))) in H8 as (r8 & E8).
  unfold translate_graph_to_document. rewrite C. cbn [bind]. cbv zeta. fold G ns bound.
  change (subjects G RDF_type (NUri (spdx "Package"))) with (subjects G is_a (NUri (term "Package"))). change (subjects G RDF_type (NUri (spdx "File"))) with (subjects G is_a (NUri (term "File"))).
  change (subjects G RDF_type (NUri (spdx "Snippet"))) with (subjects G is_a (NUri (term "Snippet"))).
  change (pairs G (spdx "annotation")) with (pairs G (term "annotation")). change (pairs G (spdx "relationship")) with (pairs G (term "relationship")). change (pairs G (spdx "hasFile")) with (pairs G (term "hasFile")).
  change (pairs G (spdx "describesPackage")) with (pairs G (term "describesPackage")). change (pairs G (spdx "hasExtractedLicensingInfo")) with (pairs G (term "hasExtractedLicensingInfo")).
  rewrite S1, E1, S2, E2, S3, E3, S4, E4, S5, E5, S6, E6, S7, E7, S8, E8. cbn [bind]. fold ms. split; intro M; [rewrite M; eexists; reflexivity|]. destruct ms; [congruence|reflexivity].
Qed.
