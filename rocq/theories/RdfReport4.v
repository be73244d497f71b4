(** C75: mistakes in an RDF graph as the document reader reports them. *)
From Verif Require Import Py PyRe PyFacts Data Oracles Basics ValidationSpec BasicsSpec BasicsFacts Json Construct JsonParse JsonErrors JsonRead Rdf RdfParser RdfReadSpec RdfIff RdfIff2 RdfIff3 JsonReportSpec JsonReport RdfReportSpec RdfReport RdfReport2 RdfReport3.

Definition head_asks := [RDF_type; spdx "Package"; spdx "annotation"; spdx "relationship"; spdx "hasFile"; spdx "describesPackage"; spdx "hasExtractedLicensingInfo"]
  ++ document_asks ++ docref_asks.
Lemma raise_if_ok log {A} (k : unit -> result A) r : bind (raise_if log) k = Ok r -> log = [].
Proof. destruct log; [reflexivity|discriminate]. Qed.

Lemma each_try_ok {A B} (f : A -> result B) l r : (forall n, Noisy (f n)) -> each_try f l = Ok ([], r) -> forall x, In x l -> exists k, f x = Ok k.
Proof.
  intros N H x I. apply (each_try_iff f (fun n a => f n = Ok a)) in H; [|reflexivity|exact N].
  induction H as [|y k l r K _ IH]; [destruct I|]. destruct I as [<-|I]; [eauto|exact (IH I)].
Qed.

Section Top.
Variable O : oracles.
Variable L : rdf_library.
Variables (s : node) (p : pystr) (g g' : graph).
Hypothesis SB : SameBut s p (g_triples g) (g_triples g').
Hypothesis BD : g_bound g' = g_bound g.
Notation G := (g_triples g).
Notation G' := (g_triples g').

Hypothesis FR : Foreign O L.
Hypothesis head : ~ In p head_asks.
Lemma not_asked q : In q head_asks -> q <> p. Proof. intros I ->. exact (head I). Qed.
Lemma same_namespace : parse_namespace_and_spdx_id L G' = parse_namespace_and_spdx_id L G.
Proof. unfold parse_namespace_and_spdx_id. rewrite (sb_subjects _ _ _ _ SB) by (apply not_asked; left; reflexivity). reflexivity. Qed.
Lemma in_document q : In q document_asks -> In q head_asks. Proof. intro I. unfold head_asks. rewrite !in_app_iff. auto. Qed.
Lemma in_docref q : In q docref_asks -> In q head_asks. Proof. intro I. unfold head_asks. rewrite !in_app_iff. auto. Qed.
Lemma off_document n q : In q document_asks -> Off s p n q. Proof. intro I. right. apply not_asked, in_document, I. Qed.

Lemma same_creation : ~ In p creation_asks -> ~ In p checksum_asks -> parse_creation_info L g' = parse_creation_info L g.
Proof.
  intros C K. unfold parse_creation_info. rewrite same_namespace, BD. destruct (parse_namespace_and_spdx_id L G) as [[[ns id] doc]|]; [|reflexivity]. cbn [bind].
  rewrite !(same_literal _ _ _ _ _ SB _ _ doc) by (try reflexivity; apply off_document; member).
  rewrite (sb_subjects _ _ _ _ SB) by (apply not_asked; left; reflexivity). destruct (any_value _) as [b|]; [|reflexivity].
  rewrite !(same_literal _ _ _ _ _ SB _ _ b) by (first [reflexivity|apply (off_asks _ _ _ _ creation_asks); [right; exact C|member]]).
  rewrite (same_objects _ _ _ _ SB b) by (apply (off_asks _ _ _ _ creation_asks); [right; exact C|member]).
  rewrite (same_objects _ _ _ _ SB doc) by (apply off_document; member).
  rewrite (same_docrefs _ _ _ _ _ SB). 1: reflexivity.
  intros n _. split; [right; intro I; exact (head (in_docref _ I))|]. intros x _. right. exact K.
Qed.
Lemma creation_mistake b c m l : parse_creation_info L g = Ok c -> subjects G RDF_type (NUri (spdx "CreationInfo")) = b :: l -> s = b -> ~ In p checksum_asks -> CreationMistake L G' b p m ->
  parse_creation_info L g' = Raise (EParsing [parsing $"CreationInfo" m]).
Proof.
  intros R F <- K M. unfold parse_creation_info in *. rewrite same_namespace, BD. destruct (parse_namespace_and_spdx_id L G) as [[[ns id] doc]|]; [|discriminate R]. cbn [bind] in *.
  rewrite !(same_literal _ _ _ _ _ SB _ _ doc) by (try reflexivity; apply off_document; member).
  rewrite (sb_subjects _ _ _ _ SB) by (apply not_asked; left; reflexivity). rewrite F in *. cbn [any_value] in *. 
  rewrite (same_objects _ _ _ _ SB doc) by (apply off_document; member).
  rewrite (same_docrefs _ _ _ _ _ SB) by (intros n _; split; [right; intro I; exact (head (in_docref _ I))|]; intros x _; right; exact K).
  repeat (match type of R with bind _ _ = Ok _ => walk1 R; split_pairs R end). destruct (negb (node_truthy L s)); [discriminate R|].
  walk_all R. no_logs R. clear R. 
  destruct M as [m B|m B].
  - apply bad_date in B. change (term "created") with (spdx "created") in *. rewrite B. rest SB; cbn [bind]; replay. rewrite N. reflexivity.
  - apply bad_version in B. change (term "licenseListVersion") with (spdx "licenseListVersion") in *. rewrite B. rest SB; cbn [bind]; replay. rewrite N. reflexivity.
Qed.

(** ** Documents *)
Lemma top_creation b d m l : translate_graph_to_document O L g = Ok d -> subjects G RDF_type (NUri (spdx "CreationInfo")) = b :: l -> s = b -> ~ In p checksum_asks -> CreationMistake L G' b p m ->
  translate_graph_to_document O L g' = Raise (EParsing [parsing $"CreationInfo" m]).
Proof.
  intros R F E K M. unfold translate_graph_to_document in *. destruct (parse_creation_info L g) as [c|] eqn:C; [|discriminate R]. rewrite (creation_mistake b c m l C F E K M). reflexivity.
Qed.

Ltac top_same := rewrite ?(sb_subjects _ _ _ _ SB) by (apply not_asked; unfold head_asks; member); rewrite ?(sb_pairs _ _ _ _ SB) by (apply not_asked; unfold head_asks; member).
Definition SameInfos : Prop := forall ns x, parse_extracted_licensing_info L G' ns x = parse_extracted_licensing_info L G ns x.
Definition Same_package (l : list (node)) : Prop := forall b ns x, In x l -> parse_package O L G' b ns x = parse_package O L G b ns x.
Definition Same_file (l : list (node)) : Prop := forall b ns x, In x l -> parse_file O L G' b ns x = parse_file O L G b ns x.
Definition Same_snippet (l : list (node)) : Prop := forall b ns x, In x l -> parse_snippet O L G' b ns x = parse_snippet O L G b ns x.
Definition Same_annotation (l : list (node * node)) : Prop := forall b ns x, In x l -> parse_annotation L G' b ns x = parse_annotation L G b ns x.
Definition Same_relationship (l : list (node * node)) : Prop := forall b ns x, In x l -> parse_relationship L G' b ns x = parse_relationship L G b ns x.

Lemma noisy_package_here b ns x : Noisy (parse_package O L G b ns x). Proof. apply noisy_package; exact FR. Qed.
Lemma noisy_file_here b ns x : Noisy (parse_file O L G b ns x). Proof. apply noisy_file; exact FR. Qed.
Lemma noisy_annotation_here b ns x : Noisy (parse_annotation L G b ns x). Proof. apply (noisy_annotation O); exact FR. Qed.
Lemma noisy_relationship_here b ns x : Noisy (parse_relationship L G b ns x). Proof. apply (noisy_relationship O); exact FR. Qed.
Ltac conclude R Noise f' Y X :=
  repeat (match type of R with bind (raise_if _) _ = _ => fail 1 | _ => idtac end;
    match type of R with bind ?Z _ = Ok _ => let E := fresh "E" in destruct Z as [?|?] eqn:E; [|discriminate R]; cbn [bind] in R end;
    repeat match type of R with (let (_, _) := ?x in _) = Ok _ => destruct x; cbn beta iota in R end);
  let N := fresh "N" in pose proof (raise_if_ok _ _ _ R) as N; repeat (apply app_eq_nil in N as [? N]); subst; clear R;
  match goal with E : each_try _ (?a ++ ?x :: ?c) = Ok _ |- _ =>
    let k := fresh in let K := fresh in destruct (each_try_ok _ _ _ Noise E x ltac:(apply in_elt)) as (k & K);
    let r := fresh in let Q := fresh in destruct (each_try_mid _ f' a x c _ _ E (fun y I => Y _ _ y I) (X _ _ _ K)) as (r & Q); rewrite Q end;
  replay; reflexivity.
Lemma top_package a x c d m : translate_graph_to_document O L g = Ok d -> subjects G RDF_type (NUri (spdx "Package")) = a ++ x :: c -> parse_creation_info L g' = parse_creation_info L g ->
  Same_file (subjects G RDF_type (NUri (spdx "File"))) -> Same_snippet (subjects G RDF_type (NUri (spdx "Snippet"))) -> Same_annotation (pairs G (spdx "annotation")) -> Same_relationship (pairs G (spdx "relationship")) -> SameInfos ->
  Same_package (a ++ c) -> (forall b ns k, parse_package O L G b ns x = Ok k -> parse_package O L G' b ns x = Raise (EParsing [m])) ->
  translate_graph_to_document O L g' = Raise (EParsing [m]).
Proof.
  intros R S C H1 H2 H3 H4 HI Y X. unfold translate_graph_to_document in *. rewrite C. top_same. rewrite BD. cbv zeta in *.
  destruct (parse_creation_info L g) as [ci|]; [|discriminate R]. cbn [bind] in *.
  rewrite (each_try_ext (parse_file O L G' _ _) (parse_file O L G (g_bound g ++ map binding (ci_refs ci)) (ci_namespace ci))) by (intros; apply H1; assumption).
  rewrite (each_try_ext (parse_snippet O L G' _ _) (parse_snippet O L G (g_bound g ++ map binding (ci_refs ci)) (ci_namespace ci))) by (intros; apply H2; assumption).
  rewrite (each_try_ext (parse_annotation L G' _ _) (parse_annotation L G (g_bound g ++ map binding (ci_refs ci)) (ci_namespace ci))) by (intros; apply H3; assumption).
  rewrite (each_try_ext (parse_relationship L G' _ _) (parse_relationship L G (g_bound g ++ map binding (ci_refs ci)) (ci_namespace ci))) by (intros; apply H4; assumption).
  rewrite (each_try_ext (fun x => parse_extracted_licensing_info L G' _ (snd x)) (fun x => parse_extracted_licensing_info L G (ci_namespace ci) (snd x))) by (intros; apply HI).
  rewrite S in *. set (b := g_bound g ++ map binding (ci_refs ci)) in *. set (ns := ci_namespace ci) in *.
  conclude R (noisy_package_here b ns) (parse_package O L G' b ns) Y X.
Qed.
Lemma top_file a x c d m : translate_graph_to_document O L g = Ok d -> subjects G RDF_type (NUri (spdx "File")) = a ++ x :: c -> parse_creation_info L g' = parse_creation_info L g ->
  Same_package (subjects G RDF_type (NUri (spdx "Package"))) -> Same_snippet (subjects G RDF_type (NUri (spdx "Snippet"))) -> Same_annotation (pairs G (spdx "annotation")) -> Same_relationship (pairs G (spdx "relationship")) -> SameInfos ->
  Same_file (a ++ c) -> (forall b ns k, parse_file O L G b ns x = Ok k -> parse_file O L G' b ns x = Raise (EParsing [m])) ->
  translate_graph_to_document O L g' = Raise (EParsing [m]).
Proof.
  intros R S C H1 H2 H3 H4 HI Y X. unfold translate_graph_to_document in *. rewrite C. top_same. rewrite BD. cbv zeta in *.
  destruct (parse_creation_info L g) as [ci|]; [|discriminate R]. cbn [bind] in *.
  rewrite (each_try_ext (parse_package O L G' _ _) (parse_package O L G (g_bound g ++ map binding (ci_refs ci)) (ci_namespace ci))) by (intros; apply H1; assumption).
  rewrite (each_try_ext (parse_snippet O L G' _ _) (parse_snippet O L G (g_bound g ++ map binding (ci_refs ci)) (ci_namespace ci))) by (intros; apply H2; assumption).
  rewrite (each_try_ext (parse_annotation L G' _ _) (parse_annotation L G (g_bound g ++ map binding (ci_refs ci)) (ci_namespace ci))) by (intros; apply H3; assumption).
  rewrite (each_try_ext (parse_relationship L G' _ _) (parse_relationship L G (g_bound g ++ map binding (ci_refs ci)) (ci_namespace ci))) by (intros; apply H4; assumption).
  rewrite (each_try_ext (fun x => parse_extracted_licensing_info L G' _ (snd x)) (fun x => parse_extracted_licensing_info L G (ci_namespace ci) (snd x))) by (intros; apply HI).
  rewrite S in *. set (b := g_bound g ++ map binding (ci_refs ci)) in *. set (ns := ci_namespace ci) in *.
  conclude R (noisy_file_here b ns) (parse_file O L G' b ns) Y X.
Qed.
Lemma top_annotation a x c d m : translate_graph_to_document O L g = Ok d -> pairs G (spdx "annotation") = a ++ x :: c -> parse_creation_info L g' = parse_creation_info L g ->
  Same_package (subjects G RDF_type (NUri (spdx "Package"))) -> Same_file (subjects G RDF_type (NUri (spdx "File"))) -> Same_snippet (subjects G RDF_type (NUri (spdx "Snippet"))) -> Same_relationship (pairs G (spdx "relationship")) -> SameInfos ->
  Same_annotation (a ++ c) -> (forall b ns k, parse_annotation L G b ns x = Ok k -> parse_annotation L G' b ns x = Raise (EParsing [m])) ->
  translate_graph_to_document O L g' = Raise (EParsing [m]).
Proof.
  intros R S C H1 H2 H3 H4 HI Y X. unfold translate_graph_to_document in *. rewrite C. top_same. rewrite BD. cbv zeta in *.
  destruct (parse_creation_info L g) as [ci|]; [|discriminate R]. cbn [bind] in *.
  rewrite (each_try_ext (parse_package O L G' _ _) (parse_package O L G (g_bound g ++ map binding (ci_refs ci)) (ci_namespace ci))) by (intros; apply H1; assumption).
  rewrite (each_try_ext (parse_file O L G' _ _) (parse_file O L G (g_bound g ++ map binding (ci_refs ci)) (ci_namespace ci))) by (intros; apply H2; assumption).
  rewrite (each_try_ext (parse_snippet O L G' _ _) (parse_snippet O L G (g_bound g ++ map binding (ci_refs ci)) (ci_namespace ci))) by (intros; apply H3; assumption).
  rewrite (each_try_ext (parse_relationship L G' _ _) (parse_relationship L G (g_bound g ++ map binding (ci_refs ci)) (ci_namespace ci))) by (intros; apply H4; assumption).
  rewrite (each_try_ext (fun x => parse_extracted_licensing_info L G' _ (snd x)) (fun x => parse_extracted_licensing_info L G (ci_namespace ci) (snd x))) by (intros; apply HI).
  rewrite S in *. set (b := g_bound g ++ map binding (ci_refs ci)) in *. set (ns := ci_namespace ci) in *.
  conclude R (noisy_annotation_here b ns) (parse_annotation L G' b ns) Y X.
Qed.
Lemma top_relationship a x c d m : translate_graph_to_document O L g = Ok d -> pairs G (spdx "relationship") = a ++ x :: c -> parse_creation_info L g' = parse_creation_info L g ->
  Same_package (subjects G RDF_type (NUri (spdx "Package"))) -> Same_file (subjects G RDF_type (NUri (spdx "File"))) -> Same_snippet (subjects G RDF_type (NUri (spdx "Snippet"))) -> Same_annotation (pairs G (spdx "annotation")) -> SameInfos ->
  Same_relationship (a ++ c) -> (forall b ns k, parse_relationship L G b ns x = Ok k -> parse_relationship L G' b ns x = Raise (EParsing [m])) ->
  translate_graph_to_document O L g' = Raise (EParsing [m]).
Proof.
  intros R S C H1 H2 H3 H4 HI Y X. unfold translate_graph_to_document in *. rewrite C. top_same. rewrite BD. cbv zeta in *.
  destruct (parse_creation_info L g) as [ci|]; [|discriminate R]. cbn [bind] in *.
  rewrite (each_try_ext (parse_package O L G' _ _) (parse_package O L G (g_bound g ++ map binding (ci_refs ci)) (ci_namespace ci))) by (intros; apply H1; assumption).
  rewrite (each_try_ext (parse_file O L G' _ _) (parse_file O L G (g_bound g ++ map binding (ci_refs ci)) (ci_namespace ci))) by (intros; apply H2; assumption).
  rewrite (each_try_ext (parse_snippet O L G' _ _) (parse_snippet O L G (g_bound g ++ map binding (ci_refs ci)) (ci_namespace ci))) by (intros; apply H3; assumption).
  rewrite (each_try_ext (parse_annotation L G' _ _) (parse_annotation L G (g_bound g ++ map binding (ci_refs ci)) (ci_namespace ci))) by (intros; apply H4; assumption).
  rewrite (each_try_ext (fun x => parse_extracted_licensing_info L G' _ (snd x)) (fun x => parse_extracted_licensing_info L G (ci_namespace ci) (snd x))) by (intros; apply HI).
  rewrite S in *. set (b := g_bound g ++ map binding (ci_refs ci)) in *. set (ns := ci_namespace ci) in *.
  conclude R (noisy_relationship_here b ns) (parse_relationship L G' b ns) Y X.
Qed.
End Top.
