(** C75: mistakes in files, annotations, relationships and the creation info of an RDF graph. *)
From Verif Require Import Py PyRe PyFacts Data Oracles Basics ValidationSpec BasicsSpec BasicsFacts ActorFacts Json Construct JsonParse JsonErrors JsonRead Rdf RdfParser RdfReadSpec RdfIff JsonReportSpec JsonReport RdfReportSpec RdfReport RdfReport2.

Section Elements.
Variable O : oracles.
Variable L : rdf_library.

Lemma types_mid a old c n x l0 : each_log (apply_parsing_method (parse_enum_value file_type_all file_type_name $"fileType_")) (a ++ old ++ c) = Ok ([], l0) ->
  parse_enum_value file_type_all file_type_name $"fileType_" n = Raise (EParsing [x]) ->
  exists l1, each_log (apply_parsing_method (parse_enum_value file_type_all file_type_name $"fileType_")) (a ++ n :: c) = Ok ([x], l1).
Proof.
  set (f := apply_parsing_method _). intros H X. assert (Y : f n = Ok ([x], None)) by (unfold f, apply_parsing_method; rewrite X; reflexivity). clearbody f.
  revert l0 H. induction a as [|y a IH]; intros l0 H; cbn [app each_log] in *.
  - rewrite Y. cbn [bind]. assert (Z : exists r, each_log f c = Ok ([], r)).
    { clear Y X. revert l0 H. induction old as [|o old IH]; intros l0 H; [eauto|]. cbn [app each_log] in H. destruct (f o) as [[u v]|]; [|discriminate H]. cbn [bind] in H.
      destruct (each_log f (old ++ c)) as [[ms r]|]; [|discriminate H]. cbn [bind] in H. apply pair_ok in H as [H _]. apply app_eq_nil in H as [_ ->]. exact (IH _ eq_refl). }
    destruct Z as (r & ->). cbn [bind app]. eauto.
  - destruct (f y) as [[u v]|]; [|discriminate H]. cbn [bind] in *. destruct (each_log f (a ++ old ++ c)) as [[ms r]|]; [|discriminate H]. cbn [bind] in H. apply pair_ok in H as [H _]. apply app_eq_nil in H as [-> ->].
    destruct (IH _ eq_refl) as (l1 & ->). cbn [bind app]. eauto.
Qed.
Lemma file_mistake s p G G' b ns k m : SameBut s p G G' -> parse_file O L G b ns s = Ok k -> FileMistake L G G' s p m ->
  parse_file O L G' b ns s = Raise (EParsing [parsing $"File" m]).
Proof.
  intros SB R M. unfold parse_file in R. walk_all R. no_logs R. clear R. unfold parse_file.
  destruct M as [pre old post n m B0 B N|p m I B].
  - apply objects_iff in B0, B. apply (no_member file_type_all file_type_name "fileType_" "FileType") in N; [|exact ftype_lookup|reflexivity].
    change (term "fileType") with (spdx "fileType") in *. rewrite B. rewrite B0 in *.
    match goal with E : each_log _ _ = Ok ([], _) |- _ => destruct (types_mid _ _ _ n m _ E N) as (types' & X) end.
    rewrite X; rest SB; replay; reflexivity.
  - destruct I as [<-|[<-|[]]]; apply (bad_text L stripped) in B; match type of B with context [term ?n] => change (term n) with (spdx n) in * end; rewrite B; rest SB; replay; reflexivity.
Qed.
Lemma annotation_mistake s p G G' b ns x k m : SameBut s p G G' -> parse_annotation L G b ns (x, s) = Ok k -> AnnotationMistake L G' s p m ->
  parse_annotation L G' b ns (x, s) = Raise (EParsing [parsing $"Annotation" m]).
Proof.
  intros SB R M. unfold parse_annotation in R. walk_all R. no_logs R. clear R. unfold parse_annotation.
  destruct M as [m B|m B|m B].
  - apply bad_actor in B. change (term "annotator") with (spdx "annotator") in *. rewrite B; rest SB; replay; reflexivity.
  - apply bad_date in B. change (term "annotationDate") with (spdx "annotationDate") in *. rewrite B; rest SB; replay; reflexivity.
  - apply (bad_member L annotation_type_all annotation_type_name "annotationType_" "AnnotationType") in B; [|exact atype_lookup|reflexivity].
    change (term "annotationType") with (spdx "annotationType") in *. rewrite B; rest SB; replay; reflexivity.
Qed.
Lemma relationship_mistake s p G G' b ns x k m : SameBut s p G G' -> parse_relationship L G b ns (x, s) = Ok k -> RelationshipMistake L G' s p m ->
  parse_relationship L G' b ns (x, s) = Raise (EParsing [parsing $"Relationship" m]).
Proof.
  intros SB R M. unfold parse_relationship in R. walk_all R. no_logs R. clear R. unfold parse_relationship.
  destruct M as [m B|m B].
  - apply (bad_member L rel_type_all rel_type_name "relationshipType_" "RelationshipType") in B; [|exact rtype_lookup|reflexivity].
    change (term "relationshipType") with (spdx "relationshipType") in *. rewrite B; rest SB; replay; reflexivity.
  - apply (bad_text_nn L (fun n => parse_spdx_id L b (Some n) ns)) in B. change (term "relatedSpdxElement") with (spdx "relatedSpdxElement") in *. rewrite B; rest SB; replay; reflexivity.
Qed.
End Elements.
