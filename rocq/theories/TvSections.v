(** The sections of the text of a document. *)
From Verif Require Import Py PyFacts Data Oracles Basics BasicsSpec JsonConv JsonParse JsonSpec TvWriter TvSpec TvPlan TvPlan2.
From Coq Require Import Permutation.

Lemma placed_none last l : files_of l = [] -> placed last l = [].
Proof.
  unfold files_of. revert last. induction l as [|x l IH]; intro last; auto. destruct x; cbn [flat_map app placed]; auto. discriminate.
Qed.
Lemma placed_app last l m : files_of m = [] -> placed last (l ++ m) = placed last l.
Proof.
  intro H. revert last. induction l as [|x l IH]; intro last; cbn [app]; [apply placed_none; auto|]. destruct x; cbn [placed]; auto. rewrite IH. reflexivity.
Qed.
Lemma in_place_none ids last l : snippets_of l = [] -> snippets_in_place ids last l.
Proof.
  unfold snippets_of. revert last. induction l as [|x l IH]; intro last; [exact (fun _ => I)|]. destruct x; cbn [flat_map app snippets_in_place]; auto. discriminate.
Qed.
Lemma in_place_app ids last l m : snippets_in_place ids last l -> (forall last', snippets_in_place ids last' m) -> snippets_in_place ids last (l ++ m).
Proof.
  intros H K. revert last H. induction l as [|x l IH]; intros last H; cbn [app]; auto. destruct x; cbn [snippets_in_place] in *; auto.
  destruct H. split; auto.
Qed.
Lemma proj_map {A B} (g : A -> part) (h : part -> list B) l : (forall a, h (g a) = []) -> flat_map h (map g l) = [].
Proof. intro H. induction l as [|a l IH]; cbn [map flat_map]; auto. rewrite H. exact IH. Qed.
Lemma proj_same {A} (g : A -> part) (h : part -> list A) l : (forall a, h (g a) = [a]) -> flat_map h (map g l) = l.
Proof. intro H. induction l as [|a l IH]; cbn [map flat_map]; auto. rewrite H, IH. reflexivity. Qed.
Lemma proj_elements {B} (h : part -> list B) l : forallb is_element l = true -> (forall x, is_element x = true -> h x = []) -> flat_map h l = [].
Proof. intros H K. induction l as [|a l IH]; cbn [flat_map forallb] in *; auto. apply andb_true_iff in H as [H1 H2]. rewrite K, IH; auto. Qed.

Section Doc.
Variable O : oracles.
Variable d : document.
Lemma body_elements : forallb is_element (body d) = true.
Proof.
  unfold body. rewrite !forallb_app, file_parts_elements. unfold planned. rewrite plan_packages_elements, !andb_true_r.
  apply forallb_forall. intros x Hx. apply in_map_iff in Hx as (s & <- & _). reflexivity.
Qed.
Lemma all_documents : documents_of (all_parts d) = [do_ci d].
Proof.
  unfold all_parts, documents_of. cbn [flat_map app]. rewrite !flat_map_app, !proj_map by reflexivity. rewrite proj_elements; auto using body_elements.
  intros []; cbn; congruence.
Qed.
Lemma all_extracted : extracted_of (all_parts d) = do_extracted d.
Proof.
  unfold all_parts, extracted_of. cbn [flat_map app]. rewrite !flat_map_app, proj_same, !proj_map by reflexivity. rewrite proj_elements; auto using body_elements.
  - rewrite !app_nil_r. reflexivity.
  - intros []; cbn; congruence.
Qed.
Lemma all_annotations : annotations_of (all_parts d) = do_annotations d.
Proof.
  unfold all_parts, annotations_of. cbn [flat_map app]. rewrite !flat_map_app, !proj_map, proj_same by reflexivity. rewrite proj_elements; auto using body_elements.
  intros []; cbn; congruence.
Qed.
Lemma all_relationships : relationships_of (all_parts d) = to_write d.
Proof.
  unfold all_parts, relationships_of. cbn [flat_map app]. rewrite !flat_map_app, proj_map, proj_same, !proj_map by reflexivity. rewrite proj_elements; auto using body_elements.
  - rewrite !app_nil_r. reflexivity.
  - intros []; cbn; congruence.
Qed.
Lemma body_files : files_of (body d) = unpackaged d ++ files_of (fst (planned d)).
Proof.
  unfold body. unfold files_of at 1. rewrite !flat_map_app, proj_map by reflexivity. cbn [app]. f_equal. apply files_of_file_parts.
Qed.
Lemma tail_files : files_of (map PExtracted (do_extracted d) ++ map PRelationship (to_write d) ++ map PAnnotation (do_annotations d)) = [].
Proof. unfold files_of. rewrite !flat_map_app, !proj_map by reflexivity. reflexivity. Qed.
Lemma all_files : files_of (all_parts d) = unpackaged d ++ files_of (fst (planned d)).
Proof.
  unfold all_parts. rewrite <- body_files. unfold files_of at 1. cbn [flat_map app]. rewrite flat_map_app. pose proof tail_files as T. unfold files_of in T. rewrite T, app_nil_r. reflexivity.
Qed.
Lemma tail_snippets : snippets_of (map PExtracted (do_extracted d) ++ map PRelationship (to_write d) ++ map PAnnotation (do_annotations d)) = [].
Proof. unfold snippets_of. rewrite !flat_map_app, !proj_map by reflexivity. reflexivity. Qed.
Hypothesis Hids : NoDup (element_ids d).
Lemma all_snippets : snippets_of (all_parts d) = unfiled d ++ flat_map (sn d) (unpackaged d ++ files_of (fst (planned d))).
Proof.
  unfold all_parts. unfold snippets_of at 1. cbn [flat_map app]. rewrite flat_map_app. pose proof tail_snippets as T. unfold snippets_of in T. rewrite T, app_nil_r.
  unfold body. rewrite !flat_map_app. f_equal; [apply snippets_of_map|]. f_equal; [apply snippets_of_file_parts|].
  destruct (planned_facts d Hids None) as (_ & H & _). exact H.
Qed.
Lemma all_packages : packages_of (all_parts d) = do_packages d.
Proof.
  unfold all_parts, packages_of. cbn [flat_map app]. unfold body. rewrite !flat_map_app, !proj_map by reflexivity. rewrite !app_nil_r. cbn [app].
  destruct (planned_facts d Hids None) as (H & _). unfold packages_of in H. rewrite H. pose proof (packages_of_file_parts (sn d) (unpackaged d)) as P. unfold packages_of in P.
  rewrite P. reflexivity.
Qed.
Lemma all_placed : placed None (all_parts d) = placed None (fst (planned d)).
Proof.
  unfold all_parts. cbn [placed]. rewrite placed_app by apply tail_files. unfold body. rewrite placed_snippets, placed_files. reflexivity.
Qed.
Lemma sn_file_id f s : In s (sn d f) -> sn_file s = fi_id f.
Proof. unfold sn. intro H. apply filter_In in H as [_ H]. apply andb_true_iff in H as [_ H]. apply str_eqb_eq. exact H. Qed.
Lemma all_in_place : snippets_in_place (map fi_id (do_files d)) None (all_parts d).
Proof.
  unfold all_parts. cbn [snippets_in_place]. apply in_place_app; [|intro; apply in_place_none, tail_snippets]. unfold body.
  assert (H : forall s, In s (unfiled d) -> ~ In (sn_file s) (map fi_id (do_files d))).
  { intros s Hs. rewrite (unfiled_eq d Hids) in Hs. apply filter_In in Hs as [_ Hs]. apply negb_true_iff, str_in_false in Hs. exact Hs. }
  induction (unfiled d) as [|s l IH]; cbn [map app].
  - apply in_place_files; [apply sn_file_id|]. intro. apply in_place_packages. apply sn_file_id.
  - cbn [snippets_in_place]. split; [apply H; left; auto|]. apply IH. intros x Hx. apply H. right. auto.
Qed.
Theorem document_sections text : write_document O d = Ok text ->
  exists l, Layout O text l
    /\ documents_of l = [do_ci d] /\ packages_of l = do_packages d /\ Permutation (files_of l) (do_files d)
    /\ Permutation (snippets_of l) (do_snippets d) /\ extracted_of l = do_extracted d /\ annotations_of l = do_annotations d
    /\ snippets_in_place (map fi_id (do_files d)) None l
    /\ Permutation (relationships_of l ++ placed None l) (flat_map (expressed d) (do_relationships d)).
Proof.
  intro H. exists (all_parts d). split; [apply document_layout; exact H|]. split; [apply all_documents|]. split; [apply all_packages|].
  split; [rewrite all_files; apply files_permutation; auto|]. split; [rewrite all_snippets; apply snippets_permutation; auto|].
  split; [apply all_extracted|]. split; [apply all_annotations|]. split; [apply all_in_place|].
  rewrite all_relationships, all_placed. apply relationships_permutation. auto.
Qed.
End Doc.
