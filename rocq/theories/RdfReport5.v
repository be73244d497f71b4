(** C75: one mistake in an RDF graph; checksums and references of packages. *)
From Verif Require Import Py PyRe PyFacts Data Oracles Basics ValidationSpec BasicsSpec BasicsFacts Json Construct JsonParse JsonErrors JsonRead Rdf RdfParser RdfReadSpec RdfIff JsonReportSpec JsonReport RdfReportSpec RdfReport RdfReport2 RdfReport3 RdfReport4.

Lemma not_in_bool p l : existsb (str_eqb p) l = false -> ~ In p l.
Proof. intros E I. assert (X : existsb (str_eqb p) l = true) by (apply existsb_exists; exists p; split; [exact I|apply str_eqb_refl]). congruence. Qed.
Ltac not_in := apply not_in_bool; vm_compute; reflexivity.
Definition common_asks := head_asks ++ creation_asks ++ expression_asks ++ range_asks ++ snippet_asks ++ info_asks.

Section Reports.
Variable O : oracles.
Variable L : rdf_library.
Hypothesis FR : Foreign O L.

Lemma package_foreign G s p m : PackageMistake L G s p m -> ~ In p (common_asks ++ checksum_asks ++ code_asks ++ ref_asks ++ file_asks ++ annotation_asks ++ relationship_asks).
Proof.
  intros [q x I _|q x I _|x _|q x I _].
  - destruct I as [<-|[<-|[]]]; not_in.
  - destruct I as [<-|[<-|[<-|[]]]]; not_in.
  - not_in.
  - destruct I as [<-|[<-|[<-|[<-|[<-|[<-|[<-|[<-|[<-|[]]]]]]]]]]; not_in.
Qed.
Lemma file_foreign G G' s p m : FileMistake L G G' s p m -> ~ In p (common_asks ++ checksum_asks ++ code_asks ++ ref_asks ++ package_asks ++ annotation_asks ++ relationship_asks).
Proof. intros [? ? ? ? x _ _ _|q x I _]; [not_in|]. destruct I as [<-|[<-|[]]]; not_in. Qed.
Lemma annotation_foreign G s p m : AnnotationMistake L G s p m -> ~ In p (common_asks ++ checksum_asks ++ code_asks ++ ref_asks ++ package_asks ++ file_asks ++ relationship_asks).
Proof. intros [x _|x _|x _]; not_in. Qed.
Lemma relationship_foreign G s p m : RelationshipMistake L G s p m -> ~ In p (common_asks ++ checksum_asks ++ code_asks ++ ref_asks ++ package_asks ++ file_asks ++ annotation_asks).
Proof. intros [x _|x _]; not_in. Qed.
Lemma creation_foreign G s p m : CreationMistake L G s p m -> ~ In p (head_asks ++ checksum_asks).
Proof. intros [x _|x _]; not_in. Qed.
Lemma checksum_foreign G s p m : ChecksumMistake L G s p m -> ~ In p (common_asks ++ code_asks ++ ref_asks ++ package_asks ++ file_asks ++ annotation_asks ++ relationship_asks).
Proof. intros [x _|x _]; not_in. Qed.
Lemma ref_foreign G s p m : RefMistake L G s p m -> ~ In p (common_asks ++ checksum_asks ++ code_asks ++ package_asks ++ file_asks ++ annotation_asks ++ relationship_asks).
Proof. intros [x _|q x I _]; [not_in|]. destruct I as [<-|[<-|[]]]; not_in. Qed.

Variables (g g' : graph) (d : document) (s : node) (p m : pystr).
Hypothesis R : translate_graph_to_document O L g = Ok d.
Hypothesis SB : SameBut s p (g_triples g) (g_triples g').
Hypothesis BD : g_bound g' = g_bound g.
Notation G := (g_triples g).
Notation G' := (g_triples g').

Ltac apart F := unfold common_asks in F; rewrite !in_app_iff in F.
Ltac everywhere F := first
  [ apply (same_creation L s p g g' SB BD); tauto
  | intros ? ? y Iy; apply (same_package O L s p _ _ SB); [right; tauto|tauto|tauto|intros ? _; right; tauto|intros ? _; right; tauto]
  | intros ? ? y Iy; apply (same_file O L s p _ _ SB); [right; tauto|tauto|intros ? _; right; tauto]
  | intros ? ? y Iy; apply (same_snippet O L s p _ _ SB); [right; tauto|tauto|tauto]
  | intros ? ? y Iy; apply (same_annotation L s p _ _ SB); right; tauto
  | intros ? ? y Iy; apply (same_relationship L s p _ _ SB); right; tauto
  | intros ? ?; apply (same_info L s p _ _ SB); right; tauto ].

Lemma report_creation l : Subjects is_a (NUri (term "CreationInfo")) G (s :: l) -> CreationMistake L G' s p m -> translate_graph_to_document O L g' = Raise (EParsing [parsing $"CreationInfo" m]).
Proof.
  intros S M. apply subjects_iff in S. pose proof (creation_foreign _ _ _ _ M) as F. rewrite in_app_iff in F. apply (top_creation O L s p g g' SB BD ltac:(tauto) s d m l R S eq_refl); [tauto|exact M].
Qed.
Lemma report_package a c : Subjects is_a (NUri (term "Package")) G (a ++ s :: c) -> ~ In s (a ++ c) -> PackageMistake L G' s p m -> translate_graph_to_document O L g' = Raise (EParsing [parsing $"Package" m]).
Proof.
  intros S D M. apply subjects_iff in S. pose proof (package_foreign _ _ _ _ M) as F. apart F.
  apply (top_package O L s p g g' SB BD FR ltac:(tauto) a s c d _ R S); try (everywhere F).
  - intros b ns y I. apply (same_package O L s p _ _ SB); [left; intros ->; exact (D I)|tauto|tauto|intros ? _; right; tauto|intros ? _; right; tauto].
  - intros b ns k K. exact (package_mistake O L s p _ _ b ns k m SB K M).
Qed.
Lemma report_file a c : Subjects is_a (NUri (term "File")) G (a ++ s :: c) -> ~ In s (a ++ c) -> FileMistake L G G' s p m -> translate_graph_to_document O L g' = Raise (EParsing [parsing $"File" m]).
Proof.
  intros S D M. apply subjects_iff in S. pose proof (file_foreign _ _ _ _ _ M) as F. apart F.
  apply (top_file O L s p g g' SB BD FR ltac:(tauto) a s c d _ R S); try (everywhere F).
  - intros b ns y I. apply (same_file O L s p _ _ SB); [left; intros ->; exact (D I)|tauto|intros ? _; right; tauto].
  - intros b ns k K. exact (file_mistake O L s p _ _ b ns k m SB K M).
Qed.
Lemma report_annotation x a c : Links (term "annotation") G (a ++ (x, s) :: c) -> ~ In s (map snd (a ++ c)) -> AnnotationMistake L G' s p m ->
  translate_graph_to_document O L g' = Raise (EParsing [parsing $"Annotation" m]).
Proof.
  intros S D M. apply links_iff in S. pose proof (annotation_foreign _ _ _ _ M) as F. apart F.
  apply (top_annotation O L s p g g' SB BD FR ltac:(tauto) a (x, s) c d _ R S); try (everywhere F).
  - intros b ns y I. apply (same_annotation L s p _ _ SB). left. intro E. apply D. rewrite <- E. apply in_map. exact I.
  - intros b ns k K. exact (annotation_mistake L s p _ _ b ns x k m SB K M).
Qed.
Lemma report_relationship x a c : Links (term "relationship") G (a ++ (x, s) :: c) -> ~ In s (map snd (a ++ c)) -> RelationshipMistake L G' s p m ->
  translate_graph_to_document O L g' = Raise (EParsing [parsing $"Relationship" m]).
Proof.
  intros S D M. apply links_iff in S. pose proof (relationship_foreign _ _ _ _ M) as F. apart F.
  apply (top_relationship O L s p g g' SB BD FR ltac:(tauto) a (x, s) c d _ R S); try (everywhere F).
  - intros b ns y I. apply (same_relationship L s p _ _ SB). left. intro E. apply D. rewrite <- E. apply in_map. exact I.
  - intros b ns k K. exact (relationship_mistake L s p _ _ b ns x k m SB K M).
Qed.
End Reports.
