(** A document written as an RDF graph and read back. *)
From Verif Require Import Py PyFacts Data Oracles Basics Validation ValidationSpec BasicsSpec Json Construct JsonParse LocatorFacts
  Rdf RdfWriter RdfParser RdfSpec RdfGraphFacts RdfWriteFacts RdfElemFacts RdfReadFacts.
From Verif Require JsonMore ActorFacts BasicsFacts.
From Coq Require Import Lia.

(** the node that a special triple is about *)
Definition key (t : triple) : node := let '(s, p, o) := t in if str_in p special_preds then o else s.

Section Document.
Variable O : oracles.
Variable lab : nat -> pystr.
Hypothesis lab_inj : forall i j, lab i = lab j -> i = j.
Variable ns : pystr.
Hypothesis HN : RdfNamespace ns.
Notation file_uri := (file_uri ns).
Notation own := (own lab).

Lemma file_uri_inj a b : file_uri a = file_uri b -> a = b.
Proof. intro H. unfold RdfElemFacts.file_uri in H. apply app_inv_head, app_inv_head in H. exact H. Qed.

(** ** Writers that write about different nodes *)
Definition Uses (A : node -> pystr -> Prop) (ids : list pystr) : Prop :=
  forall s q, A s q -> (exists u, s = NUri u /\ In #"#" u) /\ (In q deaf \/ exists id, In id ids /\ s = NUri (file_uri id)).
Definition Keyed (ids : list pystr) (n n' : nat) (v : node) : Prop := own n n' v \/ exists id, In id ids /\ v = NUri (file_uri id).
Definition Block (w : writer) (ids : list pystr) (D : view -> list triple -> Prop) : Prop :=
  exists A, Uses A ids /\ Top lab w A D
  /\ forall n ts n', w n = Ok (ts, n') -> n <= n' /\ NoDup (map key (filter special ts)) /\ Forall (fun t => Keyed ids n n' (key t)) (filter special ts).
Lemma uses_named A ids : Uses A ids -> named A.
Proof. intros H s p K. destruct (H s p K) as [(u & -> & Hu) _]. split; [intros []|apply hash_not_exc; exact Hu]. Qed.
Lemma keyed_le ids ids' n n' m m' v : n <= m -> m' <= n' -> incl ids ids' -> Keyed ids m m' v -> Keyed ids' n n' v.
Proof.
  intros H1 H2 H3 [H|(id & Hi & E)]; [left; apply (own_le lab n n' m m'); auto|right; exists id; auto].
Qed.
Lemma keyed_apart i1 i2 n m n' v : NoDup (i1 ++ i2) -> Keyed i1 n m v -> Keyed i2 m n' v -> False.
Proof.
  intros ND [(k & Hk & ->)|(a & Ha & ->)] [(j & Hj & E)|(b & Hb & E)]; try discriminate.
  - injection E as E. apply lab_inj in E. lia.
  - assert (E' : file_uri a = file_uri b) by congruence. apply file_uri_inj in E' as ->. clear - ND Ha Hb.
    induction i1 as [|x l IH]; [destruct Ha|]. cbn in ND. inversion ND; subst. destruct Ha as [->|Ha]; [|auto].
    match goal with H : ~ In _ _ |- _ => apply H end. apply in_app_iff. right. exact Hb.
Qed.
Lemma block_app w1 w2 i1 i2 D1 D2 : NoDup (i1 ++ i2) -> Block w1 i1 D1 -> Block w2 i2 D2 ->
  Block (w_app w1 w2) (i1 ++ i2) (fun V l => exists l1 l2, l = l1 ++ l2 /\ D1 V l1 /\ D2 V l2).
Proof.
  intros ND (A1 & U1 & T1 & K1) (A2 & U2 & T2 & K2). exists (fun s q => A1 s q \/ A2 s q). split; [|split].
  - intros s q [H|H]; [destruct (U1 _ _ H) as [X [Y|(id & Hi & E)]]|destruct (U2 _ _ H) as [X [Y|(id & Hi & E)]]];
      (split; [exact X|]); auto; right; exists id; split; auto; apply in_app_iff; auto.
  - apply top_app; auto; [exact (uses_named _ _ U1)|exact (uses_named _ _ U2)|].
    intros s q H1 H2. destruct (U1 _ _ H1) as [_ [Y|(a & Ha & Ea)]]; auto. destruct (U2 _ _ H2) as [_ [Y|(b & Hb & Eb)]]; auto. exfalso.
    apply (keyed_apart i1 i2 0 0 0 s ND); right; eauto.
  - intros n ts n' E. unfold w_app in E. destruct (w1 n) as [[t1 m]|] eqn:E1; [|discriminate]. cbn [bind] in E.
    destruct (w2 m) as [[t2 k]|] eqn:E2; [|discriminate]. cbn [bind] in E. assert (ts = t1 ++ t2) by congruence. assert (n' = k) by congruence. subst. clear E.
    destruct (K1 _ _ _ E1) as (L1 & N1 & F1). destruct (K2 _ _ _ E2) as (L2 & N2 & F2). split; [lia|]. rewrite filter_app, map_app. split.
    + apply JsonMore.NoDup_app; auto. intros v Hv Hv'. apply in_map_iff in Hv as (x & <- & Hx). apply in_map_iff in Hv' as (y & Ey & Hy).
      rewrite Forall_forall in F1, F2. specialize (F1 x Hx). specialize (F2 y Hy). rewrite Ey in F2. exact (keyed_apart _ _ _ _ _ _ ND F1 F2).
    + apply Forall_app. split; (eapply Forall_impl; [|eassumption]); intros t; apply keyed_le; auto; [apply incl_appl|apply incl_appr]; apply incl_refl.
Qed.
Lemma block_nil : Block w_nil [] (fun V l => l = []).
Proof.
  exists (fun _ _ => False). split; [intros s q []|]. split.
  - intro n. exists [], n. split; [reflexivity|]. split; [lia|]. split; [constructor|]. reflexivity.
  - intros n ts n' E. assert (ts = [] /\ n' = n) as [-> ->] by (unfold w_nil in E; split; congruence). split; [lia|]. split; constructor.
Qed.
Lemma block_impl w ids (D D' : view -> list triple -> Prop) : (forall V l, D V l -> D' V l) -> Block w ids D -> Block w ids D'.
Proof.
  intros H (A & U & T & K). exists A. split; [exact U|]. split; [|exact K]. intro n. destruct (T n) as (ts & n' & E & H1 & F & X).
  exists ts, n'. repeat (split; auto).
Qed.
(** one special triple for every item *)
Lemma block_all {X} (f : X -> writer) (ids : X -> list pystr) (Link : X -> view -> triple -> Prop) l :
  Forall (fun x => Block (f x) (ids x) (fun V sp => exists t, sp = [t] /\ Link x V t)) l -> NoDup (flat_map ids l) ->
  Block (w_all f l) (flat_map ids l) (fun V sp => Forall2 (fun x t => Link x V t) l sp).
Proof.
  induction 1 as [|x l Hx _ IH]; intro ND; [eapply block_impl; [|apply block_nil]; intros V sp ->; constructor|].
  cbn [flat_map] in *. eapply block_impl; [|apply block_app; [exact ND|exact Hx|apply IH]].
  - intros V sp (l1 & l2 & -> & (t & -> & Ht) & H2). constructor; auto.
  - clear - ND. induction (ids x) as [|a i IHi]; [exact ND|]. apply IHi. cbn in ND. inversion ND; assumption.
Qed.
Lemma block_ext w w' ids D : (forall n, w n = w' n) -> Block w ids D -> Block w' ids D.
Proof.
  intros E (A & U & T & K). exists A. split; [exact U|]. split; [exact (top_ext lab w w' A D E T)|]. intros n ts n' H. rewrite <- E in H. auto.
Qed.
(** writers about one named node *)
Lemma block_named w id A (t : triple) D : Uses A [id] -> key t = NUri (file_uri id) ->
  Top lab w A (fun V sp => sp = [t] /\ D V) -> Block w [id] (fun V sp => exists x, sp = [x] /\ (x = t /\ D V)).
Proof.
  intros U Kt T. exists A. split; [exact U|]. split.
  - intro n. destruct (T n) as (ts & n' & E & H1 & F & X). exists ts, n'. repeat (split; auto). intros V L0 Ag.
    destruct (X V L0 Ag) as [-> Y]. exists t. auto.
  - intros n ts n' E. destruct (T n) as (ts' & m' & E' & H1 & F & X). rewrite E in E'. assert (ts' = ts) by congruence. assert (m' = n') by congruence. subst.
    split; [exact H1|]. destruct (X (objects ts)) as [-> _]; [intros k q _; reflexivity|intros; reflexivity|]. cbn [map]. split.
    + constructor; [intros []|constructor].
    + constructor; [|constructor]. right. exists id. split; [left; reflexivity|exact Kt].
Qed.

Notation pcs := (list (pystr * (view -> list node -> Prop))).
Lemma block_fresh u p T ws (l : pcs) (t : node -> triple) : In #"#" u -> In p deaf ->
  (forall b, Forall2 (fun w pc => Writes lab w b (fst pc) (snd pc)) (ws b) l) -> NoDup (RDF_type :: map fst l) ->
  (forall b, filter special [(b, RDF_type, NUri T); (NUri u, p, b)] = [t b]) -> (forall b, key (t b) = b) ->
  Block (w_fresh lab (fun b => w_seq (w_add b RDF_type (NUri T) :: ws b ++ [w_add (NUri u) p b]))) []
    (fun V sp => exists x, sp = [x] /\ exists b, x = t b /\ some_blank lab b /\ says l V b).
Proof.
  intros Hu Hp HW ND Ht Hk. exists (fun s q => s = NUri u /\ q = p). split; [|split].
  - intros s q [-> ->]. split; [exists u; auto|auto].
  - intro n. destruct (top_fresh lab lab_inj u p T ws l Hu HW ND n) as (ts & n' & E & H1 & F & X). exists ts, n'. repeat (split; auto).
    intros V L0 Ag. destruct (X V L0 Ag) as (b & Eb & Bb & Sb). rewrite Ht in Eb. exists (t b). split; [exact Eb|]. exists b. auto.
  - intros n ts n' E. inversion ND as [|? ? Nt Nl]; subst. destruct (fresh_special lab lab_inj u p T ws l HW Nl n ts n' E) as [G1 G2]. split; [lia|].
    rewrite G2, Ht. cbn [map]. split; [constructor; [intros []|constructor]|]. constructor; [|constructor]. left. rewrite Hk. exists n. split; [lia|reflexivity].
Qed.

(** ** The parts of a document *)
Variable d : document.
Hypothesis HD : RdfDocument O d.
Hypothesis Ens : ci_namespace (do_ci d) = ns.
Let c := do_ci d.
Let refs := ci_refs c.
Let ext := external_doc_ref_to_namespace refs.
Let doc := file_uri (ci_id c).
Lemma HC : RdfCreationInfo c.
Proof. exact (rd_ci _ _ HD). Qed.
Lemma Hrefs : Forall (RdfDocRef ns) refs.
Proof. rewrite <- Ens. exact (proj1 (rc_refs _ HC)). Qed.
Lemma Hdist : NoDup (map edr_id refs).
Proof. exact (proj2 (rc_refs _ HC)). Qed.

Definition doc_says : pcs :=
  [(spdx "specVersion", is [plain (ci_version c)]);
   (spdx "dataLicense", is [NUri (LICENSE_NAMESPACE ++ ci_data_license c)]);
   (spdx "name", is [plain (ci_name c)]);
   (RDFS_comment, is (opt_nodes plain (ci_doc_comment c)))].
Definition creation_says : pcs :=
  [(spdx "created", is [plain (stamp (ci_created c))]);
   (spdx "creator", is (map (fun a => plain (actor_str a)) (ci_creators c)));
   (spdx "licenseListVersion", is (opt_nodes (fun v => plain (version_str v)) (ci_list_version c)));
   (RDFS_comment, is (opt_nodes plain (ci_creator_comment c)))].
Lemma creators_write par : Writes lab (w_all (fun a => w_add par (spdx "creator") (plain (actor_str a))) (ci_creators c)) par (spdx "creator")
  (is (map (fun a => plain (actor_str a)) (ci_creators c))).
Proof.
  destruct (rc_creators _ HC) as (_ & ND & F).
  assert (N2 : NoDup (map actor_str (ci_creators c))).
  { clear - ND F. induction ND as [|a l Na ND IH]; [constructor|]. inversion F; subst. cbn [map]. constructor; [|auto]. intro K.
    apply in_map_iff in K as (b & Eb & Hb). apply Na. replace a with b; [exact Hb|].
    rewrite Forall_forall in H2. apply H2 in Hb. apply ActorFacts.actor_round_trip in Hb. apply ActorFacts.actor_round_trip in H1. congruence. }
  apply (writes_ext lab (w_all (fun x => w_add par (spdx "creator") (plain x)) (map actor_str (ci_creators c)))).
  - intro n. clear. induction (ci_creators c) in n |- *; [reflexivity|]. cbn [map w_all fold_right] in *. unfold w_app, w_add. cbn [bind]. unfold w_all in IHl. rewrite IHl. reflexivity.
  - rewrite <- (map_map actor_str plain). apply writes_texts; [exact lab_inj|exact N2|reflexivity].
Qed.
Definition doc_writer : writer := w_seq
    [w_add (NUri doc) RDF_type (NUri (spdx "SpdxDocument"));
     w_add (NUri doc) (spdx "specVersion") (plain (ci_version c));
     w_add (NUri doc) (spdx "dataLicense") (NUri (LICENSE_NAMESPACE ++ ci_data_license c));
     w_add (NUri doc) (spdx "name") (plain (ci_name c));
     add_optional_str (ci_doc_comment c) (NUri doc) RDFS_comment].
Definition creation_writer : writer := w_fresh lab (fun b => w_seq
       [w_add b RDF_type (NUri (spdx "CreationInfo"));
        w_get (datetime_to_iso_string (ci_created c)) (fun s => w_add b (spdx "created") (plain s));
        w_all (fun a => w_add b (spdx "creator") (plain (actor_str a))) (ci_creators c);
        add_optional_literal version_str (ci_list_version c) b (spdx "licenseListVersion");
        add_optional_str (ci_creator_comment c) b RDFS_comment;
        w_add (NUri doc) (spdx "creationInfo") b]).
Lemma block_doc : Block doc_writer [ci_id c]
  (fun V sp => exists x, sp = [x] /\ (x = (NUri doc, RDF_type, NUri (spdx "SpdxDocument")) /\ says doc_says V (NUri doc))).
Proof.
  apply (block_named _ _ (fun s q => s = NUri doc)); [| |apply top_element].
  - intros s q ->. split; [exists doc; split; [reflexivity|apply in_hash]|]. right. exists (ci_id c). split; [left|]; reflexivity.
  - reflexivity.
  - exact lab_inj.
  - apply in_hash.
  - reflexivity.
  - unfold doc_says. repeat (apply Forall2_cons; [cbn [fst snd]|]); [..|constructor].
    + apply writes_is; [intros []|reflexivity].
    + apply writes_is; [intros []|reflexivity].
    + apply writes_is; [intros []|reflexivity].
    + apply (writes_optional lab (fun x => x)). reflexivity.
  - closed_nodup.
  - apply str_in_all. vm_compute. reflexivity.
Qed.
Lemma block_creation : Block creation_writer []
  (fun V sp => exists x, sp = [x] /\ exists b, x = (b, RDF_type, NUri (spdx "CreationInfo")) /\ some_blank lab b /\ says creation_says V b).
Proof.
  apply (block_fresh doc (spdx "creationInfo") (spdx "CreationInfo")
    (fun b => [w_get (datetime_to_iso_string (ci_created c)) (fun s => w_add b (spdx "created") (plain s));
        w_all (fun a => w_add b (spdx "creator") (plain (actor_str a))) (ci_creators c);
        add_optional_literal version_str (ci_list_version c) b (spdx "licenseListVersion");
        add_optional_str (ci_creator_comment c) b RDFS_comment]) creation_says (fun b => (b, RDF_type, NUri (spdx "CreationInfo")))).
  - apply in_hash.
  - apply str_in_In. vm_compute. reflexivity.
  - intro b. unfold creation_says. repeat (apply Forall2_cons; [cbn [fst snd]|]); [..|constructor].
    + apply writes_date1; [exact (rc_created _ HC)|reflexivity].
    + apply creators_write.
    + apply writes_optional. reflexivity.
    + apply (writes_optional lab (fun x => x)). reflexivity.
  - closed_nodup.
  - reflexivity.
  - reflexivity.
Qed.
Lemma block_ref r : Block (add_external_document_ref_to_graph lab r (NUri doc) ns) [edr_id r]
  (fun V sp => exists x, sp = [x] /\ (x = (NUri doc, spdx "externalDocumentRef", NUri (file_uri (edr_id r)))
    /\ says (doc_ref_says lab r) V (NUri (file_uri (edr_id r))))).
Proof.
  eapply (block_named _ _ _ _ _); [| |apply top_doc_ref].
  - intros s q [->|[-> ->]].
    + split; [exists (file_uri (edr_id r)); split; [reflexivity|apply in_hash]|]. right. exists (edr_id r). split; [left|]; reflexivity.
    + split; [exists doc; split; [reflexivity|apply in_hash]|]. left. apply str_in_In. vm_compute. reflexivity.
  - reflexivity.
  - exact lab_inj.
Qed.
Lemma block_annotation a : RdfAnnotation refs a -> Block (add_annotation_to_graph lab a ns ext) []
  (fun V sp => exists x, sp = [x] /\ exists b, x = (NUri (uri_of ns refs (an_id a)), spdx "annotation", b) /\ some_blank lab b
    /\ says (annotation_says a) V b).
Proof.
  intro H. apply (block_fresh (uri_of ns refs (an_id a)) (spdx "annotation") (spdx "Annotation")
    (fun b => [w_add b (spdx "annotationType") (enum_uri $"annotationType_" (annotation_type_name (an_type a)));
     w_add b (spdx "annotator") (plain (actor_str (an_annotator a)));
     w_get (datetime_to_iso_string (an_date a)) (fun d => w_add b (spdx "annotationDate") (plain d));
     w_add b RDFS_comment (plain (an_comment a))]) (annotation_says a)).
  - apply uri_of_hash; [exact Hrefs|exact Hdist|exact (ra_id _ _ H)].
  - apply str_in_In. vm_compute. reflexivity.
  - intro b. unfold annotation_says. repeat (apply Forall2_cons; [cbn [fst snd]|]); [..|constructor].
    + apply writes_is; [intros []|reflexivity].
    + apply writes_is; [intros []|reflexivity].
    + apply writes_date1; [exact (ra_date _ _ H)|reflexivity].
    + apply writes_is; [intros []|reflexivity].
  - closed_nodup.
  - reflexivity.
  - reflexivity.
Qed.
Lemma block_relationship r : RdfRelationship refs r -> Block (add_relationship_to_graph lab r ns ext) []
  (fun V sp => exists x, sp = [x] /\ exists b, x = (NUri (uri_of ns refs (re_id r)), spdx "relationship", b) /\ some_blank lab b
    /\ says (relationship_says ns refs r) V b).
Proof.
  intro H. apply (block_fresh (uri_of ns refs (re_id r)) (spdx "relationship") (spdx "Relationship")
    (fun b => [w_add b (spdx "relationshipType") (enum_uri $"relationshipType_" (rel_type_name (re_type r)));
     w_add b (spdx "relatedSpdxElement") (related_node ns refs (re_related r));
     (if truthy_opt (re_comment r) then add_optional_str (re_comment r) b RDFS_comment else w_nil)]) (relationship_says ns refs r)).
  - apply uri_of_hash; [exact Hrefs|exact Hdist|exact (rl_id _ _ H)].
  - apply str_in_In. vm_compute. reflexivity.
  - intro b. unfold relationship_says. repeat (apply Forall2_cons; [cbn [fst snd]|]); [..|constructor].
    + apply writes_is; [intros []|reflexivity].
    + destruct (re_related r); (apply writes_is; [intros []|reflexivity]).
    + apply writes_comment_if. exact (rl_comment _ _ H).
  - closed_nodup.
  - reflexivity.
  - reflexivity.
Qed.
Lemma element_uses id : Uses (fun s _ => s = NUri (file_uri id)) [id].
Proof.
  intros s q ->. split; [exists (file_uri id); split; [reflexivity|apply in_hash]|]. right. exists id. split; [left|]; reflexivity.
Qed.
Lemma block_file f : RdfFile O f -> Block (add_file_to_graph O lab f ns ext) [fi_id f]
  (fun V sp => exists x, sp = [x] /\ (x = (NUri (file_uri (fi_id f)), RDF_type, NUri (spdx "File"))
    /\ says (file_says O lab ns f) V (NUri (file_uri (fi_id f))))).
Proof. intro H. eapply block_named; [apply element_uses| |apply top_file]; auto. Qed.
Lemma block_package f : RdfPackage O f -> Block (add_package_to_graph O lab f ns ext) [pk_id f]
  (fun V sp => exists x, sp = [x] /\ (x = (NUri (file_uri (pk_id f)), RDF_type, NUri (spdx "Package"))
    /\ says (package_says O lab ns f) V (NUri (file_uri (pk_id f))))).
Proof. intro H. eapply block_named; [apply element_uses| |apply top_package]; auto. Qed.
Lemma block_snippet f : RdfSnippet O refs f -> Block (add_snippet_to_graph O lab f ns ext) [sn_id f]
  (fun V sp => exists x, sp = [x] /\ (x = (NUri (file_uri (sn_id f)), RDF_type, NUri (spdx "Snippet"))
    /\ exists r, sn_lines f = Some r /\ says (snippet_says O lab ns refs f r) V (NUri (file_uri (sn_id f))))).
Proof.
  intro H. destruct (rs_lines _ _ _ H) as (r & Er & _).
  eapply block_impl; [|eapply block_named; [apply element_uses| |apply (top_snippet O lab lab_inj ns HN refs f r H Er)]; reflexivity].
  intros V sp (x & -> & -> & S0). eexists. split; [reflexivity|]. split; [reflexivity|]. exists r. auto.
Qed.
Definition ids_of (e : extracted) : list pystr := match el_id e with Some i => [i] | None => [] end.
Lemma block_extracted e : RdfExtracted e -> Block (add_extracted_licensing_info_to_graph lab e (NUri doc) ns) (ids_of e)
  (fun V sp => exists x, sp = [x] /\ exists id, el_id e = Some id /\ x = (NUri doc, spdx "hasExtractedLicensingInfo", NUri (file_uri id))
    /\ says (extracted_says e id) V (NUri (file_uri id))).
Proof.
  intro H. destruct (re_id_some _ H) as (id & Ei & _). unfold ids_of. rewrite Ei.
  eapply block_impl; [|eapply block_named; [| |apply (top_extracted lab lab_inj ns e id doc H Ei)]].
  - intros V sp (x & -> & -> & S0). eexists. split; [reflexivity|]. exists id. auto.
  - intros s q [->|[-> ->]].
    + split; [exists (file_uri id); split; [reflexivity|apply in_hash]|]. right. exists id. split; [left|]; reflexivity.
    + split; [exists doc; split; [reflexivity|apply in_hash]|]. left. apply str_in_In. vm_compute. reflexivity.
  - reflexivity.
Qed.

Definition DocSays (V : view) (sp : list triple) : Prop :=
  exists b sr sa sf sk sl sn se,
  sp = (NUri doc, RDF_type, NUri (spdx "SpdxDocument")) :: (b, RDF_type, NUri (spdx "CreationInfo")) :: sr ++ sa ++ sf ++ sk ++ sl ++ sn ++ se
  /\ says doc_says V (NUri doc) /\ some_blank lab b /\ says creation_says V b
  /\ Forall2 (fun r x => x = (NUri doc, spdx "externalDocumentRef", NUri (file_uri (edr_id r)))
       /\ says (doc_ref_says lab r) V (NUri (file_uri (edr_id r)))) refs sr
  /\ Forall2 (fun a x => exists v, x = (NUri (uri_of ns refs (an_id a)), spdx "annotation", v) /\ some_blank lab v
       /\ says (annotation_says a) V v) (do_annotations d) sa
  /\ Forall2 (fun f x => x = (NUri (file_uri (fi_id f)), RDF_type, NUri (spdx "File"))
       /\ says (file_says O lab ns f) V (NUri (file_uri (fi_id f)))) (do_files d) sf
  /\ Forall2 (fun f x => x = (NUri (file_uri (pk_id f)), RDF_type, NUri (spdx "Package"))
       /\ says (package_says O lab ns f) V (NUri (file_uri (pk_id f)))) (do_packages d) sk
  /\ Forall2 (fun r x => exists v, x = (NUri (uri_of ns refs (re_id r)), spdx "relationship", v) /\ some_blank lab v
       /\ says (relationship_says ns refs r) V v) (do_relationships d) sl
  /\ Forall2 (fun f x => x = (NUri (file_uri (sn_id f)), RDF_type, NUri (spdx "Snippet"))
       /\ exists r, sn_lines f = Some r /\ says (snippet_says O lab ns refs f r) V (NUri (file_uri (sn_id f)))) (do_snippets d) sn
  /\ Forall2 (fun e x => exists id, el_id e = Some id /\ x = (NUri doc, spdx "hasExtractedLicensingInfo", NUri (file_uri id))
       /\ says (extracted_says e id) V (NUri (file_uri id))) (do_extracted d) se.
Lemma flat_single {A B} (f : A -> B) l : flat_map (fun x => [f x]) l = map f l.
Proof. induction l; cbn; congruence. Qed.
Lemma flat_none {A B} (l : list A) : flat_map (fun _ => @nil B) l = [].
Proof. induction l; auto. Qed.
Lemma nodup_left {A} (a b : list A) : NoDup (a ++ b) -> NoDup a.
Proof.
  induction a as [|x a IH]; intro H; [constructor|]. cbn in H. inversion H; subst. constructor; [|auto]. intro K.
  match goal with N : ~ In _ _ |- _ => apply N end. apply in_app_iff. auto.
Qed.
Lemma nodup_right {A} (a b : list A) : NoDup (a ++ b) -> NoDup b.
Proof. induction a as [|x a IH]; intro H; [exact H|]. cbn in H. inversion H; auto. Qed.
Lemma doc_flat n : add_document_to_graph O lab d n = w_seq
  [doc_writer; creation_writer; w_all (fun r => add_external_document_ref_to_graph lab r (NUri doc) ns) refs;
   w_all (fun a => add_annotation_to_graph lab a ns ext) (do_annotations d);
   w_all (fun f => add_file_to_graph O lab f ns ext) (do_files d);
   w_all (fun p => add_package_to_graph O lab p ns ext) (do_packages d);
   w_all (fun r => add_relationship_to_graph lab r ns ext) (do_relationships d);
   w_all (fun s => add_snippet_to_graph O lab s ns ext) (do_snippets d);
   w_all (fun e => add_extracted_licensing_info_to_graph lab e (NUri doc) ns) (do_extracted d)] n.
Proof.
  assert (Ec : ci_namespace c = ns) by exact Ens. assert (En : doc_node_of c = NUri doc) by (unfold doc_node_of; rewrite Ec; reflexivity).
  unfold add_document_to_graph. fold c. cbv zeta. unfold add_creation_info_to_graph. cbv zeta. rewrite Ec, En. fold refs. fold ext.
  match goal with |- w_seq (w_seq ?l :: ?rest) n = _ => etransitivity; [exact (w_seq_nested [] l rest n)|] end.
  cbn [app]. match goal with |- w_seq (?a1 :: ?a2 :: ?a3 :: ?a4 :: ?a5 :: ?rest) n = _ =>
    symmetry; exact (w_seq_nested [] [a1; a2; a3; a4; a5] rest n) end.
Qed.
Lemma ids_distinct : NoDup (ci_id c :: map edr_id refs ++ map fi_id (do_files d) ++ map pk_id (do_packages d) ++ map sn_id (do_snippets d)
   ++ flat_map ids_of (do_extracted d)).
Proof.
  eapply Permutation_NoDup; [|exact (rd_distinct _ _ HD)]. unfold ids_in. constructor.
  apply Permutation_app_head. rewrite !app_assoc. do 2 apply Permutation_app_tail. apply Permutation_app_comm.
Qed.
Definition all_ids : list pystr :=
  [ci_id c] ++ [] ++ flat_map (fun r => [edr_id r]) refs ++ flat_map (fun _ => []) (do_annotations d)
  ++ flat_map (fun f => [fi_id f]) (do_files d) ++ flat_map (fun p => [pk_id p]) (do_packages d)
  ++ flat_map (fun _ => []) (do_relationships d) ++ flat_map (fun s => [sn_id s]) (do_snippets d) ++ flat_map ids_of (do_extracted d) ++ [].
Lemma all_ids_distinct : NoDup all_ids.
Proof. unfold all_ids. rewrite !flat_single, !flat_none, app_nil_r. cbn [app]. exact ids_distinct. Qed.
Lemma doc_blocks : Block (add_document_to_graph O lab d) all_ids DocSays.
Proof.
  apply (block_ext (fun n => w_seq
  [doc_writer; creation_writer; w_all (fun r => add_external_document_ref_to_graph lab r (NUri doc) ns) refs;
   w_all (fun a => add_annotation_to_graph lab a ns ext) (do_annotations d);
   w_all (fun f => add_file_to_graph O lab f ns ext) (do_files d);
   w_all (fun p => add_package_to_graph O lab p ns ext) (do_packages d);
   w_all (fun r => add_relationship_to_graph lab r ns ext) (do_relationships d);
   w_all (fun s => add_snippet_to_graph O lab s ns ext) (do_snippets d);
   w_all (fun e => add_extracted_licensing_info_to_graph lab e (NUri doc) ns) (do_extracted d)] n)); [intro n; symmetry; apply doc_flat|].
  pose proof all_ids_distinct as ND. unfold all_ids in *.
  pose proof block_nil as B9. pose proof (nodup_right _ _ ND) as N1. pose proof (nodup_right _ _ N1) as N2. pose proof (nodup_right _ _ N2) as N3.
  pose proof (nodup_right _ _ N3) as N4. pose proof (nodup_right _ _ N4) as N5. pose proof (nodup_right _ _ N5) as N6.
  pose proof (nodup_right _ _ N6) as N7. pose proof (nodup_right _ _ N7) as N8.
  assert (B8 := block_all _ ids_of _ _ (Forall_impl _ (fun e H => block_extracted e H) (rd_extracted _ _ HD)) (nodup_left _ _ N8)).
  assert (B7 := block_all _ (fun s => [sn_id s]) _ _ (Forall_impl _ (fun e H => block_snippet e H) (rd_snippets _ _ HD)) (nodup_left _ _ N7)).
  assert (B6 := block_all _ (fun _ => []) _ _ (Forall_impl _ (fun e H => block_relationship e H) (rd_relationships _ _ HD)) (nodup_left _ _ N6)).
  assert (B5 := block_all _ (fun p => [pk_id p]) _ _ (Forall_impl _ (fun e H => block_package e H) (rd_packages _ _ HD)) (nodup_left _ _ N5)).
  assert (B4 := block_all _ (fun f => [fi_id f]) _ _ (Forall_impl _ (fun e H => block_file e H) (rd_files _ _ HD)) (nodup_left _ _ N4)).
  assert (B3 := block_all _ (fun _ => []) _ _ (Forall_impl _ (fun e H => block_annotation e H) (rd_annotations _ _ HD)) (nodup_left _ _ N3)).
  assert (B2 := block_all _ (fun r => [edr_id r]) _ _ (Forall_impl _ (fun e _ => block_ref e) Hrefs) (nodup_left _ _ N2)).
  pose proof (block_app _ _ _ _ _ _ N8 B8 B9) as C8. pose proof (block_app _ _ _ _ _ _ N7 B7 C8) as C7.
  pose proof (block_app _ _ _ _ _ _ N6 B6 C7) as C6. pose proof (block_app _ _ _ _ _ _ N5 B5 C6) as C5.
  pose proof (block_app _ _ _ _ _ _ N4 B4 C5) as C4. pose proof (block_app _ _ _ _ _ _ N3 B3 C4) as C3.
  pose proof (block_app _ _ _ _ _ _ N2 B2 C3) as C2. pose proof (block_app _ _ _ _ _ _ N1 block_creation C2) as C1.
  pose proof (block_app _ _ _ _ _ _ ND block_doc C1) as C0.
  clear - C0. eapply block_impl; [|exact C0].
  intros V sp (l0 & l0' & -> & (x0 & -> & -> & S0) & l1 & l1' & -> & (x1 & -> & b & -> & Bb & S1) & sr & l2' & -> & S2 & sa & l3' & -> & S3 &
    sf & l4' & -> & S4 & sk & l5' & -> & S5 & sl & l6' & -> & S6 & sn & l7' & -> & S7 & se & l8' & -> & S8 & ->).
  exists b, sr, sa, sf, sk, sl, sn, se. split; [rewrite app_nil_r; reflexivity|]. repeat (split; [assumption|]). exact S8.
Qed.
Theorem doc_written : exists ts n, add_document_to_graph O lab d 0 = Ok (ts, n) /\ DocSays (objects ts) (filter special ts)
  /\ NoDup (map key (filter special ts)).
Proof.
  destruct doc_blocks as (A & U & T & K). destruct (T 0) as (ts & n & E & _ & _ & X). exists ts, n. split; [exact E|].
  split; [|exact (proj1 (proj2 (K _ _ _ E)))]. apply X; [intros k q _|intros s q _ _]; reflexivity.
Qed.
End Document.
