(** The elements that the conversion from SPDX 2 makes are sound instances of the classes of spdx3/model. *)
From Verif Require Import Py PyFacts Data Oracles Basics Json DocUtils Payload Bump Typing TypingFacts Typing3 Typing3Spec Typing3Facts Typing3More
  Jsonld JsonldSpec JsonldFacts Jsonld3 Jsonld3Spec Jsonld3Facts.
From Verif Require JsonldBump.

(** the object is a sound value of the type *)
Definition Is (h : hint3) (x : pyobj) : Prop := exists v, object_of v = x /\ Sound v /\ Typed3 classes3 h v.
Definition fields3 (d : decl) : list (pystr * hint3) := fields_of classes3 (depth classes3) d.

Lemma is_none : Is TNone XNone.
Proof. exists VNone. repeat split; constructor. Qed.
Lemma is_str s : Is TStr (XStr s).
Proof. exists (VStr s). repeat split; [constructor|exists s; reflexivity]. Qed.
Lemma is_int z : Is TInt (XInt z).
Proof. exists (VInt z). repeat split; [constructor|left; exists z; reflexivity]. Qed.
Lemma is_date d : Is TDatetime (XDate d).
Proof. exists (VDatetime d). repeat split; [constructor|exists d; reflexivity]. Qed.
Lemma is_version s : Is (TIs $"Version") (XVersion s).
Proof. exists (version s). split; [apply version_object|]. split; [constructor|]. do 2 eexists. split; [reflexivity|constructor]. Qed.
Lemma is_left a b x : Is a x -> Is (TOr a b) x.
Proof. intros (v & E & S0 & T). exists v. split; [exact E|]. split; [exact S0|]. left. exact T. Qed.
Lemma is_null a : Is (TOr a TNone) XNone.
Proof. exists VNone. repeat split; [constructor|right; reflexivity]. Qed.
Lemma is_xopt {A} (f : A -> pyobj) h o : (forall a, o = Some a -> Is h (f a)) -> Is (TOr h TNone) (xopt f o).
Proof. destruct o; intro H; [apply is_left, H; reflexivity|apply is_null]. Qed.
Lemma is_list h l : Forall (Is h) l -> Is (TList h) (XList l).
Proof.
  intro F. assert (X : exists vs, map object_of vs = l /\ Forall Sound vs /\ Forall (Typed3 classes3 h) vs).
  { induction F as [|x l (v & E & S0 & T) F (vs & E' & S1 & T')]; [exists []; repeat split; constructor|]. exists (v :: vs). cbn. rewrite E, E'. auto. }
  destruct X as (vs & E & S0 & T). exists (VList vs). cbn [object_of]. rewrite E. split; [reflexivity|]. split; [constructor; exact S0|]. exists vs. auto.
Qed.
Lemma is_map {A} (f : A -> pyobj) h l : Forall (fun a => Is h (f a)) l -> Is (TList h) (XList (map f l)).
Proof. intro F. apply is_list. apply Forall_map. exact F. Qed.
Lemma is_texts l : Is (TList TStr) (xtexts l).
Proof. apply is_map. apply Forall_forall. intros s _. apply is_str. Qed.
Lemma is_member c words n : In (c, words) enumeration_words -> In n (map fst words) -> Is (TIs c) (XEnum n).
Proof.
  intros I W. exists (member c n). split; [exact (member_object _ _ n I)|]. split; [exact (so_member c words n I W)|]. do 2 eexists. split; [reflexivity|constructor].
Qed.
Lemma is_object d ps attrs : In d classes3 -> d_init d = Some ps ->
  Forall2 (fun fh (ax : pystr * pyobj) => $"_" ++ fst fh = fst ax /\ Is (snd fh) (snd ax)) (fields3 d) attrs -> Is (TIs (d_name d)) (XObj (d_name d) attrs).
Proof.
  intros I P F. assert (X : exists i : instance, map (fun fv => ($"_" ++ fst fv, object_of (snd fv))) i = attrs /\ map fst i = map fst (fields3 d) /\ Forall (fun fv => Sound (snd fv)) i
    /\ Forall2 (fun fh fv => fst fh = fst fv /\ Typed3 classes3 (snd fh) (snd fv)) (fields3 d) i).
  { clear P. induction F as [|[f h] [a x] fs attrs [N (v & E & S0 & T)] F (i & E1 & E2 & S1 & T1)]; [exists []; repeat split; constructor|]. cbn [fst snd] in *.
    exists ((f, v) :: i). cbn [map fst snd]. rewrite E, E1, E2, N. repeat split; auto. }
  destruct X as (i & E & N & S0 & T). exists (VObj (d_name d) i). rewrite (class_object d i I), E. split; [reflexivity|].
  split; [|exists (d_name d), i; split; [reflexivity|constructor]]. apply (so_object d ps); [exact I|exact P| | |exact S0].
  - refine (eq_ind_r (FieldNames d) _ N). apply names_of; [exact I|]. apply (chain_any classes3 wf_classes3 (d_name d)). apply (decl_in classes3 names3). exact I.
  - intros f h v Fd J. apply (field_iff classes3 names3 wf_classes3 d f h I) in Fd. apply assoc_In in Fd.
    pose proof (fields_nodup classes3 (depth classes3) d) as ND. fold (fields3 d) in Fd, ND. clear -T J Fd ND.
    induction T as [|[f1 h1] [f2 v2] fs i [E T] F IH]; [destruct J|]. cbn [fst snd map In] in *. apply NoDup_cons_iff in ND as [N1 N2]. subst f2.
    assert (M : map fst fs = map fst i) by (clear -F; induction F as [|? ? ? ? [X _] F IH]; [reflexivity|]; cbn; rewrite X, IH; reflexivity).
    destruct Fd as [Fd|Fd]; destruct J as [J|J].
    + assert (h1 = h) by congruence. assert (v2 = v) by congruence. subst. exact T.
    + exfalso. apply N1. rewrite M. assert (f1 = f) by congruence. subst f1. apply (in_map fst) in J. exact J.
    + exfalso. apply N1. assert (f1 = f) by congruence. subst f1. apply (in_map fst) in Fd. exact Fd.
    + apply IH; auto.
Qed.
Lemma derives_trans a b c : Derives classes3 a b -> Derives classes3 b c -> Derives classes3 a c.
Proof. intros H G. induction H; [exact G|]. eapply dr_base; eauto. Qed.
Lemma is_derived c c' x : Is (TIs c) x -> Derives classes3 c c' -> Is (TIs c') x.
Proof. intros (v & E & S0 & (k & i & -> & D)) H. exists (VObj k i). split; [exact E|]. split; [exact S0|]. exists k, i. split; [reflexivity|]. exact (derives_trans _ _ _ D H). Qed.

(** all fields of a class *)
Ltac in_classes := unfold classes3; cbn [In]; tauto.
Lemma known_in words c words' n : KnownWord words n -> In (c, words') enumeration_words -> forallb (fun m => str_in m (map fst words')) (map fst words) = true -> Is (TIs c) (XEnum n).
Proof. intros K I B. apply (is_member c words' n I). rewrite forallb_forall in B. apply str_in_In, B, K. Qed.
Ltac in_words := unfold enumeration_words; cbn [In]; tauto.
Ltac enum K := eapply known_in; [exact K|in_words|vm_compute; reflexivity].
Lemma known_if words c words' o : KnownWordIf words o -> In (c, words') enumeration_words -> forallb (fun m => str_in m (map fst words')) (map fst words) = true ->
  Is (TOr (TIs c) TNone) (xopt XEnum o).
Proof. intros K I B. apply is_xopt. intros a ->. exact (known_in words c words' a K I B). Qed.
Ltac fields3 := match goal with |- Forall2 _ (fields3 ?d) _ => let l := eval vm_compute in (fields3 d) in change (fields3 d) with l end.

Lemma is_strs o : Is (TOr TStr TNone) (xopt XStr o).
Proof. apply is_xopt. intros. apply is_str. Qed.
Lemma is_dates o : Is (TOr TDatetime TNone) (xopt XDate o).
Proof. apply is_xopt. intros. apply is_date. Qed.
Lemma is_empty h : Is (TList h) (XList []).
Proof. apply is_list. constructor. Qed.
Ltac attr :=
  first [ apply is_str | apply is_strs | apply is_dates | apply is_null | apply is_texts | apply is_empty | apply is_int | apply is_version | apply is_date
        | assumption | apply is_left; first [apply is_str | assumption] ].
Ltac attrs := repeat (apply Forall2_cons; [split; [vm_compute; reflexivity|cbn [snd]; try attr]|]); try apply Forall2_nil.

Lemma is_hash h : KnownWord hash_words (h3_alg h) -> Is (TIs $"Hash") (hash_object h).
Proof.
  intro K. assert (A : Is (TIs $"HashAlgorithm") (XEnum (h3_alg h))) by enum K.
  eapply (is_object D_Hash); [in_classes|reflexivity|]. fields3. attrs.
Qed.

Lemma is_hashes l : KnownHashes l -> Is (TList (TIs $"IntegrityMethod")) (XList (map hash_object l)).
Proof.
  intro F. apply is_map. eapply Forall_impl; [|exact F]. intros h K. apply (is_derived $"Hash"); [apply is_hash; exact K|].
  exact (dr_base classes3 D_Hash $"IntegrityMethod" $"IntegrityMethod" ltac:(in_classes) eq_refl (dr_same _ _)).
Qed.
Lemma is_extref r : KnownWord reference_words (xr_type r) -> Is (TIs $"ExternalReference") (extref_object r).
Proof.
  intro K. assert (A : Is (TIs $"ExternalReferenceType") (XEnum (xr_type r))) by enum K.
  eapply (is_object D_ExternalReference); [in_classes|reflexivity|]. fields3. attrs.
Qed.
Lemma is_extrefs l : Forall (fun r => KnownWord reference_words (xr_type r)) l -> Is (TList (TIs $"ExternalReference")) (XList (map extref_object l)).
Proof. intro F. apply is_map. eapply Forall_impl; [|exact F]. exact is_extref. Qed.
Lemma is_extid r : KnownWord identifier_words (xi_type r) -> Is (TIs $"ExternalIdentifier") (extid_object r).
Proof.
  intro K. assert (A : Is (TIs $"ExternalIdentifierType") (XEnum (xi_type r))) by enum K.
  eapply (is_object D_ExternalIdentifier); [in_classes|reflexivity|]. fields3. attrs.
Qed.
Lemma is_extids l : Forall (fun r => KnownWord identifier_words (xi_type r)) l -> Is (TList (TIs $"ExternalIdentifier")) (XList (map extid_object l)).
Proof. intro F. apply is_map. eapply Forall_impl; [|exact F]. exact is_extid. Qed.
Lemma is_nsmaps l : Is (TList (TIs $"NamespaceMap")) (XList (map nsmap_object l)).
Proof. apply is_map. apply Forall_forall. intros m _. eapply (is_object D_NamespaceMap); [in_classes|reflexivity|]. fields3. attrs. Qed.
Lemma is_extmaps l : Forall (fun m => KnownHashes (em_verified m)) l -> Is (TList (TIs $"ExternalMap")) (XList (map extmap_object l)).
Proof.
  intro F. apply is_map. eapply Forall_impl; [|exact F]. intros m K. apply is_hashes in K. eapply (is_object D_ExternalMap); [in_classes|reflexivity|]. fields3. attrs.
Qed.
Lemma is_range o : Is (TOr (TIs $"PositiveIntegerRange") TNone) (xopt range_object o).
Proof. apply is_xopt. intros [b e] _. eapply (is_object D_PositiveIntegerRange); [in_classes|reflexivity|]. fields3. attrs. Qed.
Lemma is_cinfo c : Is (TIs $"CreationInfo") (cinfo_object c).
Proof.
  assert (P : Is (TList (TIs $"ProfileIdentifierType")) (XList [XEnum $"CORE"; XEnum $"SOFTWARE"; XEnum $"LICENSING"])).
  { apply is_list. repeat constructor; (eapply is_member; [in_words|apply str_in_In; vm_compute; reflexivity]). }
  eapply (is_object D_CreationInfo); [in_classes|reflexivity|]. fields3. attrs.
Qed.
Lemma is_cinfo_at st a : Is (TOr (TIs $"CreationInfo") TNone) (cinfo_at st a).
Proof. apply is_xopt. intros. apply is_cinfo. Qed.

(** ** Elements *)
Definition class_of (e : element3) : decl :=
  match e with
  | E3Actor a => match a3_kind a with AT_PERSON => D_Person | AT_ORGANIZATION => D_Organization | AT_TOOL => D_Tool end
  | E3Package _ => D_Package
  | E3File _ => D_File
  | E3Snippet _ => D_Snippet
  | E3Relationship r => if r3_dependency r then D_SoftwareDependencyRelationship else D_Relationship
  | E3Annotation _ => D_Annotation
  | E3Document _ => D_SpdxDocument
  end.
Lemma is_element st n e : Known n e -> Is (TIs (d_name (class_of e))) (element_object st e).
Proof.
  pose proof (is_hashes [] (Forall_nil _)) as H0. pose proof (is_extrefs [] (Forall_nil _)) as H1. pose proof (is_extids [] (Forall_nil _)) as H2. cbn [map] in H0, H1, H2.
  destruct e as [a|p|f|s|r|a|d]; cbn [Known class_of]; intro K.
  - destruct K as [K _]. apply is_extids in K.
    assert (C : Is (TOr (TIs $"CreationInfo") TNone) (match a3_ci a with Some c => cinfo_at st c | None => XNone end)) by (destruct (a3_ci a); [apply is_cinfo_at|apply is_null]).
    cbn [element_object]. unfold element_attrs. destruct (a3_kind a); cbn [actor_class].
    + eapply (is_object D_Person); [in_classes|reflexivity|]. fields3. attrs.
    + eapply (is_object D_Organization); [in_classes|reflexivity|]. fields3. attrs.
    + eapply (is_object D_Tool); [in_classes|reflexivity|]. fields3. attrs.
  - destruct K as (K1 & K2 & K3 & K4). apply is_hashes in K1. apply is_extrefs in K2. apply is_extids in K3.
    assert (P : Is (TOr (TIs $"SoftwarePurpose") TNone) (xopt XEnum (p3_purpose p))) by (eapply known_if; [exact K4|in_words|vm_compute; reflexivity]).
    cbn [element_object]. eapply (is_object D_Package); [in_classes|reflexivity|]. fields3. unfold element_attrs, artifact_attrs, software_attrs. cbn [app]. attrs.
  - apply is_hashes in K. cbn [element_object]. eapply (is_object D_File); [in_classes|reflexivity|]. fields3. unfold element_attrs, artifact_attrs, software_attrs. cbn [app]. attrs.
  - pose proof (is_range (s3_bytes s)) as R1. pose proof (is_range (s3_lines s)) as R2. cbn [element_object]. eapply (is_object D_Snippet); [in_classes|reflexivity|]. fields3. unfold element_attrs, artifact_attrs, software_attrs. cbn [app]. attrs.
  - destruct K as (K1 & K2 & K3 & K4 & K5). assert (A1 : Is (TIs $"RelationshipType") (XEnum (r3_type r))) by enum K1.
    assert (A2 : Is (TOr (TIs $"RelationshipCompleteness") TNone) (xopt XEnum (r3_completeness r))) by (eapply known_if; [exact K2|in_words|vm_compute; reflexivity]).
    assert (A3 : Is (TOr (TIs $"LifecycleScopeType") TNone) (xopt XEnum (r3_scope r))) by (eapply known_if; [exact K3|in_words|vm_compute; reflexivity]).
    assert (A4 : Is (TOr (TIs $"SoftwareDependencyLinkType") TNone) (xopt XEnum (r3_linkage r))) by (eapply known_if; [exact K4|in_words|vm_compute; reflexivity]).
    assert (A5 : Is (TOr (TIs $"DependencyConditionalityType") TNone) (xopt XEnum (r3_conditionality r))) by (eapply known_if; [exact K5|in_words|vm_compute; reflexivity]).
    cbn [element_object]. destruct (r3_dependency r); unfold element_attrs, relationship_attrs; cbn [app].
    + eapply (is_object D_SoftwareDependencyRelationship); [in_classes|reflexivity|]. fields3. attrs.
    + eapply (is_object D_Relationship); [in_classes|reflexivity|]. fields3. attrs.
  - destruct K as [K _]. assert (A : Is (TIs $"AnnotationType") (XEnum (n3_type a))) by enum K. pose proof (is_cinfo_at st (n3_ci a)) as C.
    cbn [element_object]. unfold element_attrs. cbn [app]. eapply (is_object D_Annotation); [in_classes|reflexivity|]. fields3. attrs.
  - destruct K as [K _]. apply is_extmaps in K. pose proof (is_nsmaps (d3_namespaces d)) as N. pose proof (is_cinfo_at st (d3_ci d)) as C.
    cbn [element_object]. unfold element_attrs. cbn [app]. eapply (is_object D_SpdxDocument); [in_classes|reflexivity|]. fields3. attrs.
Qed.
(** every element of the result is a sound instance *)
Lemma bumped_sound d st doc : bump_spdx_document d = Ok (st, doc) ->
  exists vs, Forall2 (fun e v => element_object st e = object_of v /\ Sound v /\ exists c i, v = VObj c i) (payload_elements st) vs.
Proof.
  intro B. assert (F : Forall (fun e => Known (List.length (b_cis st)) e) (payload_elements st)).
  { apply Forall_forall. intros e I. exact (proj1 (JsonldBump.in_payload_good _ _ _ _ B I)). }
  clear B. induction F as [|e es K F (vs & S0)]; [exists []; constructor|].
  destruct (is_element st _ e K) as (v & Ev & Sv & (c & i & X & _)). exists (v :: vs). constructor; [|exact S0]. split; [symmetry; exact Ev|]. split; [exact Sv|eauto].
Qed.
Lemma bumped_payload d st doc : bump_spdx_document d = Ok (st, doc) ->
  exists vs, Forall (fun v => Sound v /\ exists c i, v = VObj c i) vs /\ List.length vs = List.length (payload_elements st) /\ convert_payload_to_json_ld st = convert_elements vs.
Proof.
  intro B. destruct (bumped_sound _ _ _ B) as [vs F]. exists vs. unfold convert_payload_to_json_ld, convert_elements. clear B.
  induction F as [|e v es vs (E & S0 & X) F (F1 & F2 & F3)]; [split; [constructor|split; reflexivity]|]. split; [constructor; [split; assumption|exact F1]|].
  split; [cbn; rewrite F2; reflexivity|]. cbn [map_result]. rewrite E, F3. reflexivity.
Qed.
