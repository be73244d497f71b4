(** Which elements the console writer of SPDX 3 cannot show. *)
From Verif Require Import Py Data Oracles Basics Json DocUtils Payload Typing Typing3 Typing3Spec Jsonld Jsonld3 Jsonld3Spec Console Console3Spec Bump PyFacts TypingFacts Typing3Facts Typing3More JsonFacts Jsonld3Facts Jsonld3Bump Console3Facts Console3Blocks.

Definition clean (ps : list piece) : Prop := forall e, ~ In (Stop e) ps.
Lemma clean_nil : clean [].
Proof. intros e []. Qed.
Lemma clean_text s : clean [Text s].
Proof. intros e [E|[]]. discriminate E. Qed.
Lemma clean_app a b : clean a -> clean b -> clean (a ++ b).
Proof. intros A B e I. apply in_app_or in I. destruct I as [I|I]; [exact (A e I)|exact (B e I)]. Qed.
Lemma clean_flat {A} (f : A -> list piece) l : (forall a, In a l -> clean (f a)) -> clean (flat_map f l).
Proof. intros H e I. apply in_flat_map in I. destruct I as (a & Ia & Ie). exact (H a Ia e Ie). Qed.
Lemma clean_titled h v : clean h -> clean (titled h v).
Proof. intro C. unfold titled. destruct (empty v); [exact clean_nil|exact C]. Qed.
Lemma said_none ps : snd (said ps) = None <-> clean ps.
Proof.
  induction ps as [|[s|e] ps IH]; cbn [said snd].
  - split; [intros _; exact clean_nil|reflexivity].
  - rewrite IH. split; intros C e I; [destruct I as [I|I]; [discriminate I|exact (C e I)]|exact (C e (or_intror I))].
  - split; [discriminate|]. intro C. destruct (C e (or_introl eq_refl)).
Qed.
Lemma said_some ps e : snd (said ps) = Some e -> In (Stop e) ps.
Proof.
  induction ps as [|[s|x] ps IH]; cbn [said snd]; intro H; [discriminate|right; exact (IH H)|left; congruence].
Qed.

Section Stops.
Variable sd : datetime -> pystr.
(** hints of values that can be shown *)
Fixpoint ok (h : hint3) : bool := match h with TOr a b => ok a && ok b | TList TStr => true | TList _ => false | _ => true end.
Lemma all_texts l : Forall (fun v => exists s, v = VStr s) l -> exists ss, texts l = Some ss.
Proof. induction 1 as [|v l [s ->] F [ss IH]]; [exists []; reflexivity|]. exists (s :: ss). cbn [texts]. rewrite IH. reflexivity. Qed.
Lemma entry_clean ind tag v : (forall l, v = VList l -> exists ss, texts l = Some ss) -> clean (entry sd ind tag v).
Proof.
  intro H. unfold entry. destruct (empty v); [exact clean_nil|]. destruct v; try apply clean_text. destruct (H l eq_refl) as [ss ->]. apply clean_text.
Qed.
Lemma ok_typed h : forall v, ok h = true -> Typed3 classes3 h v -> forall l, v = VList l -> exists ss, texts l = Some ss.
Proof.
  induction h as [| | | | |c|a IHa b IHb|a IHa|a IHa b IHb]; intros v F T l E; cbn [Typed3] in T.
  1-5: exfalso; subst v; repeat (match goal with H : _ \/ _ |- _ => destruct H | H : exists _, _ |- _ => destruct H end); discriminate.
  - destruct T as (k & fs & E' & _). congruence.
  - cbn [ok] in F. apply andb_true_iff in F. destruct F as [Fa Fb]. destruct T as [T|T]; [exact (IHa _ Fa T _ E)|exact (IHb _ Fb T _ E)].
  - destruct T as (m & E' & T). assert (m = l) by congruence. subst m. apply all_texts. destruct a; try discriminate F. exact T.
  - destruct T as (m & E' & _). congruence.
Qed.
Definition hints (p : hint3 -> bool) (f : pystr) : bool :=
  forallb (fun d => match assoc f (fields_of classes3 (depth classes3) d) with Some h => p h | None => true end) classes3.
Lemma hints_field p f c i w : hints p f = true -> Sound (VObj c i) -> assoc f i = Some w -> (exists s, w = VStr s) \/ exists h, p h = true /\ Typed3 classes3 h w.
Proof.
  intros H Sv A. destruct (typed_field _ _ _ _ Sv A) as [L|(d & h & I & _ & A' & T)]; [left; exact L|]. right. exists h. split; [|exact T].
  unfold hints in H. rewrite forallb_forall in H. specialize (H d I). rewrite A' in H. exact H.
Qed.
Lemma field_clean ind tag f v : Sound v -> hints ok f = true -> clean (entry sd ind tag (field f v)).
Proof.
  intros Sv H. apply entry_clean. intros l E. destruct v as [|b|z|r|s|d|x|m|m|m|c i]; try discriminate E. cbn [field] in E.
  destruct (assoc f i) as [w|] eqn:A; [|discriminate E]. destruct (hints_field _ _ _ _ _ H Sv A) as [[s X]|(h & O & T)]; [congruence|exact (ok_typed _ _ O T _ E)].
Qed.
Lemma fields_clean names v : Sound v -> forallb (hints ok) names = true -> clean (fields sd names v).
Proof. intros Sv H. apply clean_flat. intros f I. rewrite forallb_forall in H. exact (field_clean _ _ _ _ Sv (H f I)). Qed.
Lemma hash_clean v : Sound v -> clean (hash_pieces sd v).
Proof.
  intro Sv. apply clean_flat. intros f I. apply field_clean; [exact Sv|].
  assert (H : forallb (hints ok) [$"algorithm"; $"hash_value"; $"comment"] = true) by (vm_compute; reflexivity). rewrite forallb_forall in H. exact (H f I).
Qed.
Lemma nested_clean f (g : pyval -> list piece) v : Sound v -> (forall x, Sound x -> clean (g x)) -> clean (flat_map g (items_of (field f v))).
Proof. intros Sv H. apply clean_flat. intros x I. apply H. exact (sound_items _ _ (sound_field _ _ Sv) I). Qed.
Lemma import_clean v : Sound v -> clean (import_pieces sd v).
Proof.
  intro Sv. unfold import_pieces. apply clean_app; [apply fields_clean; [exact Sv|vm_compute; reflexivity]|]. apply clean_app; [apply clean_titled, clean_text|].
  apply clean_app; [exact (nested_clean _ _ _ Sv hash_clean)|]. apply fields_clean; [exact Sv|vm_compute; reflexivity].
Qed.
(** lists of texts *)
Definition text_list (h : hint3) : bool := match h with TList TStr => true | _ => false end.
Lemma text_items f v : Sound v -> hints text_list f = true -> Forall (fun x => exists s, x = VStr s) (items_of (field f v)).
Proof.
  intros Sv H. destruct v as [|b|z|r|s|d|x|m|m|m|c i]; try constructor. cbn [field]. destruct (assoc f i) as [w|] eqn:A; [|constructor].
  destruct (hints_field _ _ _ _ _ H Sv A) as [[s ->]|(h & O & T)]; [constructor|]. destruct h as [| | | | | | |[]|]; try discriminate O. destruct T as (l & -> & F). exact F.
Qed.
Lemma text_items_clean ind tag f v : Sound v -> hints text_list f = true -> clean (flat_map (entry sd ind tag) (items_of (field f v))).
Proof.
  intros Sv H. apply clean_flat. intros x I. assert (F := text_items _ _ Sv H). rewrite Forall_forall in F. destruct (F x I) as [s ->]. apply entry_clean. intros l E. discriminate E.
Qed.
(** the creation info *)
Lemma creation_stops v e : Sound v -> In (Stop e) (creation_pieces sd v) ->
  (exists d, field $"created" v = VDatetime d /\ datetime_to_iso_string d = Raise e) \/ forall d, field $"created" v <> VDatetime d.
Proof.
  intros Sv H. unfold creation_pieces in H.
  assert (T : forall s, clean (entry sd true s (VStr s))) by (intro s; apply entry_clean; intros l E; discriminate E).
  apply in_app_or in H. destruct H as [H|H]; [destruct (clean_text _ e H)|].
  apply in_app_or in H. destruct H as [H|H]; [exfalso; revert H; apply entry_clean; intros l E; discriminate E|].
  apply in_app_or in H. destruct H as [H|H].
  { destruct (field $"created" v) as [|b|z|r|s|d|x|m|m|m|c i]; try (right; intros d' E; discriminate E). left. exists d. split; [reflexivity|].
    destruct (datetime_to_iso_string d) as [s|x].
    - exfalso. revert H. apply entry_clean. intros l E. discriminate E.
    - destruct H as [H|[]]. congruence. }
  exfalso. refine ((_ : clean _) e H).
  apply clean_app; [apply text_items_clean; [exact Sv|vm_compute; reflexivity]|]. apply clean_app; [apply text_items_clean; [exact Sv|vm_compute; reflexivity]|].
  apply clean_app; [|apply clean_app; apply field_clean; first [exact Sv|vm_compute; reflexivity]].
  apply entry_clean. intros l E. assert (L : map (fun x => VStr (text_of sd x)) (items_of (field $"profile" v)) = l) by congruence. subst l. apply all_texts.
  apply Forall_forall. intros x I. apply in_map_iff in I. destruct I as (y & <- & _). eauto.
Qed.
Lemma creation_stops_back v d e : field $"created" v = VDatetime d -> datetime_to_iso_string d = Raise e -> In (Stop e) (creation_pieces sd v).
Proof.
  intros E D. unfold creation_pieces. rewrite E, D. apply in_or_app. right. apply in_or_app. right. apply in_or_app. left. left. reflexivity.
Qed.
Definition creation_hint (h : hint3) : bool := heqb h (TOr (TIs $"CreationInfo") TNone).
Definition date_hint (h : hint3) : bool := heqb h TDatetime.
Lemma no_subclass d : In d classes3 -> d_base d <> Some $"CreationInfo".
Proof.
  intros I E. assert (H : forallb (fun d => match d_base d with Some b => negb (str_eqb b $"CreationInfo") | None => true end) classes3 = true) by (vm_compute; reflexivity).
  rewrite forallb_forall in H. specialize (H d I). rewrite E, str_eqb_refl in H. discriminate H.
Qed.
Lemma creation_typed v : Sound v -> empty (field $"creation_info" v) = false -> exists d, field $"created" (field $"creation_info" v) = VDatetime d.
Proof.
  intros Sv N. destruct v as [|b|z|r|s|d|x|m|m|m|c i]; try discriminate N. assert (Sf := sound_field _ $"creation_info" Sv). cbn [field] in N, Sf |- *.
  destruct (assoc $"creation_info" i) as [w|] eqn:A; [|discriminate N].
  assert (Hc : hints creation_hint $"creation_info" = true) by (vm_compute; reflexivity).
  destruct (typed_field _ _ _ _ Sv A) as [[s ->]|(d & h & I & Ec & A' & T)].
  { exfalso. inversion Sv as [| | | | | | |c' words n I' W E|s' E|d ps i' I P Nm T F E]; subst.
    - vm_compute in A. discriminate A.
    - vm_compute in A. discriminate A.
    - assert (In $"creation_info" (map fst i)) by (apply in_map_iff; eexists; split; [|exact (assoc_In _ _ _ A)]; reflexivity).
      assert (H' := H). rewrite (names_are _ _ I Nm) in H'. destruct (assoc $"creation_info" (fields_of classes3 (depth classes3) d)) as [h|] eqn:A'; [|apply assoc_None in A'; exact (A' H')].
      assert (Th := T _ h _ (proj1 (field_iff classes3 names3 (fun d => wf_classes3 d) d _ h I) A') (assoc_In _ _ _ A)).
      unfold hints in Hc. rewrite forallb_forall in Hc. specialize (Hc d I). rewrite A' in Hc. apply heqb_eq in Hc. subst h. destruct Th as [(k & fs & X & _)|X]; discriminate X. }
  unfold hints in Hc. rewrite forallb_forall in Hc. specialize (Hc d I). rewrite A' in Hc. apply heqb_eq in Hc. subst h.
  destruct T as [(k & fs & -> & Dr)| ->]; [|discriminate N]. assert (K := derives_only _ _ no_subclass Dr). subst k. clear A A' Sv I Ec d i c N.
  inversion Sf as [| | | | | | |c' words n I' W E|s' E|d ps i' I P Nm T F E].
  - exfalso. assert (X : str_in $"CreationInfo" (map fst enumeration_words) = true) by (apply str_in_In, in_map_iff; exists ($"CreationInfo", words); split; [reflexivity|congruence]). vm_compute in X. discriminate X.
  - subst i'. assert (Hn : In $"created" (map fst fs)).
    { rewrite (names_are _ _ I Nm). assert (X : forallb (fun d => negb (str_eqb (d_name d) $"CreationInfo") || str_in $"created" (map fst (fields_of classes3 (depth classes3) d))) classes3 = true) by (vm_compute; reflexivity).
      rewrite forallb_forall in X. specialize (X d I). rewrite E, str_eqb_refl in X. apply str_in_In. exact X. }
    cbn [field]. destruct (assoc $"created" fs) as [w|] eqn:A; [|apply assoc_None in A; destruct (A Hn)].
    assert (Hn' := Hn). rewrite (names_are _ _ I Nm) in Hn'. destruct (assoc $"created" (fields_of classes3 (depth classes3) d)) as [h|] eqn:A'; [|apply assoc_None in A'; destruct (A' Hn')].
    assert (Th := T _ h _ (proj1 (field_iff classes3 names3 (fun d => wf_classes3 d) d _ h I) A') (assoc_In _ _ _ A)).
    assert (Hd : hints date_hint $"created" = true) by (vm_compute; reflexivity). unfold hints in Hd. rewrite forallb_forall in Hd. specialize (Hd d I). rewrite A' in Hd.
    apply heqb_eq in Hd. subst h. exact Th.
Qed.

(** * Elements *)
Definition BadTime (v : pyval) (e : exn) : Prop :=
  exists d, field $"created" (field $"creation_info" v) = VDatetime d /\ datetime_to_iso_string d = Raise e.
Lemma common_stops v e : Sound v -> In (Stop e) (section_pieces sd v Common) -> BadTime v e.
Proof.
  intros Sv H. unfold section_pieces in H.
  apply in_app_or in H. destruct H as [H|H]; [exfalso; revert H; apply field_clean; [exact Sv|vm_compute; reflexivity]|].
  apply in_app_or in H. destruct H as [H|H]; [exfalso; revert H; apply fields_clean; [exact Sv|vm_compute; reflexivity]|].
  apply in_app_or in H. destruct H as [H|H].
  { destruct (empty (field $"creation_info" v)) eqn:E; [destruct H|]. destruct (creation_typed _ Sv E) as [d D].
    destruct (creation_stops _ _ (sound_field _ _ Sv) H) as [X|X]; [exact X|]. destruct (X d D). }
  exfalso. refine ((_ : clean _) e H).
  apply clean_app; [apply fields_clean; [exact Sv|vm_compute; reflexivity]|]. apply clean_app; [apply clean_titled, clean_text|].
  apply clean_app; [exact (nested_clean _ _ _ Sv hash_clean)|]. apply clean_app; [apply clean_titled, clean_text|].
  apply clean_app; [apply (nested_clean _ _ _ Sv); intros x Sx; apply fields_clean; [exact Sx|vm_compute; reflexivity]|]. apply clean_app; [apply clean_titled, clean_text|].
  apply (nested_clean _ _ _ Sv); intros x Sx; apply fields_clean; [exact Sx|vm_compute; reflexivity].
Qed.
Lemma members_clean v : Sound v -> clean (section_pieces sd v Members).
Proof.
  intro Sv. unfold section_pieces. apply clean_app.
  { assert (F : Forall (fun x => exists s, x = VStr s) (items_of (field $"element" v))) by (apply text_items; [exact Sv|vm_compute; reflexivity]).
    destruct (all_texts _ F) as [ss ->]. apply clean_text. }
  apply clean_app; [apply clean_titled, clean_text|].
  apply clean_app; [apply (nested_clean _ _ _ Sv); intros x Sx; apply fields_clean; [exact Sx|vm_compute; reflexivity]|]. apply clean_app; [apply clean_titled, clean_text|].
  exact (nested_clean _ _ _ Sv import_clean).
Qed.
Lemma digests_clean v : Sound v -> clean (section_pieces sd v Digests).
Proof. intro Sv. apply clean_app; [apply clean_titled, clean_text|exact (nested_clean _ _ _ Sv hash_clean)]. Qed.
(** the fields in the layouts can be shown, except the types of data sets *)
Definition good_section (c : pystr) (s : section) : bool :=
  match s with Fields names => forallb (fun f => hints ok f || (str_eqb f $"dataset_type" && str_eqb c $"Dataset")) names | _ => true end.
Lemma layouts_good : forallb (fun l => forallb (good_section (fst l)) (snd (snd l))) layouts = true.
Proof. vm_compute. reflexivity. Qed.
Lemma layouts_common : forallb (fun l => existsb (fun s => match s with Common => true | _ => false end) (snd (snd l))) layouts = true.
Proof. vm_compute. reflexivity. Qed.

Lemma stops v e : Element v -> In (Stop e) (element_pieces sd v) -> CannotBeShown v e.
Proof.
  intros (Sv & c & i & -> & C) H. cbn [element_pieces] in H. destruct (assoc c layouts) as [[h ss]|] eqn:A.
  2: { left. exists c, i. split; [reflexivity|]. split; [apply assoc_None; exact A|]. destruct H as [H|[]]. congruence. }
  assert (Ic : In c (map fst layouts)) by (apply in_map_iff; exists (c, (h, ss)); split; [reflexivity|exact (assoc_In _ _ _ A)]).
  assert (G := layouts_good). rewrite forallb_forall in G. specialize (G _ (assoc_In _ _ _ A)). cbn [fst snd] in G. rewrite forallb_forall in G.
  apply in_app_or in H. destruct H as [H|H]; [destruct (clean_text _ e H)|]. apply in_app_or in H. destruct H as [H|H]; [|destruct (clean_text _ e H)].
  apply in_flat_map in H. destruct H as (s & Is & H). destruct s as [|names| |].
  - right. right. destruct (common_stops _ _ Sv H) as (d & D1 & D2). exists c, i, d. auto.
  - specialize (G _ Is). cbn [good_section] in G. rewrite forallb_forall in G. cbn [section_pieces] in H. unfold fields in H. apply in_flat_map in H. destruct H as (f & If & H).
    specialize (G f If). apply orb_true_iff in G. destruct G as [G|G]; [destruct (field_clean false f f _ Sv G e H)|].
    apply andb_true_iff in G. destruct G as [G1 G2]. apply str_eqb_eq in G1, G2. subst f c. right. left.
    unfold entry in H. destruct (field $"dataset_type" (VObj $"Dataset" i)) as [|b|z|r|s|d|x|m|m|m|c j] eqn:Fd; try (destruct (empty _); [destruct H|destruct (clean_text _ e H)]).
    destruct m as [|x l]; [destruct H|]. exists i, x, l. split; [reflexivity|]. split; [reflexivity|]. cbn [empty] in H. destruct (texts (x :: l)); [destruct (clean_text _ e H)|].
    destruct H as [H|[]]. eexists. injection H as <-. reflexivity.
  - destruct (digests_clean _ Sv e H).
  - destruct (members_clean _ Sv e H).
Qed.
Definition member_list (h : hint3) : bool := match h with TList (TIs _) => true | _ => false end.
Lemma stops_back v e : Element v -> CannotBeShown v e -> exists e', In (Stop e') (element_pieces sd v).
Proof.
  intros (Sv & _) [(c & i & -> & N & ->)|[(i & x & l & -> & D & _)|(c & i & d & -> & Ic & D & X)]].
  - exists (EKey c). cbn [element_pieces]. apply assoc_None in N. rewrite N. left. reflexivity.
  - exists (EType $"sequence item"). unfold element_pieces.
    destruct (assoc $"Dataset" layouts) as [[h ss]|] eqn:A; [|vm_compute in A; discriminate A].
    assert (I2 : exists names, In (Fields names) ss /\ In $"dataset_type" names).
    { assert (B : match assoc $"Dataset" layouts with Some (_, ss) => existsb (fun s => match s with Fields ns => str_in $"dataset_type" ns | _ => false end) ss | None => false end = true) by (vm_compute; reflexivity).
      rewrite A in B. apply existsb_exists in B. destruct B as (s & Is & B). destruct s as [|ns| |]; try discriminate B. exists ns. split; [exact Is|apply str_in_In; exact B]. }
    destruct I2 as (names & I2 & I3). apply in_or_app. right. apply in_or_app. left. apply in_flat_map. exists (Fields names). split; [exact I2|].
    cbn [section_pieces]. unfold fields. apply in_flat_map. exists $"dataset_type". split; [exact I3|]. rewrite D. unfold entry. cbn [empty].
    assert (O : exists k fs, x = VObj k fs).
    { cbn [field] in D. destruct (assoc $"dataset_type" i) as [w|] eqn:A2; [|discriminate D]. subst w.
      assert (Hm : hints member_list $"dataset_type" = true) by (vm_compute; reflexivity).
      destruct (hints_field _ _ _ _ _ Hm Sv A2) as [[s Y]|(k & O & T)]; [discriminate Y|]. destruct k as [| | | | | | |[]|]; try discriminate O. destruct T as (m & E & F).
      assert (m = x :: l) by congruence. subst m. inversion F as [|? ? (k & fs & -> & _) _]; subst. eauto. }
    destruct O as (k & fs & ->). left. reflexivity.
  - exists e. cbn [element_pieces]. destruct (assoc c layouts) as [[h ss]|] eqn:A; [|apply assoc_None in A; contradiction].
    assert (Q := layouts_common). rewrite forallb_forall in Q. specialize (Q _ (assoc_In _ _ _ A)). cbn [snd] in Q. apply existsb_exists in Q. destruct Q as (s & Is & Q). destruct s; try discriminate Q.
    apply in_or_app. right. apply in_or_app. left. apply in_flat_map. exists Common. split; [exact Is|]. cbn [section_pieces].
    apply in_or_app. right. apply in_or_app. right. apply in_or_app. left.
    destruct (empty (field $"creation_info" (VObj c i))) eqn:E.
    + exfalso. destruct (field $"creation_info" (VObj c i)); try discriminate D. cbn [empty] in E. discriminate E.
    + exact (creation_stops_back _ _ _ D X).
Qed.

Lemma elements_shown es : Forall Element es ->
  ((exists text, write_elements sd (map object_of es) = (text, None)) <-> forall v e, In v es -> ~ CannotBeShown v e).
Proof.
  intro F. rewrite (elements_printed sd es F). split.
  - intros [text T] v e I C. assert (N : snd (said (flat_map (element_pieces sd) es)) = None) by (rewrite T; reflexivity). apply said_none in N.
    rewrite Forall_forall in F. destruct (stops_back v e (F v I) C) as [e' I']. apply (N e'). apply in_flat_map. exists v. auto.
  - intro H. assert (N : snd (said (flat_map (element_pieces sd) es)) = None).
    { apply said_none. intros e I. apply in_flat_map in I. destruct I as (v & Iv & I). rewrite Forall_forall in F. exact (H v e Iv (stops v e (F v Iv) I)). }
    destruct (said (flat_map (element_pieces sd) es)) as [t x]. cbn [snd] in N. subst x. eauto.
Qed.
Lemma elements_stop es text e : Forall Element es -> write_elements sd (map object_of es) = (text, Some e) ->
  exists before v after start, es = before ++ v :: after /\ (forall w x, In w before -> ~ CannotBeShown w x) /\ CannotBeShown v e
    /\ text = fst (said (flat_map (element_pieces sd) before)) ++ start.
Proof.
  intros F. rewrite (elements_printed sd es F). revert text. induction F as [|v es E F IH]; intros text W; [discriminate W|].
  cbn [flat_map] in W. rewrite said_app in W. unfold then_ in W. destruct (said (element_pieces sd v)) as [t [x|]] eqn:P; cbn [fst snd] in W.
  - exists [], v, es, text. split; [reflexivity|]. split; [intros w y []|]. split; [|reflexivity]. apply (stops v e E). apply said_some. rewrite P. cbn [snd]. congruence.
  - destruct (said (flat_map (element_pieces sd) es)) as [t' [x|]] eqn:P'; cbn [fst snd] in W; [|discriminate W]. assert (x = e) by congruence. subst x.
    destruct (IH t' eq_refl) as (b & w & a & st & -> & N & C & T). exists (v :: b), w, a, st. split; [reflexivity|]. split; [|split; [exact C|]].
    + intros y z [ <- |I]; [|exact (N y z I)]. intro X. destruct (stops_back v z E X) as [e' I']. assert (Q : snd (said (element_pieces sd v)) = None) by (rewrite P; reflexivity).
      apply said_none in Q. exact (Q e' I').
    + cbn [flat_map]. rewrite said_app, P. unfold then_. cbn [fst snd]. rewrite <- app_assoc, <- T. congruence.
Qed.
End Stops.

(** * Payloads of conversions *)
Lemma element_class st e : exists c attrs, element_object st e = XObj c attrs.
Proof. destruct e; cbn [element_object]; try match goal with |- context [if ?b then _ else _] => destruct b end; eexists; eexists; reflexivity. Qed.
Lemma bumped_elements sd d st doc : bump_spdx_document d = Ok (st, doc) ->
  exists vs, Forall Element vs /\ write_payload_to_console sd st = write_elements sd (map object_of vs).
Proof.
  intro B. destruct (bumped_sound _ _ _ B) as [vs F]. exists vs. unfold write_payload_to_console. clear B.
  induction F as [|e v es vs (E & Sv & c & i & ->) F (F1 & F2)]; [split; [constructor|reflexivity]|]. split.
  - constructor; [|exact F1]. split; [exact Sv|]. exists c, i. split; [reflexivity|]. destruct (element_class st e) as (k & attrs & K). rewrite K in E.
    destruct (sound_object _ _ Sv) as [(words & n & I & _ & X)|[[s X]|(d' & ps & I & _ & -> & _)]].
    + rewrite X, (member_object _ _ _ I) in E. discriminate E.
    + rewrite X, version_object in E. discriminate E.
    + apply in_map. exact I.
  - cbn [map]. rewrite E. unfold write_elements in *. cbn [flat_map]. rewrite !all_of_app, F2. reflexivity.
Qed.
