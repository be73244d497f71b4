(** The console output for a payload. *)
From Verif Require Import Py Data Oracles Basics Json DocUtils Payload Bump Jsonld JsonldSpec JsonldFacts JsonldBump Console ConsoleSpec ConsoleFacts PyFacts.

Section Doc.
Variable sd : datetime -> pystr.
Definition write_one (o : pyobj) : output :=
  match write_method sd (class_of o) with Some f => f o | None => ([], Some (EKey (class_of o))) end.
Definition Done (st : bstate) (e : element3) : Prop := exists b, Block sd st e b /\ Says (write_one (element_object st e)) b.
Definition Undone (st : bstate) (e : element3) : Prop :=
  exists t ex, creation_time st e = Some t /\ datetime_to_iso_string t = Raise ex /\ Fails (write_one (element_object st e)) ex.

Lemma properties_nil o : Says (write_properties sd [] o) [].
Proof. reflexivity. Qed.
Lemma properties_cons o n ns v l ls : getattr o n = v -> Says (write_value sd n v false) l -> Says (write_properties sd ns o) ls ->
  Says (write_properties sd (n :: ns) o) (l ++ ls).
Proof. intros <- A B. exact (says_cons _ _ _ _ A B). Qed.

(** the creation info of an element *)
Definition ci_of (st : bstate) (a : option nat) : pyobj := match a with Some c => cinfo_at st c | None => XNone end.
Lemma creation_or st a : (forall c, a = Some c -> c < List.length (b_cis st)) ->
  (exists ls, CreationLines st a ls /\ Says (if xtruthy (ci_of st a) then write_creation_info sd (ci_of st a) else say []) ls)
  \/ (exists i c ex, a = Some i /\ nth_error (b_cis st) i = Some c /\ datetime_to_iso_string (c3_created c) = Raise ex
      /\ Fails (if xtruthy (ci_of st a) then write_creation_info sd (ci_of st a) else say []) ex).
Proof.
  intro L. destruct a as [i|]; [|left; exists []; split; [constructor|reflexivity]].
  specialize (L i eq_refl). destruct (nth_error (b_cis st) i) as [c|] eqn:N; [|apply nth_error_None in N; lia].
  unfold ci_of, cinfo_at. rewrite N. cbn [xopt]. rewrite cinfo_truthy. destruct (datetime_to_iso_string (c3_created c)) as [s|ex] eqn:D.
  - left. exists (creation_lines c s). split; [econstructor; eassumption|]. apply cinfo_says. exact D.
  - right. exists i, c, ex. repeat split; try assumption. apply cinfo_fails. exact D.
Qed.

Lemma class_line c : Says (say ($"## " ++ c ++ [LF])) [$"## " ++ c].
Proof. rewrite app_assoc. apply says_line. Qed.
Lemma artifact_says o l og su b r v :
  getattr o $"originated_by" = xtexts og -> getattr o $"supplied_by" = xtexts su -> getattr o $"built_time" = xopt XDate b ->
  getattr o $"release_time" = xopt XDate r -> getattr o $"valid_until_time" = xopt XDate v -> getattr o $"standard" = XList [] ->
  Says (write_element_properties sd o) l ->
  Says (write_artifact_properties sd o)
       (l ++ listed $"originated_by" og ++ listed $"supplied_by" su ++ dated sd $"built_time" b ++ dated sd $"release_time" r ++ dated sd $"valid_until_time" v).
Proof.
  intros E1 E2 E3 E4 E5 E6 L. unfold write_artifact_properties. apply says_then; [exact L|].
  eapply says_eq; [eapply properties_cons; [exact E1|apply value_texts|]; eapply properties_cons; [exact E2|apply value_texts|];
    eapply properties_cons; [exact E3|apply value_date|]; eapply properties_cons; [exact E4|apply value_date|]; eapply properties_cons; [exact E5|apply value_date|];
    eapply properties_cons; [exact E6|apply value_none; reflexivity|apply properties_nil]|].
  rewrite !app_nil_r. reflexivity.
Qed.
Lemma relationship_says o l r :
  getattr o $"from_element" = XStr (r3_from r) -> getattr o $"to" = xtexts (r3_to r) -> getattr o $"relationship_type" = XEnum (r3_type r) ->
  getattr o $"completeness" = xopt XEnum (r3_completeness r) -> getattr o $"start_time" = XNone -> getattr o $"end_time" = XNone ->
  Says (write_element_properties sd o) l ->
  Says (write_relationship_properties sd o)
       (l ++ shown $"from_element" (r3_from r) ++ listed $"to" (r3_to r) ++ member $"relationship_type" (r3_type r) ++ member_if $"completeness" (r3_completeness r)).
Proof.
  intros E1 E2 E3 E4 E5 E6 L. unfold write_relationship_properties. apply says_then; [exact L|].
  eapply says_eq; [eapply properties_cons; [exact E1|apply (value_str _ _ _ false)|]; eapply properties_cons; [exact E2|apply value_texts|];
    eapply properties_cons; [exact E3|apply (value_enum _ _ _ false)|]; eapply properties_cons; [exact E4|apply (value_enum_opt _ _ _ false)|]; eapply properties_cons; [exact E5|apply value_none; reflexivity|];
    eapply properties_cons; [exact E6|apply value_none; reflexivity|apply properties_nil]|].
  rewrite !app_nil_r. reflexivity.
Qed.


Lemma block_or st e : Known (List.length (b_cis st)) e -> Done st e \/ Undone st e.
Proof.
  intro K. destruct e as [a|p|f|s|r|a|d]; cbn [Known] in K.
  - destruct K as [_ K]. destruct (creation_or st (a3_ci a) K) as [(ls & C & H)|(i & c & ex & A & N & D & F)].
    + left. eexists. split; [apply actor_block; exact C|]. set (o := element_object st (E3Actor a)).
      assert (W : write_one o = write_actor sd o) by (unfold o; cbn [element_object]; destruct (a3_kind a); reflexivity). rewrite W.
      eapply says_eq; [apply says_then; [apply class_line|eapply (element_says sd o (a3_id a) _ ls (Some (a3_name a)) None None None [] [] (a3_extids a)); try reflexivity; exact H]|].
      unfold o; cbn [element_object class_of actor_class]. destruct (a3_kind a); reflexivity.
    + right. exists (c3_created c), ex. split; [unfold creation_time; cbv beta iota; rewrite A, N; reflexivity|]. split; [exact D|].
      set (o := element_object st (E3Actor a)). assert (W : write_one o = write_actor sd o) by (unfold o; cbn [element_object]; destruct (a3_kind a); reflexivity). rewrite W.
      eapply fails_right; [apply class_line|]. apply (element_fails sd o (a3_id a) (Some (a3_name a))); [reflexivity|reflexivity|exact F].
  - left. eexists. split; [apply package_block|]. set (o := element_object st (E3Package p)). change (write_one o) with (write_package sd true o).
    eapply says_eq; [apply says_cons; [apply says_line|]; apply says_cons;
      [eapply (artifact_says o _ (p3_originated p) (p3_supplied p) (p3_built p) (p3_release p) (p3_valid_until p)); try reflexivity;
       eapply (element_says sd o (p3_id p) XNone [] (Some (p3_name p)) (p3_summary p) (p3_description p) (p3_comment p) (p3_verified p) (p3_extrefs p) (p3_extids p)); reflexivity|];
      apply says_cons; [|apply says_nil];
      eapply properties_cons; [reflexivity|apply (value_opt sd _ (p3_version p) false)|]; eapply properties_cons; [reflexivity|apply (value_opt sd _ (p3_download p) false)|];
      eapply properties_cons; [reflexivity|apply (value_opt sd _ (p3_purl p) false)|]; eapply properties_cons; [reflexivity|apply (value_opt sd _ (p3_homepage p) false)|];
      eapply properties_cons; [reflexivity|apply (value_opt sd _ (p3_source_info p) false)|apply properties_nil]|].
    cbn [indent_by]. rewrite !app_nil_r, <- ?app_assoc. reflexivity.
  - left. eexists. split; [apply file_block|]. set (o := element_object st (E3File f)). change (write_one o) with (write_file sd o).
    eapply says_eq; [apply says_cons; [apply says_line|]; apply says_cons;
      [eapply (artifact_says o _ [] [] None None None); try reflexivity;
       eapply (element_says sd o (f3_id f) XNone [] (Some (f3_name f)) None None (f3_comment f) (f3_verified f) [] []); reflexivity|];
      apply says_cons; [|apply says_nil]; eapply properties_cons; [reflexivity|apply value_none; reflexivity|apply properties_nil]|].
    cbn [map under listed dated shown_if]. rewrite ?app_nil_r, <- ?app_assoc. reflexivity.
  - left. eexists. split; [apply snippet_block|]. set (o := element_object st (E3Snippet s)). change (write_one o) with (write_snippet sd o).
    eapply says_eq; [apply says_cons; [apply says_line|]; apply says_cons;
      [eapply (artifact_says o _ [] [] None None None); try reflexivity;
       eapply (element_says sd o (s3_id s) XNone [] (s3_name s) None None (s3_comment s) [] [] []); reflexivity|];
      apply says_cons; [|apply says_nil]; eapply properties_cons; [reflexivity|apply (value_range sd _ (s3_bytes s))|]; eapply properties_cons; [reflexivity|apply (value_range sd _ (s3_lines s))|apply properties_nil]|].
    cbn [map under listed dated shown_if]. rewrite ?app_nil_r, <- ?app_assoc. reflexivity.
  - left. destruct (r3_dependency r) eqn:D.
    + eexists. split; [apply dependency_block; exact D|]. cbn [element_object]. rewrite D.
      match goal with |- Says (write_one ?x) _ => set (o := x) end. change (write_one o) with (write_software_dependency_relationship sd o).
      eapply says_eq; [apply says_cons; [apply says_line|]; apply says_cons;
        [eapply (relationship_says o _ r); try reflexivity; eapply (element_says sd o (r3_id r) XNone [] None None None (r3_comment r) [] [] []); reflexivity|];
        apply says_cons; [eapply properties_cons; [reflexivity|apply (value_enum_opt sd _ (r3_scope r) false)|apply properties_nil]|];
        apply says_cons; [|apply says_nil]; eapply properties_cons; [reflexivity|apply (value_enum_opt sd _ (r3_linkage r) false)|];
        eapply properties_cons; [reflexivity|apply (value_enum_opt sd _ (r3_conditionality r) false)|apply properties_nil]|].
      cbn [map under listed dated shown_if indent_by]. rewrite ?app_nil_r, <- ?app_assoc. reflexivity.
    + eexists. split; [apply relationship_block; exact D|]. cbn [element_object]. rewrite D.
      match goal with |- Says (write_one ?x) _ => set (o := x) end. change (write_one o) with (write_relationship sd o).
      eapply says_eq; [apply says_then; [apply says_line|eapply (relationship_says o _ r); try reflexivity; eapply (element_says sd o (r3_id r) XNone [] None None None (r3_comment r) [] [] []); reflexivity]|].
      cbn [map under listed dated shown_if indent_by]. rewrite ?app_nil_r, <- ?app_assoc. reflexivity.
  - destruct K as [_ K]. assert (K' : forall c, Some (n3_ci a) = Some c -> c < List.length (b_cis st)) by (intros c E; congruence).
    set (o := element_object st (E3Annotation a)). destruct (creation_or st (Some (n3_ci a)) K') as [(ls & C & H)|(i & c & ex & A & N & D & F)].
    + left. eexists. split; [apply annotation_block; exact C|]. fold o. change (write_one o) with (write_annotation sd o).
      eapply says_eq; [apply says_cons; [apply says_line|]; apply says_cons;
        [eapply (element_says sd o (n3_id a) _ ls None None None None [] [] []); try reflexivity; exact H|];
        apply says_cons; [|apply says_nil]; eapply properties_cons; [reflexivity|apply (value_enum sd _ (n3_type a) false)|];
        eapply properties_cons; [reflexivity|apply (value_str sd _ (n3_subject a) false)|]; eapply properties_cons; [reflexivity|apply value_none; reflexivity|];
        eapply properties_cons; [reflexivity|apply (value_str sd _ (n3_statement a) false)|apply properties_nil]|].
      cbn [map under listed dated shown_if indent_by]. rewrite ?app_nil_r, <- ?app_assoc. reflexivity.
    + right. exists (c3_created c), ex. split; [assert (A' : i = n3_ci a) by congruence; rewrite A' in N; unfold creation_time; cbv beta iota; rewrite N; reflexivity|]. split; [exact D|]. fold o. change (write_one o) with (write_annotation sd o).
      eapply fails_right; [apply says_line|]. apply fails_left. apply (element_fails sd o (n3_id a) None); [reflexivity|reflexivity|exact F].
  - destruct K as [_ K]. assert (K' : forall c, Some (d3_ci d) = Some c -> c < List.length (b_cis st)) by (intros c E; congruence).
    set (o := element_object st (E3Document d)). destruct (creation_or st (Some (d3_ci d)) K') as [(ls & C & H)|(i & c & ex & A & N & D & F)].
    + left. eexists. split; [apply document_block; exact C|]. fold o. change (write_one o) with (write_spdx_document sd o). unfold write_spdx_document, write_bundle, write_collection.
      change (list_of (getattr o $"element")) with (map XStr (d3_element d)). rewrite texts_joined. cbv iota.
      change (getattr o $"namespaces") with (XList (map nsmap_object (d3_namespaces d))).
      change (getattr o $"imports") with (XList (map extmap_object (d3_imports d))).
      change (getattr o $"context") with XNone.
      assert (L : Says (say ($"elements: " ++ join $", " (d3_element d) ++ [LF])) [$"elements: " ++ join $", " (d3_element d)]) by (rewrite app_assoc; apply says_line).
      assert (El : Says (write_element_properties sd o) (shown $"SPDXID" (d3_id d) ++ shown $"name" (d3_name d) ++ ls ++ shown_if $"comment" (d3_comment d))).
      { eapply says_eq; [eapply (element_says sd o (d3_id d) _ ls (Some (d3_name d)) None None (d3_comment d) [] [] []); try reflexivity; exact H|].
        cbn [map under shown_if]. rewrite ?app_nil_r. reflexivity. }
      rewrite !under_split.
      eapply says_eq; [apply says_then; [apply says_line|]; apply says_cons; [apply says_nothing|]; apply says_cons;
       [eapply says_app; [apply says_cons; [exact El|]; apply says_cons; [exact L|]; apply says_cons; [apply (heading_says nsmap_object namespace_lines)|apply says_nil]|];
        apply says_app; [apply (parts_says nsmap_object _ namespace_lines _ (nsmap_says sd))|];
        apply says_app; [apply says_cons; [apply (heading_says extmap_object import_lines)|apply says_nil]|];
        apply (parts_says extmap_object _ import_lines _ (extmap_says sd))
       |apply says_cons; [apply value_none; reflexivity|apply says_nil]]|].
      rewrite ?app_nil_r, <- ?app_assoc. reflexivity.
    + right. exists (c3_created c), ex. split; [assert (A' : i = d3_ci d) by congruence; rewrite A' in N; unfold creation_time; cbv beta iota; rewrite N; reflexivity|]. split; [exact D|]. fold o. change (write_one o) with (write_spdx_document sd o).
      unfold write_spdx_document, write_bundle, write_collection. cbn [app]. unfold all_of. cbn [fold_right].
      eapply fails_right; [apply says_line|]. eapply fails_right; [apply says_nothing|]. apply fails_left. apply fails_left. apply (element_fails sd o (d3_id d) (Some (d3_name d))); [reflexivity|reflexivity|exact F].
Qed.

Lemma creation_lines_unique st a l l' : CreationLines st a l -> CreationLines st a l' -> l = l'.
Proof. intros H H'. destruct H; inversion H'; subst; [reflexivity|]. congruence. Qed.
Lemma block_unique st e b b' : Block sd st e b -> Block sd st e b' -> b = b'.
Proof.
  intros H H'. destruct H; inversion H'; subst; try congruence.
  all: match goal with A : CreationLines ?s ?x ?l, B : CreationLines ?s ?x ?l' |- _ => rewrite (creation_lines_unique s x l l' A B) end; reflexivity.
Qed.
Lemma block_created st e b : Block sd st e b -> forall t, creation_time st e = Some t -> exists s, datetime_to_iso_string t = Ok s.
Proof.
  intros H t. destruct H as [a ci C|p|f|s|r D|r D|a ci C|d ci C]; unfold creation_time; cbv beta iota; try discriminate.
  all: inversion C as [E|i c s N T]; subst; try (intro X; try rewrite <- E in X; discriminate X).
  - rewrite N. intro X. assert (X' : t = c3_created c) by (cbn in X; congruence). subst. eauto.
  - rewrite N. intro X. assert (X' : t = c3_created c) by (cbn in X; congruence). subst. eauto.
  - rewrite N. intro X. assert (X' : t = c3_created c) by (cbn in X; congruence). subst. eauto.
Qed.

Definition write_list (st : bstate) (es : list element3) : output :=
  all_of (flat_map (fun e => [write_one (element_object st e); say [LF]]) es).
Lemma write_list_cons st e es : write_list st (e :: es) = then_ (write_one (element_object st e)) (then_ (say [LF]) (write_list st es)).
Proof. reflexivity. Qed.
Lemma list_or st es : Forall (Known (List.length (b_cis st))) es ->
  (exists bs, Forall2 (Block sd st) es bs /\ write_list st es = say (payload_text bs))
  \/ (exists es1 x es2 bs t ex start, es = es1 ++ x :: es2 /\ Forall2 (Block sd st) es1 bs /\ creation_time st x = Some t
      /\ datetime_to_iso_string t = Raise ex /\ write_list st es = (payload_text bs ++ start, Some ex)).
Proof.
  induction 1 as [|e es K F IH]; [left; exists []; split; [constructor|reflexivity]|].
  rewrite write_list_cons. destruct (block_or st e K) as [(b & B & S1)|(t & ex & T & D & Fl)].
  - rewrite S1. destruct IH as [(bs & Bs & W)|(es1 & x & es2 & bs & t & ex & start & E & Bs & T & D & W)]; rewrite W.
    + left. exists (b :: bs). split; [constructor; assumption|]. unfold then_, say. cbn [fst snd]. unfold payload_text, block_text. cbn [map List.concat].
      fold (lines b). rewrite <- app_assoc. reflexivity.
    + right. exists (e :: es1), x, es2, (b :: bs), t, ex, start. split; [rewrite E; reflexivity|]. split; [constructor; assumption|]. split; [exact T|]. split; [exact D|].
      unfold then_, say. cbn [fst snd]. unfold payload_text, block_text. cbn [map List.concat]. fold (lines b). rewrite <- !app_assoc. reflexivity.
  - right. exists [], e, es, [], t, ex, (fst (write_one (element_object st e))). split; [reflexivity|]. split; [constructor|]. split; [exact T|]. split; [exact D|].
    unfold Fails in Fl. unfold then_ at 1. rewrite Fl. destruct (write_one (element_object st e)) as [w o]. cbn in Fl. subst o. reflexivity.
Qed.
Lemma payload_is st : write_payload_to_console sd st = write_list st (payload_elements st).
Proof.
  unfold write_payload_to_console, write_elements, write_list. f_equal. generalize (payload_elements st). intro es.
  induction es as [|e es IH]; [reflexivity|]. cbn [map flat_map]. rewrite IH. reflexivity.
Qed.

Section Payload.
Variables (d : document) (st : bstate) (doc : nat) (es : list element3).
Hypotheses (B : bump_spdx_document d = Ok (st, doc)) (P : PayloadElements st es).
Lemma es_are : es = payload_elements st.
Proof. destruct (document_map _ _ _ B) as [W N]. exact (payload_elements_unique _ _ _ P (payload_elements_are st W N)). Qed.
Lemma es_known : Forall (Known (List.length (b_cis st))) es.
Proof. rewrite es_are. apply Forall_forall. intros e I. exact (proj1 (in_payload_good _ _ _ _ B I)). Qed.
Lemma blocks_unique l : forall bs bs', Forall2 (Block sd st) l bs -> Forall2 (Block sd st) l bs' -> bs = bs'.
Proof.
  induction l as [|e l IH]; intros bs bs' H H'; inversion H; inversion H'; subst; [reflexivity|].
  f_equal; [eapply block_unique; eassumption|apply IH; assumption].
Qed.
Lemma console_blocks text : write_payload_to_console sd st = (text, None) <-> exists blocks, Forall2 (Block sd st) es blocks /\ text = payload_text blocks.
Proof.
  rewrite payload_is, <- es_are. destruct (list_or st es es_known) as [(bs & Bs & W)|(es1 & x & es2 & bs & t & ex & start & E & Bs & T & D & W)]; rewrite W.
  - split.
    + intro H. exists bs. split; [exact Bs|]. unfold say in H. congruence.
    + intros (bs' & Bs' & ->). rewrite (blocks_unique _ _ _ Bs' Bs). reflexivity.
  - split; [discriminate|]. intros (bs' & Bs' & _). exfalso. rewrite E in Bs'. apply Forall2_app_inv_l in Bs' as (l1 & l2 & _ & H2 & _).
    inversion H2 as [|? b ? ? H3]; subst. destruct (block_created _ _ _ H3 _ T) as [s X]. congruence.
Qed.
Lemma creation_time_given x t : In x es -> creation_time st x = Some t -> In t (times d).
Proof.
  intros _ H. assert (V := inv_document _ _ _ B). destruct V as [_ V]. rewrite Forall_forall in V. unfold creation_time in H.
  destruct (match x with E3Actor a => a3_ci a | E3Annotation a => Some (n3_ci a) | E3Document d0 => Some (d3_ci d0) | _ => None end) as [i|]; [|discriminate].
  destruct (nth_error (b_cis st) i) as [c|] eqn:N; [|discriminate]. assert (t = c3_created c) by (cbn in H; congruence). subst. apply V. exact (nth_error_In _ _ N).
Qed.
Lemma console_fails text e : write_payload_to_console sd st = (text, Some e) ->
  exists before x after blocks t start, es = before ++ x :: after /\ Forall2 (Block sd st) before blocks /\ creation_time st x = Some t
    /\ In t (times d) /\ datetime_to_iso_string t = Raise e /\ text = payload_text blocks ++ start.
Proof.
  rewrite payload_is, <- es_are. destruct (list_or st es es_known) as [(bs & Bs & W)|(es1 & x & es2 & bs & t & ex & start & E & Bs & T & D & W)]; rewrite W; [discriminate|].
  intro H. exists es1, x, es2, bs, t, start. split; [exact E|]. split; [exact Bs|]. split; [exact T|].
  split; [apply (creation_time_given x); [rewrite E; apply in_elt|exact T]|]. split; congruence.
Qed.
Lemma console_succeeds : Forall CanBeWritten (times d) -> exists text, write_payload_to_console sd st = (text, None).
Proof.
  intro F. destruct (write_payload_to_console sd st) as [text [e|]] eqn:W; [|eauto]. destruct (console_fails _ _ W) as (? & x & ? & ? & t & ? & _ & _ & _ & I1 & D & _).
  rewrite Forall_forall in F. destruct (F t I1) as [s X]. congruence.
Qed.
End Payload.
End Doc.
