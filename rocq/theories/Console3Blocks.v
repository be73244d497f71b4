(** The console writer of SPDX 3, element by element. *)
From Verif Require Import Py Data Oracles Basics Json DocUtils Payload Typing Typing3 Typing3Spec Jsonld Jsonld3 Jsonld3Spec Console Console3Spec PyFacts TypingFacts Typing3Facts Typing3More JsonFacts Jsonld3Facts Console3Facts.

Section Blocks.
Variable sd : datetime -> pystr.

Section Element.
Variables (d : decl) (i : instance).
Hypotheses (I : In d classes3) (Sv : Sound (VObj (d_name d) i)).
Let v : pyval := VObj (d_name d) i.
Let o : pyobj := object_of v.

Lemma class_is : class_of o = d_name d.
Proof. unfold o, v. rewrite (class_object _ _ I). reflexivity. Qed.
Lemma common : Printed (write_element_properties sd o) (section_pieces sd v Common).
Proof.
  unfold write_element_properties, section_pieces, fields. cbn [app flat_map]. rewrite !app_nil_r.
  apply printed_cons; [exact (field_value sd false _ $"spdx_id" v Sv eq_refl)|].
  apply printed_cons. { unfold o, v. rewrite (attr_class _ _ _ I). apply value; [apply sound_field; exact Sv|exact (flat_field _ _ Sv)]. }
  apply printed_cons.
  { unfold o. rewrite (attr v $"creation_info" Sv eq_refl), (truthy_empty _ (sound_field _ _ Sv)). fold v. destruct (empty (field $"creation_info" v)); [reflexivity|].
    cbn [negb]. apply creation_printed. apply sound_field. exact Sv. }
  rewrite <- !app_assoc.
  apply printed_cons; [exact (field_value sd false _ $"summary" v Sv eq_refl)|].
  apply printed_cons; [exact (field_value sd false _ $"description" v Sv eq_refl)|].
  apply printed_cons; [exact (field_value sd false _ $"comment" v Sv eq_refl)|].
  apply printed_cons; [exact (heading v $"verified_using" _ _ Sv eq_refl (printed_line _))|].
  apply printed_app; [exact (each v $"verified_using" _ _ Sv eq_refl (hash_printed sd))|].
  apply printed_cons; [exact (heading v $"external_reference" _ _ Sv eq_refl (printed_line _))|].
  apply printed_app; [exact (each v $"external_reference" _ _ Sv eq_refl (fun x Sx => properties sd reference_names x Sx eq_refl))|].
  apply printed_cons; [exact (heading v $"external_identifier" _ _ Sv eq_refl (printed_line _))|].
  exact (each v $"external_identifier" _ _ Sv eq_refl (fun x Sx => properties sd identifier_names x Sx eq_refl)).
Qed.
Lemma props names : forallb proper names = true -> Printed (write_properties sd names o) (section_pieces sd v (Fields names)).
Proof. exact (properties sd names v Sv). Qed.
Lemma artifact : Printed (write_artifact_properties sd o) (section_pieces sd v Common ++ section_pieces sd v (Fields artifact_names)).
Proof. apply printed_then; [exact common|exact (props artifact_names eq_refl)]. Qed.
Lemma relationship : Printed (write_relationship_properties sd o) (section_pieces sd v Common ++ section_pieces sd v (Fields relationship_names)).
Proof. apply printed_then; [exact common|exact (props relationship_names eq_refl)]. Qed.
Lemma package : Printed (write_package sd false o) (section_pieces sd v Common ++ section_pieces sd v (Fields artifact_names) ++ section_pieces sd v (Fields package_names)).
Proof.
  refine (printed_eq _ _ _ (printed_cons _ _ _ _ printed_nothing (printed_cons _ _ _ _ artifact (printed_cons _ _ _ _ (props package_names eq_refl) printed_nil))) _).
  rewrite app_nil_r, <- app_assoc. reflexivity.
Qed.
Lemma members : Printed (write_collection sd o) (section_pieces sd v Common ++ section_pieces sd v Members).
Proof.
  unfold write_collection. cbn [app]. apply printed_cons; [exact common|]. cbn [section_pieces].
  apply printed_cons.
  { unfold o. rewrite (attr v $"element" Sv eq_refl), (list_items _ (sound_field _ _ Sv)), Console3Facts.texts_joined.
    - fold v. destruct (texts (items_of (field $"element" v))) as [ss|]; [|reflexivity]. refine (printed_eq _ _ _ (printed_text _) _). unfold line. rewrite <- app_assoc. reflexivity.
    - apply Forall_forall. intros x X. exact (sound_items _ _ (sound_field _ _ Sv) X). }
  apply printed_cons; [exact (heading v $"namespaces" _ _ Sv eq_refl (printed_line _))|].
  apply printed_app; [exact (each v $"namespaces" _ _ Sv eq_refl (fun x Sx => properties sd map_names x Sx eq_refl))|].
  apply printed_cons; [exact (heading v $"imports" _ _ Sv eq_refl (printed_line _))|].
  exact (each v $"imports" _ _ Sv eq_refl (import_printed sd)).
Qed.
Lemma bundle : Printed (write_bundle sd false o) (section_pieces sd v Common ++ section_pieces sd v Members ++ section_pieces sd v (Fields [$"context"])).
Proof.
  refine (printed_eq _ _ _ (printed_cons _ _ _ _ printed_nothing (printed_cons _ _ _ _ members (printed_cons _ _ _ _ (field_value sd false _ $"context" v Sv eq_refl) printed_nil))) _).
  cbn [section_pieces]. unfold fields. cbn [flat_map]. rewrite !app_nil_r, <- !app_assoc. reflexivity.
Qed.
Lemma digests : Printed (all_of (write_optional_heading (getattr o $"config_source_digest") $"config_source_digest" :: map (write_hash sd) (list_of (getattr o $"config_source_digest"))))
  (section_pieces sd v Digests).
Proof.
  apply printed_cons; [exact (heading v $"config_source_digest" _ _ Sv eq_refl (printed_text _))|]. exact (each v $"config_source_digest" _ _ Sv eq_refl (hash_printed sd)).
Qed.
Lemma assoc_rel {A B} (R : pystr -> A -> B -> Prop) k (l : list (pystr * A)) (m : list (pystr * B)) :
  Forall2 (fun a b => fst a = fst b /\ R (fst a) (snd a) (snd b)) l m ->
  match assoc k l, assoc k m with Some a, Some b => R k a b | None, None => True | _, _ => False end.
Proof.
  induction 1 as [|[x a] [y b] l m [E H] F IH]; [exact Logic.I|]. cbn [fst snd] in *. subst y. cbn [assoc]. destruct (str_eqb k x) eqn:K; [|exact IH].
  apply str_eqb_eq in K. subst x. exact H.
Qed.
Definition Right (k : pystr) (f : pyobj -> output) (hs : pystr * list section) : Prop :=
  d_name d = k -> Printed (f o) ([line (fst hs)] ++ flat_map (section_pieces sd v) (snd hs)).
Lemma right_eq k f hs ps : Printed (f o) ps -> ps = [line (fst hs)] ++ flat_map (section_pieces sd v) (snd hs) -> Right k f hs.
Proof. intros P E _. exact (printed_eq _ _ _ P E). Qed.
Lemma right_actor k h : h = $"## " ++ k -> Right k (write_actor sd) (h, [Common]).
Proof.
  intros -> E. unfold write_actor. rewrite class_is, E. apply printed_then; [rewrite app_assoc; apply printed_line|]. cbn [snd flat_map]. rewrite app_nil_r. exact common.
Qed.
Ltac item := first [apply printed_line|exact common|exact relationship|exact artifact|exact package|apply props; reflexivity].
Ltac items := first [apply printed_nil|apply printed_cons; [item|items]].
Ltac tidy := cbn [fst snd flat_map]; rewrite ?app_nil_r, <- ?app_assoc; reflexivity.
Lemma element_one : Printed (match write_method sd (class_of o) with Some f => f o | None => ([], Some (EKey (class_of o))) end)
  (match assoc (d_name d) layouts with Some (heading, sections) => [line heading] ++ flat_map (section_pieces sd v) sections | None => [Stop (EKey (d_name d))] end).
Proof.
  rewrite class_is. unfold write_method.
  match goal with |- Printed (match assoc _ ?M with _ => _ end) _ => assert (F : Forall2 (fun a b => fst a = fst b /\ Right (fst a) (snd a) (snd b)) M layouts) end.
  2: { apply (assoc_rel _ (d_name d)) in F. match type of F with match ?x with _ => _ end => destruct x as [f|] end; destruct (assoc (d_name d) layouts) as [[h s]|]; try (exfalso; exact F).
       - exact (F eq_refl).
       - reflexivity. }
  unfold layouts.
  Ltac one := constructor; [split; [reflexivity|]|].
  one. { eapply right_eq; [cbn [snd]; items|tidy]. }
  one. { eapply right_eq; [exact (printed_then _ _ _ _ (printed_line _) relationship)|tidy]. }
  one. { eapply right_eq; [cbn [snd]; items|tidy]. }
  one. { eapply right_eq; [|reflexivity]. cbn [fst snd flat_map]. unfold write_bundle. cbv iota. apply printed_cons; [apply printed_line|].
         refine (printed_eq _ _ _ (printed_cons _ _ _ _ members (printed_cons _ _ _ _ (field_value sd false _ $"context" v Sv eq_refl) printed_nil)) _).
         cbn [section_pieces]. unfold fields. cbn [flat_map]. rewrite !app_nil_r, <- !app_assoc. reflexivity. }
  one. { eapply right_eq; [exact (printed_then _ _ _ _ (printed_line _) bundle)|tidy]. }
  one. { eapply right_eq; [exact (printed_then _ _ _ _ (printed_line _) bundle)|tidy]. }
  one. { eapply right_eq; [cbn [snd]; items|tidy]. }
  one. { eapply right_eq; [cbn [snd]; items|tidy]. }
  one. { eapply right_eq; [cbn [snd]; items|tidy]. }
  one. { eapply right_eq; [exact (printed_then _ _ _ _ (printed_line _) (printed_then _ _ _ _ printed_nothing bundle))|tidy]. }
  one. { apply right_actor. reflexivity. }
  one. { apply right_actor. reflexivity. }
  one. { apply right_actor. reflexivity. }
  one. { apply right_actor. reflexivity. }
  one. { eapply right_eq; [cbn [snd]; items|tidy]. }
  one. { eapply right_eq; [cbn [snd]; items|tidy]. }
  one. { eapply right_eq; [cbn [snd]; unfold write_build; cbn [app]; apply printed_cons; [item|]; apply printed_cons; [item|]; apply printed_cons; [item|];
           refine (printed_app (_ :: map _ _) [_] _ _ digests _); items|tidy]. }
  constructor.
Qed.
End Element.

Lemma elements_printed es : Forall Element es -> Printed (write_elements sd (map object_of es)) (flat_map (element_pieces sd) es).
Proof.
  unfold write_elements. induction 1 as [|v es (Sv & c & i & -> & C) F IH]; [reflexivity|]. apply in_map_iff in C. destruct C as (d & <- & I).
  cbn [map flat_map app]. assert (P := element_one d i I Sv). unfold element_pieces at 1.
  destruct (assoc (d_name d) layouts) as [[h s]|].
  - rewrite app_assoc, <- app_assoc. apply printed_cons; [exact P|]. cbn [app]. refine (printed_cons _ _ [line []] _ (printed_line []) IH).
  - unfold Printed. unfold all_of. cbn [fold_right]. unfold Printed in P. rewrite P. reflexivity.
Qed.
End Blocks.
