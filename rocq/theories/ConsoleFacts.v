(** Facts about the console writer of SPDX 3. *)
From Verif Require Import Py Data Oracles Basics Json DocUtils Payload Bump Jsonld JsonldSpec JsonldFacts JsonldBump Console ConsoleSpec PyFacts.

(** the text of lines *)
Definition lines (ls : list pystr) : pystr := List.concat (map (fun l => l ++ [LF]) ls).
Lemma lines_app a b : lines (a ++ b) = lines a ++ lines b.
Proof. unfold lines. rewrite map_app. apply concat_app. Qed.
Lemma lines_one l : lines [l] = l ++ [LF].
Proof. unfold lines. cbn. apply app_nil_r. Qed.

(** an output that is exactly these lines *)
Definition Says (o : output) (ls : list pystr) : Prop := o = say (lines ls).
Lemma says_nothing : Says (say []) [].
Proof. reflexivity. Qed.
Lemma says_line l : Says (say (l ++ [LF])) [l].
Proof. unfold Says. rewrite lines_one. reflexivity. Qed.
Lemma says_then a b la lb : Says a la -> Says b lb -> Says (then_ a b) (la ++ lb).
Proof. unfold Says. intros -> ->. rewrite lines_app. reflexivity. Qed.
Lemma says_nil : Says (all_of []) [].
Proof. reflexivity. Qed.
Lemma says_cons a la l ls : Says a la -> Says (all_of l) ls -> Says (all_of (a :: l)) (la ++ ls).
Proof. apply says_then. Qed.
Lemma says_app l l' a b : Says (all_of l) a -> Says (all_of l') b -> Says (all_of (l ++ l')) (a ++ b).
Proof.
  revert a. induction l as [|x l IH]; intros a A B; cbn [app].
  - unfold Says in A. assert (E : lines a = []) by (unfold all_of, say in A; cbn in A; congruence). unfold Says in *. rewrite lines_app, E. exact B.
  - unfold Says in *. unfold all_of in *. cbn [fold_right] in *. destruct x as [t [e|]]; [unfold then_ in A; cbn in A; discriminate|].
    destruct (fold_right then_ (say []) l) as [t' [e|]] eqn:F; [unfold then_ in A; cbn in A; discriminate|].
    assert (T : t ++ t' = lines a) by (unfold then_, say in A; cbn in A; congruence).
    assert (F' : exists a', (t', @None exn) = say a' /\ a' = t') by (exists t'; split; reflexivity).
    clear IH. rewrite fold_right_app, B. clear B F'. 
    assert (G : forall l t', fold_right then_ (say []) l = (t', None) -> forall s, fold_right then_ (say s) l = say (t' ++ s)).
    { clear. induction l as [|[u [e|]] l IH]; intros t' F s; cbn [fold_right] in *.
      - assert (t' = []) by (unfold say in F; congruence). subst. reflexivity.
      - unfold then_ in F. cbn in F. discriminate.
      - destruct (fold_right then_ (say []) l) as [v [e|]] eqn:F'; unfold then_ in F; cbn in F; [discriminate|].
        rewrite (IH v eq_refl s). unfold then_, say. cbn. assert (t' = u ++ v) by congruence. subst. rewrite app_assoc. reflexivity. }
    rewrite (G l t' F (lines b)). unfold then_, say. cbn. rewrite app_assoc, T, lines_app. reflexivity.
Qed.
Lemma says_map {A} (f : A -> output) (g : A -> list pystr) l : (forall a, In a l -> Says (f a) (g a)) -> Says (all_of (map f l)) (List.concat (map g l)).
Proof.
  induction l as [|a l IH]; intro H; [reflexivity|]. cbn [map List.concat]. apply says_cons; [apply H; left; reflexivity|]. apply IH. intros x I. apply H. right. exact I.
Qed.
Lemma says_eq o a b : Says o a -> a = b -> Says o b.
Proof. intros A <-. exact A. Qed.

(** * Values *)
Section Values.
Variable sd : datetime -> pystr.
Definition indent_by (b : bool) (ls : list pystr) : list pystr := if b then indented ls else ls.
Definition plain (v : pyobj) : bool := match v with XDict _ | XList _ => false | _ => true end.
Lemma value_line tag v i : plain v = true -> xtruthy v = true -> Says (write_value sd tag v i) (indent_by i [tag ++ $": " ++ str_of sd v]).
Proof.
  intros P T. unfold write_value. rewrite T.
  assert (E : match v with XDict items => Ok (join $", " (map (dict_entry sd tag) items)) | XList entries => joined sd entries | _ => Ok (str_of sd v) end = Ok (str_of sd v))
    by (destruct v; first [reflexivity|discriminate P]).
  rewrite E. unfold Says. destruct i; cbn [indent_by indented map]; rewrite lines_one, <- ?app_assoc; reflexivity.
Qed.
Lemma value_none tag v i : xtruthy v = false -> Says (write_value sd tag v i) [].
Proof. intro T. unfold write_value. rewrite T. reflexivity. Qed.
Lemma value_str tag s i : Says (write_value sd tag (XStr s) i) (indent_by i (shown tag s)).
Proof. destruct s; [destruct i; apply value_none; reflexivity|]. exact (value_line tag (XStr (c :: s)) i eq_refl eq_refl). Qed.
Lemma value_opt tag o i : Says (write_value sd tag (xopt XStr o) i) (indent_by i (shown_if tag o)).
Proof. destruct o; [apply value_str|]. destruct i; apply value_none; reflexivity. Qed.
Lemma value_enum tag n i : Says (write_value sd tag (XEnum n) i) (indent_by i (member tag n)).
Proof. exact (value_line tag (XEnum n) i eq_refl eq_refl). Qed.
Lemma value_enum_opt tag o i : Says (write_value sd tag (xopt XEnum o) i) (indent_by i (member_if tag o)).
Proof. destruct o; [apply value_enum|]. destruct i; apply value_none; reflexivity. Qed.
Lemma value_date tag o : Says (write_value sd tag (xopt XDate o) false) (dated sd tag o).
Proof. destruct o; [exact (value_line tag (XDate d) false eq_refl eq_refl)|]. apply value_none. reflexivity. Qed.
Lemma texts_join l : str_of sd (xtexts l) = join $", " l.
Proof. cbn [str_of xtexts]. rewrite map_map, map_id. reflexivity. Qed.
Lemma texts_joined l : joined sd (map XStr l) = Ok (join $", " l).
Proof.
  unfold joined. assert (E : forallb is_text (map XStr l) = true) by (induction l; [reflexivity|assumption]). rewrite E.
  change (XList (map XStr l)) with (xtexts l). rewrite texts_join. reflexivity.
Qed.
Lemma value_texts tag l : Says (write_value sd tag (xtexts l) false) (listed tag l).
Proof.
  destruct l as [|s l]; [apply value_none; reflexivity|]. unfold write_value. cbn [xtexts map xtruthy]. cbv iota.
  change (XStr s :: map XStr l) with (map XStr (s :: l)). rewrite texts_joined. unfold Says. cbn [listed]. rewrite lines_one, <- !app_assoc. reflexivity.
Qed.
Lemma value_range tag o : Says (write_value sd tag (xopt range_object o) false) (range_lines tag o).
Proof.
  destruct o as [[b e]|]; [|apply value_none; reflexivity]. refine (says_eq _ _ _ (value_line tag (range_object (b, e)) false eq_refl eq_refl) _).
  reflexivity.
Qed.
Lemma indented_app a b : indented (a ++ b) = indented a ++ indented b.
Proof. apply map_app. Qed.

Definition head_line (h : pystr) (parts : list (list pystr)) : list pystr := match parts with [] => [] | _ => [h] end.
Lemma under_split h parts : under h parts = head_line h parts ++ List.concat parts.
Proof. destruct parts; reflexivity. Qed.
Lemma heading_says {A} (f : A -> pyobj) (g : A -> list pystr) h l :
  Says (write_optional_heading (XList (map f l)) (h ++ [LF])) (head_line h (map g l)).
Proof. destruct l; [reflexivity|]. apply says_line. Qed.
Lemma parts_says {A} (f : A -> pyobj) (w : pyobj -> output) (g : A -> list pystr) l : (forall a, Says (w (f a)) (g a)) ->
  Says (all_of (map w (list_of (XList (map f l))))) (List.concat (map g l)).
Proof. intro H. cbn [list_of]. rewrite map_map. apply says_map. intros a _. apply H. Qed.

Lemma hash_says h : Says (write_hash sd (hash_object h)) (hash_lines h).
Proof.
  unfold write_hash, hash_lines. rewrite indented_app.
  change (getattr (hash_object h) $"algorithm") with (XEnum (h3_alg h)).
  change (getattr (hash_object h) $"hash_value") with (XStr (h3_value h)).
  change (getattr (hash_object h) $"comment") with XNone.
  apply says_cons; [apply (value_enum _ _ true)|]. refine (says_eq _ _ _ (says_cons _ _ _ _ (value_str _ _ true) (says_cons _ _ _ _ (value_none _ XNone true eq_refl) says_nil)) _).
  cbn [app indent_by]. apply app_nil_r.
Qed.
Lemma extref_says r : Says (write_external_reference sd (extref_object r)) (reference_lines r).
Proof.
  unfold write_external_reference, write_properties, reference_lines. cbn [map].
  change (getattr (extref_object r) $"external_reference_type") with (XEnum (xr_type r)).
  change (getattr (extref_object r) $"locator") with (xtexts (xr_locator r)).
  change (getattr (extref_object r) $"content_type") with XNone.
  change (getattr (extref_object r) $"comment") with (xopt XStr (xr_comment r)).
  apply says_cons; [apply (value_enum _ _ false)|]. apply says_cons; [apply value_texts|]. apply (says_cons _ []); [apply value_none; reflexivity|].
  refine (says_eq _ _ _ (says_cons _ _ _ _ (value_opt _ _ false) says_nil) _). apply app_nil_r.
Qed.
Lemma extid_says i : Says (write_external_identifier sd (extid_object i)) (identifier_lines i).
Proof.
  unfold write_external_identifier, write_properties, identifier_lines. cbn [map].
  change (getattr (extid_object i) $"external_identifier_type") with (XEnum (xi_type i)).
  change (getattr (extid_object i) $"identifier") with (XStr (xi_identifier i)).
  change (getattr (extid_object i) $"comment") with (xopt XStr (xi_comment i)).
  change (getattr (extid_object i) $"identifier_locator") with (XList []).
  change (getattr (extid_object i) $"issuing_authority") with XNone.
  apply says_cons; [apply (value_enum _ _ false)|]. apply says_cons; [apply (value_str _ _ false)|].
  refine (says_eq _ _ _ (says_cons _ _ _ _ (value_opt _ _ false) (says_cons _ _ _ _ (value_none _ (XList []) false eq_refl) (says_cons _ _ _ _ (value_none _ XNone false eq_refl) says_nil))) _).
  cbn [app indent_by]. apply app_nil_r.
Qed.
Lemma nsmap_says m : Says (write_namespace_map sd (nsmap_object m)) (namespace_lines m).
Proof.
  unfold write_namespace_map, write_properties, namespace_lines. cbn [map].
  change (getattr (nsmap_object m) $"prefix") with (XStr (nm_prefix m)).
  change (getattr (nsmap_object m) $"namespace") with (XStr (nm_namespace m)).
  apply says_cons; [apply (value_str _ _ false)|]. refine (says_eq _ _ _ (says_cons _ _ _ _ (value_str _ _ false) says_nil) _). apply app_nil_r.
Qed.
Lemma extmap_says m : Says (write_external_map sd (extmap_object m)) (import_lines m).
Proof.
  unfold write_external_map, import_lines. rewrite under_split.
  change (getattr (extmap_object m) $"external_id") with (XStr (em_id m)).
  change (getattr (extmap_object m) $"verified_using") with (XList (map hash_object (em_verified m))).
  change (getattr (extmap_object m) $"location_hint") with XNone.
  refine (says_eq _ _ _ (says_app _ _ _ _ (says_cons _ _ _ _ (value_str _ _ false) (says_cons _ _ _ _ (heading_says hash_object hash_lines _ _) says_nil))
    (says_app _ _ _ _ (parts_says hash_object _ hash_lines _ hash_says) (says_cons _ _ _ _ (value_none _ XNone false eq_refl) says_nil))) _).
  cbn [indent_by]. rewrite !app_nil_r, <- app_assoc. reflexivity.
Qed.

(** * Creation infos *)
Lemma each_says tag l : Says (all_of (map (fun x => write_value sd tag x true) (list_of (xtexts l)))) (indented (flat_map (shown tag) l)).
Proof.
  cbn [list_of xtexts]. rewrite map_map. refine (says_eq _ _ _ (says_map _ (fun s => indented (shown tag s)) l _) _).
  - intros s _. apply (value_str _ _ true).
  - induction l as [|s l IH]; [reflexivity|]. cbn [map List.concat flat_map]. rewrite indented_app, IH. reflexivity.
Qed.
Definition Fails (o : output) (e : exn) : Prop := snd o = Some e.
Lemma fails_left a b e : Fails a e -> Fails (then_ a b) e.
Proof. unfold Fails, then_. intro F. rewrite F. exact F. Qed.
Lemma fails_right a l b e : Says a l -> Fails b e -> Fails (then_ a b) e.
Proof. unfold Fails, then_. intros -> F. exact F. Qed.

Lemma cinfo_says c s : datetime_to_iso_string (c3_created c) = Ok s -> Says (write_creation_info sd (cinfo_object c)) (creation_lines c s).
Proof.
  intro D. unfold write_creation_info, creation_lines. rewrite !indented_app.
  change (getattr (cinfo_object c) $"spec_version") with (XVersion $"3.0.0").
  change (getattr (cinfo_object c) $"created") with (XDate (c3_created c)).
  change (getattr (cinfo_object c) $"created_by") with (xtexts (c3_created_by c)).
  change (getattr (cinfo_object c) $"created_using") with (xtexts (c3_created_using c)).
  change (getattr (cinfo_object c) $"data_license") with (XStr (c3_data_license c)).
  change (getattr (cinfo_object c) $"comment") with XNone.
  cbv iota. rewrite D.
  assert (H0 : Says (write_value sd $"specVersion" (XStr (str_of sd (XVersion $"3.0.0"))) true) (indented [$"specVersion: 3.0.0"])) by reflexivity.
  assert (H1 : Says (write_value sd $"profile" (XList (map (fun x => XStr (str_of sd x)) (list_of (getattr (cinfo_object c) $"profile")))) true) (indented [$"profile: CORE, SOFTWARE, LICENSING"])) by reflexivity.
  refine (says_eq _ _ _ (says_app _ _ _ _ (says_cons _ _ _ _ (says_line _) (says_cons _ _ _ _ H0 (says_cons _ _ _ _ (value_str _ s true) says_nil)))
    (says_app _ _ _ _ (each_says _ _) (says_app _ _ _ _ (each_says _ _)
      (says_cons _ _ _ _ H1 (says_cons _ _ _ _ (value_str _ _ true) (says_cons _ _ _ _ (value_none _ XNone true eq_refl) says_nil)))))) _).
  cbn [indent_by]. rewrite !app_nil_r, <- ?app_assoc. reflexivity.
Qed.
Lemma cinfo_fails c e : datetime_to_iso_string (c3_created c) = Raise e -> Fails (write_creation_info sd (cinfo_object c)) e.
Proof.
  intro D. unfold write_creation_info.
  change (getattr (cinfo_object c) $"created") with (XDate (c3_created c)). cbv iota. rewrite D. cbn [app]. unfold all_of. cbn [fold_right].
  apply (fails_right _ _ _ _ (says_line _)). eapply fails_right; [apply value_str|]. apply fails_left. reflexivity.
Qed.
Lemma cinfo_truthy c : xtruthy (cinfo_object c) = true.
Proof. reflexivity. Qed.

(** * Elements *)
Lemma element_says o id ci ls n s d c hs rs is :
  getattr o $"spdx_id" = XStr id -> getattr o $"creation_info" = ci -> getattr o $"name" = xopt XStr n -> getattr o $"summary" = xopt XStr s ->
  getattr o $"description" = xopt XStr d -> getattr o $"comment" = xopt XStr c ->
  getattr o $"verified_using" = XList (map hash_object hs) -> getattr o $"external_reference" = XList (map extref_object rs) ->
  getattr o $"external_identifier" = XList (map extid_object is) ->
  Says (if xtruthy ci then write_creation_info sd ci else say []) ls ->
  Says (write_element_properties sd o)
       (shown $"SPDXID" id ++ shown_if $"name" n ++ ls ++ shown_if $"summary" s ++ shown_if $"description" d ++ shown_if $"comment" c
        ++ under $"verified using:" (map hash_lines hs) ++ under $"External Reference" (map reference_lines rs)
        ++ under $"External Identifier" (map identifier_lines is)).
Proof.
  intros E1 E2 E3 E4 E5 E6 E7 E8 E9 L. unfold write_element_properties. rewrite E1, E2, E3, E4, E5, E6, E7, E8, E9. rewrite !under_split.
  refine (says_eq _ _ _ (says_app _ _ _ _
    (says_cons _ _ _ _ (value_str _ _ false) (says_cons _ _ _ _ (value_opt _ _ false) (says_cons _ _ _ _ L (says_cons _ _ _ _ (value_opt _ _ false) (says_cons _ _ _ _ (value_opt _ _ false) (says_cons _ _ _ _ (value_opt _ _ false)
      (says_cons _ _ _ _ (heading_says hash_object hash_lines _ _) says_nil)))))))
    (says_app _ _ _ _ (parts_says hash_object _ hash_lines _ hash_says)
    (says_app _ _ _ _ (says_cons _ _ _ _ (heading_says extref_object reference_lines _ _) says_nil)
    (says_app _ _ _ _ (parts_says extref_object _ reference_lines _ extref_says)
    (says_app _ _ _ _ (says_cons _ _ _ _ (heading_says extid_object identifier_lines _ _) says_nil)
      (parts_says extid_object _ identifier_lines _ extid_says)))))) _).
  cbn [indent_by]. rewrite !app_nil_r, <- ?app_assoc. reflexivity.
Qed.
Lemma element_fails o id n e :
  getattr o $"spdx_id" = XStr id -> getattr o $"name" = xopt XStr n ->
  Fails (if xtruthy (getattr o $"creation_info") then write_creation_info sd (getattr o $"creation_info") else say []) e ->
  Fails (write_element_properties sd o) e.
Proof.
  intros E1 E3 L. unfold write_element_properties. cbn [app]. unfold all_of. cbn [fold_right]. rewrite E1, E3.
  eapply fails_right; [apply (value_str _ _ false)|]. eapply fails_right; [apply (value_opt _ _ false)|]. apply fails_left. exact L.
Qed.
End Values.
