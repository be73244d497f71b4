(** The console writer of SPDX 3 for all classes of the model. *)
From Verif Require Import Py Data Oracles Basics Json DocUtils Payload Typing Typing3 Typing3Spec Jsonld Jsonld3 Jsonld3Spec Console Console3Spec PyFacts TypingFacts Typing3Facts Typing3More JsonFacts Jsonld3Facts.

Definition Printed (o : output) (ps : list piece) : Prop := o = said ps.
Lemma said_app a b : said (a ++ b) = then_ (said a) (said b).
Proof.
  induction a as [|[s|e] a IH]; [cbn [app said]; destruct (said b) as [t [e|]]; reflexivity| |reflexivity]. cbn [app said]. rewrite IH.
  destruct (said a) as [t [e|]]; cbn [then_ fst snd]; [reflexivity|]. unfold then_. cbn [fst snd]. rewrite app_assoc. reflexivity.
Qed.
Lemma printed_nothing : Printed (say []) [].
Proof. reflexivity. Qed.
Lemma printed_text s : Printed (say s) [Text s].
Proof. unfold Printed, say. cbn [said fst snd]. rewrite app_nil_r. reflexivity. Qed.
Lemma printed_line s : Printed (say (s ++ [LF])) [line s].
Proof. apply printed_text. Qed.
Lemma printed_stop e : Printed ([], Some e) [Stop e].
Proof. reflexivity. Qed.
Lemma printed_then a b x y : Printed a x -> Printed b y -> Printed (then_ a b) (x ++ y).
Proof. unfold Printed. intros -> ->. symmetry. apply said_app. Qed.
Lemma printed_nil : Printed (all_of []) [].
Proof. reflexivity. Qed.
Lemma printed_cons a l x y : Printed a x -> Printed (all_of l) y -> Printed (all_of (a :: l)) (x ++ y).
Proof. apply printed_then. Qed.
Lemma then_assoc a b c : then_ (then_ a b) c = then_ a (then_ b c).
Proof.
  destruct a as [s [e|]]; [reflexivity|]. destruct b as [t [e|]]; unfold then_; cbn [fst snd]; [reflexivity|]. rewrite app_assoc. reflexivity.
Qed.
Lemma all_of_app l m : all_of (l ++ m) = then_ (all_of l) (all_of m).
Proof.
  induction l as [|a l IH]; [cbn [app]; destruct (all_of m) as [t [e|]]; reflexivity|]. cbn [app]. unfold all_of in *. cbn [fold_right]. rewrite IH. symmetry. apply then_assoc.
Qed.
Lemma printed_app l m x y : Printed (all_of l) x -> Printed (all_of m) y -> Printed (all_of (l ++ m)) (x ++ y).
Proof. intros A B. rewrite all_of_app. apply printed_then; assumption. Qed.
Lemma printed_map {A} (f : A -> output) (g : A -> list piece) l : (forall a, In a l -> Printed (f a) (g a)) -> Printed (all_of (map f l)) (flat_map g l).
Proof.
  induction l as [|a l IH]; intro H; [reflexivity|]. cbn [map flat_map]. apply printed_cons; [apply H; left; reflexivity|]. apply IH. intros x I. apply H. right. exact I.
Qed.
Lemma printed_eq o a b : Printed o a -> a = b -> Printed o b.
Proof. intros A <-. exact A. Qed.

Lemma enumerations_same c : str_in c (map fst enumerations3) = str_in c (map fst enumeration_words).
Proof. rewrite <- words_all, map_map. reflexivity. Qed.

(** * Values *)
Section Values.
Variable sd : datetime -> pystr.

Lemma assoc_attr f (i : instance) : assoc ($"_" ++ f) (map (fun fv => ($"_" ++ fst fv, object_of (snd fv))) i) = option_map object_of (assoc f i).
Proof.
  induction i as [|[g v] i IH]; [reflexivity|]. cbn [map assoc fst snd]. destruct (str_eqb f g) eqn:E.
  - apply str_eqb_eq in E. subst g. rewrite str_eqb_refl. reflexivity.
  - assert (N : str_eqb ($"_" ++ f) ($"_" ++ g) = false).
    { apply str_eqb_neq. intro X. apply app_inv_head in X. apply str_eqb_neq in E. contradiction. }
    rewrite N. exact IH.
Qed.
(** fields other than those that stand for names of members and texts of versions *)
Definition proper (f : pystr) : bool := negb (str_eqb f $"name") && negb (str_eqb f $"str").
Lemma attr_class d i f : In d classes3 -> getattr (object_of (VObj (d_name d) i)) f = object_of (field f (VObj (d_name d) i)).
Proof. intro I. rewrite (class_object _ _ I). cbn [getattr field]. rewrite assoc_attr. destruct (assoc f i); reflexivity. Qed.
Lemma attr v f : Sound v -> proper f = true -> getattr (object_of v) f = object_of (field f v).
Proof.
  intros Sv P. apply andb_true_iff in P. destruct P as [P1 P2]. apply negb_true_iff in P1, P2.
  destruct v as [|b|z|r|s|d|x|l|l|l|c i]; try reflexivity.
  destruct (sound_object _ _ Sv) as [(words & n & I & _ & E)|[[s E]|(d & ps & I & _ & -> & _)]].
  - rewrite E, (member_object _ _ _ I). cbn [getattr field member assoc]. rewrite P1. reflexivity.
  - rewrite E, version_object. cbn [getattr field version assoc]. rewrite P2. reflexivity.
  - apply attr_class. exact I.
Qed.
Lemma sound_field v f : Sound v -> Sound (field f v).
Proof.
  intro Sv. destruct v as [|b|z|r|s|d|x|l|l|l|c i]; try constructor.
  cbn [field]. destruct (assoc f i) as [w|] eqn:A; [|constructor]. apply assoc_In in A.
  destruct (sound_object _ _ Sv) as [(words & n & I & _ & E)|[[s E]|(d & ps & I & _ & _ & _ & F)]].
  - assert (E' : i = [($"name", VStr n)]) by (unfold member in E; congruence). rewrite E' in A. destruct A as [A|[]]. assert (W : w = VStr n) by congruence. rewrite W. constructor.
  - assert (E' : i = [($"str", VStr s)]) by (unfold version in E; congruence). rewrite E' in A. destruct A as [A|[]]. assert (W : w = VStr s) by congruence. rewrite W. constructor.
  - rewrite Forall_forall in F. exact (F _ A).
Qed.
Lemma sound_items v x : Sound v -> In x (items_of v) -> Sound x.
Proof. intros Sv I. destruct v; try destruct I as []. inversion Sv as [| | | | |? F| | | |]; subst. rewrite Forall_forall in F. apply F. exact I. Qed.
Lemma list_items v : Sound v -> list_of (object_of v) = map object_of (items_of v).
Proof.
  intro Sv. destruct v as [|b|z|r|s|d|x|l|l|l|c i]; try reflexivity. cbn [items_of map].
  destruct (sound_object _ _ Sv) as [(words & n & I & _ & E)|[[s E]|(d & ps & I & _ & -> & _)]].
  - rewrite E, (member_object _ _ _ I). reflexivity.
  - rewrite E, version_object. reflexivity.
  - rewrite (class_object _ _ I). reflexivity.
Qed.
Lemma truthy_empty v : Sound v -> xtruthy (object_of v) = negb (empty v).
Proof.
  intro Sv. destruct v as [|b|z|r|s|d|x|l|l|l|c i]; try (inversion Sv; fail); try reflexivity.
  - destruct b; reflexivity.
  - destruct s; reflexivity.
  - destruct l; reflexivity.
  - destruct l; reflexivity.
  - destruct (sound_object _ _ Sv) as [(words & n & I & _ & E)|[[s E]|(d & ps & I & _ & -> & _)]].
    + rewrite E, (member_object _ _ _ I). reflexivity.
    + rewrite E, version_object. reflexivity.
    + rewrite (class_object _ _ I). reflexivity.
Qed.
Lemma class_not_word d : In d classes3 -> str_in (d_name d) (map fst enumeration_words) || str_eqb (d_name d) $"Version" = false.
Proof.
  intro I. assert (C := class_names). rewrite forallb_forall in C. specialize (C d I). rewrite <- enumerations_same. apply andb_true_iff in C. destruct C as [A B].
  apply negb_true_iff in A, B. rewrite A, B. reflexivity.
Qed.
Definition num (w : pyval) : option pystr := match w with VInt z => Some (decimal z) | VBool b => Some (if b then $"True" else $"False") | _ => None end.
Lemma number_num v : Sound v -> number_of (object_of v) = num v.
Proof.
  intro Sv. destruct v as [|b|z|r|s|d|x|l|l|l|c i]; try (inversion Sv; fail); try reflexivity.
  destruct (sound_object _ _ Sv) as [(words & n & I & _ & E)|[[s E]|(d & ps & I & _ & -> & _)]].
  - rewrite E, (member_object _ _ _ I). reflexivity.
  - rewrite E, version_object. reflexivity.
  - rewrite (class_object _ _ I). reflexivity.
Qed.
Lemma text_same v : Sound v -> items_of v = [] -> str_of sd (object_of v) = text_of sd v.
Proof.
  intros Sv N. destruct v as [|b|z|r|s|d|x|l|l|l|c i]; try (inversion Sv; fail); try reflexivity.
  - cbn [items_of] in N. subst l. reflexivity.
  - destruct (sound_object _ _ Sv) as [(words & n & I & _ & E)|[[s E]|(d & ps & I & _ & -> & _)]].
    + rewrite E, (member_object _ _ _ I). unfold member. cbn [str_of text_of]. rewrite <- enumerations_same.
      destruct (words_in _ _ I) as [W _]. rewrite W. reflexivity.
    + rewrite E, version_object. unfold version. cbn [str_of text_of]. rewrite str_eqb_refl, orb_true_r. reflexivity.
    + assert (G : forall f, getattr (object_of (VObj (d_name d) i)) f = object_of (field f (VObj (d_name d) i))) by (intro f; exact (attr_class d i f I)).
      assert (O : str_of sd (object_of (VObj (d_name d) i))
        = match num (field $"begin" (VObj (d_name d) i)), num (field $"end" (VObj (d_name d) i)) with
          | Some b, Some e => d_name d ++ $"(begin=" ++ b ++ $", end=" ++ e ++ $")" | _, _ => [] end).
      { rewrite <- !number_num by (apply sound_field; exact Sv). rewrite <- !G. rewrite (class_object _ _ I). reflexivity. }
      rewrite O. cbn [text_of]. rewrite (class_not_word _ I). destruct i as [|[f w] [|y i]]; [reflexivity| |destruct w; reflexivity].
      destruct w; try reflexivity. cbn [field assoc]. destruct (str_eqb $"begin" f); [reflexivity|]. destruct (str_eqb $"end" f); reflexivity.
Qed.
Lemma text_all v : Sound v -> (forall l, v <> VList l) -> str_of sd (object_of v) = text_of sd v.
Proof. intros Sv N. apply text_same; [exact Sv|]. destruct v; try reflexivity. destruct (N l eq_refl). Qed.
Lemma texts_joined l : Forall Sound l -> joined sd (map object_of l) = match texts l with Some ss => Ok (join $", " ss) | None => Raise (EType $"sequence item") end.
Proof.
  intro F. unfold joined. cbn [str_of].
  assert (G : match texts l with
              | Some ss => forallb is_text (map object_of l) = true /\ map (fun x => match x with XStr s => s | _ => [] end) (map object_of l) = ss
              | None => forallb is_text (map object_of l) = false end).
  { induction F as [|v l Sv F IH]; [split; reflexivity|].
    assert (O : (exists s, v = VStr s) \/ (texts (v :: l) = None /\ is_text (object_of v) = false)).
    { destruct v as [|b|z|r|s|d|x|m|m|m|c i]; try (right; split; reflexivity); [left; eauto|]. right. split; [reflexivity|].
      destruct (sound_object _ _ Sv) as [(words & n & I & _ & E)|[[s E]|(d & ps & I & _ & -> & _)]].
      - rewrite E, (member_object _ _ _ I). reflexivity.
      - rewrite E, version_object. reflexivity.
      - rewrite (class_object _ _ I). reflexivity. }
    destruct O as [[s ->]|[O1 O2]].
    - cbn [texts map object_of forallb is_text]. destruct (texts l) as [ss|]; cbn [option_map].
      + destruct IH as [A B]. split; [exact A|]. cbn [map]. f_equal. exact B.
      + exact IH.
    - rewrite O1. cbn [map forallb]. rewrite O2. reflexivity. }
  destruct (texts l) as [ss|].
  - destruct G as [A B]. rewrite A, B. reflexivity.
  - rewrite G. reflexivity.
Qed.

Lemma value ind tag v : Sound v -> (forall l, v = VDict l -> Forall (fun kv => items_of (fst kv) = [] /\ items_of (snd kv) = []) l) ->
  Printed (write_value sd tag (object_of v) ind) (entry sd ind tag v).
Proof.
  intros Sv D. unfold write_value, entry. rewrite (truthy_empty _ Sv). destruct (empty v) eqn:E; [reflexivity|]. cbn [negb].
  assert (L : forall s, Printed (say ((if ind then $"  " else []) ++ tag ++ $": " ++ s ++ [LF])) [line ((if ind then $"  " else []) ++ tag ++ $": " ++ s)]).
  { intro s. refine (printed_eq _ _ _ (printed_text _) _). unfold line. rewrite <- !app_assoc. reflexivity. }
  destruct v as [|b|z|r|s|d|x|l|l|l|c i]; try (inversion Sv; fail); try discriminate E; try apply L.
  - inversion Sv as [| | | | |? F| | | |]; subst. cbn [object_of]. rewrite (texts_joined _ F). destruct (texts l); [apply L|reflexivity].
  - inversion Sv as [| | | | | |? F| | |]; subst. cbn [object_of]. specialize (D l eq_refl). refine (printed_eq _ _ _ (L _) _). do 6 f_equal. rewrite map_map.
    apply map_ext_in. intros [k w] I. cbn [fst snd]. unfold dict_entry. cbn [fst snd]. rewrite Forall_forall in F, D. destruct (F _ I) as [F1 F2]. destruct (D _ I) as [D1 D2].
    cbn [fst snd] in F1, F2, D1, D2. rewrite (text_same _ F1 D1), (text_same _ F2 D2). reflexivity.
  - rewrite <- (text_same _ Sv eq_refl).
    assert (O : forall o, match o with XDict _ | XList _ => False | _ => True end ->
      match match o with XDict items => Ok (join $", " (map (dict_entry sd tag) items)) | XList entries => joined sd entries | _ => Ok (str_of sd o) end with
      | Ok s => say ((if ind then $"  " else []) ++ tag ++ $": " ++ s ++ [LF]) | Raise e => ([], Some e) end
      = say ((if ind then $"  " else []) ++ tag ++ $": " ++ str_of sd o ++ [LF])) by (intros o X; destruct o; try destruct X; reflexivity).
    rewrite O; [apply L|].
    destruct (sound_object _ _ Sv) as [(words & n & I & _ & E')|[[s E']|(d & ps & I & _ & -> & _)]].
    + rewrite E', (member_object _ _ _ I). exact Logic.I.
    + rewrite E', version_object. exact Logic.I.
    + rewrite (class_object _ _ I). exact Logic.I.
Qed.

(** * Fields *)
(** dictionaries have only texts and None in them *)
Fixpoint flat_item (h : hint3) : bool := match h with TOr a b => flat_item a && flat_item b | TList _ => false | _ => true end.
Fixpoint flat (h : hint3) : bool :=
  match h with TOr a b => flat a && flat b | TDict a b => flat_item a && flat_item b | _ => true end.
Lemma flat_all : forallb (fun d => forallb (fun fh => flat (snd fh)) (fields_of classes3 (depth classes3) d)) classes3 = true.
Proof. vm_compute. reflexivity. Qed.
Lemma flat_item_typed h : forall v, flat_item h = true -> Typed3 classes3 h v -> items_of v = [].
Proof.
  induction h as [| | | | |c|a IHa b IHb|a IHa|a IHa b IHb]; intros v F T; cbn [Typed3 flat_item] in *.
  1-5: repeat (match goal with H : _ \/ _ |- _ => destruct H | H : exists _, _ |- _ => destruct H end); subst; reflexivity.
  - destruct T as (k & fs & -> & _). reflexivity.
  - apply andb_true_iff in F. destruct F as [Fa Fb]. destruct T as [T|T]; [exact (IHa _ Fa T)|exact (IHb _ Fb T)].
  - discriminate.
  - destruct T as (l & -> & _). reflexivity.
Qed.
Definition Flat (v : pyval) : Prop := forall l, v = VDict l -> Forall (fun kv => items_of (fst kv) = [] /\ items_of (snd kv) = []) l.
Lemma flat_typed h : forall v, flat h = true -> Typed3 classes3 h v -> Flat v.
Proof.
  induction h as [| | | | |c|a IHa b IHb|a IHa|a IHa b IHb]; intros v F T m E; cbn [Typed3 flat] in *.
  1-5: exfalso; subst v; repeat (match goal with H : _ \/ _ |- _ => destruct H | H : exists _, _ |- _ => destruct H end); discriminate.
  - destruct T as (k & fs & E' & _). congruence.
  - apply andb_true_iff in F. destruct F as [Fa Fb]. destruct T as [T|T]; [exact (IHa _ Fa T _ E)|exact (IHb _ Fb T _ E)].
  - destruct T as (l & E' & _). congruence.
  - apply andb_true_iff in F. destruct F as [Fa Fb]. destruct T as (l & E' & T). assert (l = m) by congruence. subst l.
    eapply Forall_impl; [|exact T]. intros [k w] [A B]. split; [exact (flat_item_typed _ _ Fa A)|exact (flat_item_typed _ _ Fb B)].
Qed.
Lemma typed_field c i f w : Sound (VObj c i) -> assoc f i = Some w ->
  (exists s, w = VStr s) \/ exists d h, In d classes3 /\ c = d_name d /\ assoc f (fields_of classes3 (depth classes3) d) = Some h /\ Typed3 classes3 h w.
Proof.
  intros Sv A. apply assoc_In in A. inversion Sv as [| | | | | | |c' words n I' W E|s E|d ps i' I P N T F E]; subst.
  - left. destruct A as [A|[]]. exists n. congruence.
  - left. destruct A as [A|[]]. exists s. congruence.
  - right. exists d. assert (In f (map fst i)) by (apply in_map_iff; exists (f, w); auto).
    rewrite (names_are _ _ I N) in H. destruct (assoc f (fields_of classes3 (depth classes3) d)) as [h|] eqn:A'.
    + exists h. repeat split; try assumption. apply (T f h w); [|exact A]. apply (field_iff classes3 names3 (fun d => wf_classes3 d) d f h I). exact A'.
    + exfalso. apply assoc_None in A'. exact (A' H).
Qed.
Lemma flat_field v f : Sound v -> Flat (field f v).
Proof.
  intro Sv. destruct v as [|b|z|r|s|d|x|l|l|l|c i]; try (intros m E; discriminate E). cbn [field].
  destruct (assoc f i) as [w|] eqn:A; [|intros m E; discriminate E]. destruct (typed_field _ _ _ _ Sv A) as [[s ->]|(d & h & I & _ & A' & T)]; [intros m E; discriminate E|].
  assert (F := flat_all). rewrite forallb_forall in F. specialize (F d I). rewrite forallb_forall in F. specialize (F _ (assoc_In _ _ _ A')). exact (flat_typed h w F T).
Qed.
(** the items of lists are not lists or dictionaries *)
Fixpoint atom (h : hint3) : bool := match h with TOr a b => atom a && atom b | TList _ | TDict _ _ => false | _ => true end.
Fixpoint atoms (h : hint3) : bool := match h with TOr a b => atoms a && atoms b | TList a => atom a | _ => true end.
Lemma atoms_all : forallb (fun d => forallb (fun fh => atoms (snd fh)) (fields_of classes3 (depth classes3) d)) classes3 = true.
Proof. vm_compute. reflexivity. Qed.
Definition Atom (v : pyval) : Prop := items_of v = [] /\ forall l, v <> VDict l.
Lemma atom_typed h : forall v, atom h = true -> Typed3 classes3 h v -> Atom v.
Proof.
  induction h as [| | | | |c|a IHa b IHb|a IHa|a IHa b IHb]; intros v F T; cbn [Typed3 atom] in *.
  1-5: repeat (match goal with H : _ \/ _ |- _ => destruct H | H : exists _, _ |- _ => destruct H end); subst; (split; [reflexivity|intros l E; discriminate E]).
  - destruct T as (k & fs & -> & _). split; [reflexivity|intros l E; discriminate E].
  - apply andb_true_iff in F. destruct F as [Fa Fb]. destruct T as [T|T]; [exact (IHa _ Fa T)|exact (IHb _ Fb T)].
  - discriminate.
  - discriminate.
Qed.
Lemma atoms_typed h : forall v, atoms h = true -> Typed3 classes3 h v -> Forall Atom (items_of v).
Proof.
  induction h as [| | | | |c|a IHa b IHb|a IHa|a IHa b IHb]; intros v F T; cbn [Typed3 atoms] in *.
  1-5: repeat (match goal with H : _ \/ _ |- _ => destruct H | H : exists _, _ |- _ => destruct H end); subst; constructor.
  - destruct T as (k & fs & -> & _). constructor.
  - apply andb_true_iff in F. destruct F as [Fa Fb]. destruct T as [T|T]; [exact (IHa _ Fa T)|exact (IHb _ Fb T)].
  - destruct T as (l & -> & T). cbn [items_of]. eapply Forall_impl; [|exact T]. intros x X. exact (atom_typed _ _ F X).
  - destruct T as (l & -> & _). constructor.
Qed.
Lemma atoms_field v f : Sound v -> Forall Atom (items_of (field f v)).
Proof.
  intro Sv. destruct v as [|b|z|r|s|d|x|l|l|l|c i]; try constructor. cbn [field].
  destruct (assoc f i) as [w|] eqn:A; [|constructor]. destruct (typed_field _ _ _ _ Sv A) as [[s ->]|(d & h & I & _ & A' & T)]; [constructor|].
  assert (F := atoms_all). rewrite forallb_forall in F. specialize (F d I). rewrite forallb_forall in F. specialize (F _ (assoc_In _ _ _ A')). exact (atoms_typed h w F T).
Qed.
Lemma field_value ind tag f v : Sound v -> proper f = true -> Printed (write_value sd tag (getattr (object_of v) f) ind) (entry sd ind tag (field f v)).
Proof. intros Sv P. rewrite (attr _ _ Sv P). apply value; [apply sound_field; exact Sv|exact (flat_field _ _ Sv)]. Qed.
Lemma properties names v : Sound v -> forallb proper names = true -> Printed (write_properties sd names (object_of v)) (fields sd names v).
Proof.
  intros Sv P. unfold write_properties, fields. apply printed_map. intros f I. apply field_value; [exact Sv|]. rewrite forallb_forall in P. exact (P f I).
Qed.
Lemma heading v f h ps : Sound v -> proper f = true -> Printed (say h) ps -> Printed (write_optional_heading (getattr (object_of v) f) h) (titled ps (field f v)).
Proof.
  intros Sv P H. unfold write_optional_heading, titled. rewrite (attr _ _ Sv P), (truthy_empty _ (sound_field _ _ Sv)). destruct (empty (field f v)); [reflexivity|exact H].
Qed.
Lemma each v f (w : pyobj -> output) (g : pyval -> list piece) : Sound v -> proper f = true -> (forall x, Sound x -> Printed (w (object_of x)) (g x)) ->
  Printed (all_of (map w (list_of (getattr (object_of v) f)))) (flat_map g (items_of (field f v))).
Proof.
  intros Sv P H. rewrite (attr _ _ Sv P), (list_items _ (sound_field _ _ Sv)), map_map. apply printed_map. intros x I. apply H. exact (sound_items _ _ (sound_field _ _ Sv) I).
Qed.
Lemma hash_printed v : Sound v -> Printed (write_hash sd (object_of v)) (hash_pieces sd v).
Proof.
  intro Sv. unfold write_hash, hash_pieces. cbn [flat_map]. repeat (apply printed_cons; [apply field_value; [exact Sv|reflexivity]|]). apply printed_nil.
Qed.
Lemma import_printed v : Sound v -> Printed (write_external_map sd (object_of v)) (import_pieces sd v).
Proof.
  intro Sv. unfold write_external_map, import_pieces, fields. cbn [flat_map]. rewrite !app_nil_r.
  refine (printed_eq _ _ _ (printed_app _ _ _ _ (printed_cons _ _ _ _ (field_value false _ $"external_id" v Sv eq_refl) (printed_cons _ _ _ _ (heading v $"verified_using" _ _ Sv eq_refl (printed_line _)) printed_nil))
    (printed_app _ _ _ _ (each v $"verified_using" _ _ Sv eq_refl hash_printed) (printed_cons _ _ _ _ (field_value false _ $"location_hint" v Sv eq_refl) printed_nil))) _).
  rewrite !app_nil_r, <- !app_assoc. reflexivity.
Qed.
Lemma profile_printed l : Forall Sound l -> Forall (fun x => items_of x = []) l ->
  Printed (write_value sd $"profile" (XList (map (fun x => XStr (str_of sd x)) (map object_of l))) true) (entry sd true $"profile" (VList (map (fun x => VStr (text_of sd x)) l))).
Proof.
  intros F N. refine (eq_ind _ (fun o => Printed (write_value sd $"profile" o true) _) (value true $"profile" (VList (map (fun x => VStr (text_of sd x)) l)) _ _) _ _).
  - constructor. apply Forall_forall. intros x I. apply in_map_iff in I. destruct I as (y & <- & _). constructor.
  - intros m E. discriminate E.
  - cbn [object_of]. f_equal. rewrite !map_map. apply map_ext_in. intros x I. cbn [object_of]. rewrite Forall_forall in F, N. rewrite (text_same _ (F x I) (N x I)). reflexivity.
Qed.
Lemma versions_atom : forallb (fun d => match assoc $"spec_version" (fields_of classes3 (depth classes3) d) with Some h => atom h | None => true end) classes3 = true.
Proof. vm_compute. reflexivity. Qed.
Lemma each_item v f tag : Sound v -> proper f = true ->
  Printed (all_of (map (fun x => write_value sd tag x true) (list_of (getattr (object_of v) f)))) (flat_map (entry sd true tag) (items_of (field f v))).
Proof.
  intros Sv P. rewrite (attr _ _ Sv P), (list_items _ (sound_field _ _ Sv)), map_map. apply printed_map. intros x I.
  apply value; [exact (sound_items _ _ (sound_field _ _ Sv) I)|]. assert (A := atoms_field v f Sv). rewrite Forall_forall in A. destruct (A x I) as [_ N]. intros l E. destruct (N l E).
Qed.
Lemma creation_printed v : Sound v -> Printed (write_creation_info sd (object_of v)) (creation_pieces sd v).
Proof.
  intro Sv. unfold write_creation_info, creation_pieces. cbn [app].
  apply (printed_cons _ _ [line $"# Creation Information"]); [apply printed_line|].
  apply printed_cons.
  { rewrite (attr v $"spec_version" Sv eq_refl). assert (N : forall l, field $"spec_version" v <> VList l).
    { intros l E. destruct v as [|b|z|r|s|d|x|m|m|m|c i]; try discriminate E. cbn [field] in E. destruct (assoc $"spec_version" i) as [w|] eqn:A; [|discriminate E]. subst w.
      destruct (typed_field _ _ _ _ Sv A) as [[s X]|(d & h & I & _ & A' & T)]; [discriminate X|].
      assert (F := versions_atom). rewrite forallb_forall in F. specialize (F d I). rewrite A' in F. destruct (atom_typed _ _ F T) as [X _]. cbn [items_of] in X. 
      assert (Z : forall m, atom h = true -> Typed3 classes3 h (VList m) -> False) by (clear; intros m; induction h; intros F T; cbn [Typed3 atom] in *;
        repeat (match goal with H : _ \/ _ |- _ => destruct H | H : exists _, _ |- _ => destruct H | H : _ /\ _ |- _ => destruct H | H : _ && _ = true |- _ => apply andb_true_iff in H end); try discriminate; auto).
      exact (Z l F T). }
    rewrite (text_all _ (sound_field _ _ Sv) N).
    refine (value true $"specVersion" (VStr (text_of sd (field $"spec_version" v))) (so_str _) _). intros l E. discriminate E. }
  apply printed_cons.
  { rewrite (attr v $"created" Sv eq_refl). assert (Sf := sound_field v $"created" Sv). destruct (field $"created" v) as [|b|z|r|s|d|x|m|m|m|c i]; try (inversion Sf; fail); try reflexivity.
    - cbn [object_of]. destruct (datetime_to_iso_string d) as [s|e]; [|reflexivity]. refine (value true $"created" (VStr s) (so_str _) _). intros l E. discriminate E.
    - destruct (sound_object _ _ Sf) as [(words & n & I & _ & E)|[[s E]|(d & ps & I & _ & -> & _)]].
      + rewrite E, (member_object _ _ _ I). reflexivity.
      + rewrite E, version_object. reflexivity.
      + rewrite (class_object _ _ I). reflexivity. }
  apply printed_app; [exact (each_item v $"created_by" _ Sv eq_refl)|]. apply printed_app; [exact (each_item v $"created_using" _ Sv eq_refl)|].
  apply printed_cons.
  { rewrite (attr v $"profile" Sv eq_refl), (list_items _ (sound_field _ _ Sv)). apply profile_printed.
    - apply Forall_forall. intros x I. exact (sound_items _ _ (sound_field _ _ Sv) I).
    - eapply Forall_impl; [|exact (atoms_field v _ Sv)]. intros x [X _]. exact X. }
  apply printed_cons; [exact (field_value true _ $"data_license" v Sv eq_refl)|].
  refine (printed_eq _ _ _ (printed_cons _ _ _ _ (field_value true _ $"comment" v Sv eq_refl) printed_nil) _). apply app_nil_r.
Qed.
End Values.
