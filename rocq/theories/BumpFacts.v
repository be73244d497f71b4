(** Facts about payloads and the pieces of the conversion to SPDX 3. *)
From Verif Require Import Py Data Oracles DocUtils Payload Bump BumpSpec PyFacts.
From Verif Require GraphFacts LoadingFacts JsonFacts.

(** * Payload *)
Lemma set_nth_length {A} i (x : A) l : List.length (set_nth i x l) = List.length l.
Proof. revert i; induction l as [|y l IH]; intros [|i]; cbn; auto. Qed.
Lemma set_nth_nth {A} i (x : A) l j : nth_error (set_nth i x l) j = if Nat.eqb j i then (if Nat.ltb i (List.length l) then Some x else None) else nth_error l j.
Proof.
  revert i j; induction l as [|y l IH]; intros [|i] [|j]; cbn; auto.
  - destruct (Nat.eqb j i); reflexivity.
  - rewrite IH. reflexivity.
Qed.
Lemma dict_at_set h p q m : dict_at (set_nth p m h) q = if Nat.eqb q p then (if Nat.ltb p (List.length h) then m else []) else dict_at h q.
Proof.
  unfold dict_at. revert p q; induction h as [|y h IH]; intros [|p] [|q]; cbn; auto.
  - destruct (Nat.eqb q p); reflexivity.
  - exact (IH p q).
Qed.
Lemma payload_add_length h p id e : List.length (payload_add h p id e) = List.length h.
Proof. apply set_nth_length. Qed.
Lemma adds_length h p calls : List.length (adds h p calls) = List.length h.
Proof. revert h; induction calls as [|c calls IH]; intro h; cbn; [reflexivity|]. unfold adds in IH. rewrite IH. apply payload_add_length. Qed.

Lemma dict_at_adds h p calls : p < List.length h -> dict_at (adds h p calls) p = dict_update (dict_at h p) calls.
Proof.
  revert h; induction calls as [|c calls IH]; intros h Hp; [reflexivity|].
  change (adds h p (c :: calls)) with (adds (payload_add h p (fst c) (snd c)) p calls).
  rewrite IH by (rewrite payload_add_length; exact Hp).
  unfold payload_add at 1. rewrite dict_at_set, Nat.eqb_refl. apply Nat.ltb_lt in Hp; rewrite Hp. reflexivity.
Qed.
Lemma dict_at_adds_other h p q calls : q <> p -> dict_at (adds h p calls) q = dict_at h q.
Proof.
  intro H. revert h; induction calls as [|c calls IH]; intros h; [reflexivity|].
  change (adds h p (c :: calls)) with (adds (payload_add h p (fst c) (snd c)) p calls).
  rewrite IH. unfold payload_add. rewrite dict_at_set. apply Nat.eqb_neq in H; rewrite H. reflexivity.
Qed.

Lemma dict_update_untouched {A} (calls l : list (pystr * A)) id : ~ In id (map fst calls) -> assoc id (dict_update l calls) = assoc id l.
Proof.
  revert l; induction calls as [|[k v] calls IH]; intros l H; [reflexivity|].
  cbn in H. change (dict_update l ((k, v) :: calls)) with (dict_update (dict_set k v l) calls).
  rewrite IH by tauto. apply assoc_dict_set_other. intro; subst; tauto.
Qed.
Lemma dict_update_last {A} (before after l : list (pystr * A)) id e : ~ In id (map fst after) ->
  assoc id (dict_update l (before ++ (id, e) :: after)) = Some e.
Proof.
  intro H. unfold dict_update. rewrite fold_left_app. cbn [fold_left fst snd].
  pose proof (dict_update_untouched after (dict_set id e (fold_left (fun acc kv => dict_set (fst kv) (snd kv) acc) before l)) id H) as E.
  unfold dict_update in E. rewrite E. apply assoc_dict_set_same.
Qed.

Lemma payload_last h p calls id e : p < List.length h -> LastAdded id e calls -> payload_get (adds h p calls) p id = Ok e.
Proof.
  intros Hp [before after -> H]. unfold payload_get. rewrite dict_at_adds by exact Hp.
  rewrite dict_update_last by exact H. reflexivity.
Qed.
Lemma payload_never h p calls id : p < List.length h -> ~ In id (map fst calls) ->
  payload_get (adds h p calls) p id = payload_get h p id.
Proof. intros Hp H. unfold payload_get. rewrite dict_at_adds by exact Hp. rewrite dict_update_untouched by exact H. reflexivity. Qed.
Lemma last_added_or calls (id : pystr) : (exists e, LastAdded id e calls) \/ ~ In id (map fst calls).
Proof.
  induction calls as [|[k v] calls IH] using rev_ind; [right; intros []|].
  destruct (str_eqb id k) eqn:E.
  - apply str_eqb_eq in E; subst. left; exists v. apply (last_added _ _ _ calls []); [reflexivity|intros []].
  - apply str_eqb_neq in E. destruct IH as [[e [b a -> H]]|H].
    + left; exists e. apply (last_added _ _ _ b (a ++ [(k, v)])); [rewrite <- app_assoc; reflexivity|].
      rewrite map_app, in_app_iff. cbn. intros [|[|[]]]; [tauto|congruence].
    + right. rewrite map_app, in_app_iff. cbn. intros [|[|[]]]; [tauto|congruence].
Qed.

Lemma dict_at_new h : dict_at (h ++ [[]]) (List.length h) = [].
Proof. unfold dict_at. rewrite app_nth2, Nat.sub_diag by lia. reflexivity. Qed.
Lemma dict_at_old h q : dict_at (h ++ [[]]) q = dict_at h q.
Proof.
  unfold dict_at. destruct (Nat.lt_ge_cases q (List.length h)) as [H|H]; [apply app_nth1; exact H|].
  rewrite app_nth2 by exact H. rewrite (nth_overflow h) by exact H. destruct (q - List.length h) as [|[|]]; reflexivity.
Qed.
Lemma payload_new h calls id h' p : payload_init h None = (h', p) ->
  match payload_get (adds h' p calls) p id with
  | Ok e => LastAdded id e calls
  | Raise x => x = EKey id /\ ~ In id (map fst calls)
  end.
Proof.
  cbn. intro E; injection E as <- <-.
  assert (L : List.length h < List.length (h ++ [[]])) by (rewrite app_length; cbn; lia).
  destruct (last_added_or calls id) as [[e H]|H].
  - rewrite (payload_last _ _ _ _ _ L H). exact H.
  - rewrite (payload_never _ _ _ _ L H). unfold payload_get. rewrite dict_at_new. split; [reflexivity|exact H].
Qed.
Lemma payload_isolated h p q calls id : q <> p -> payload_get (adds h p calls) q id = payload_get h q id.
Proof. intro H. unfold payload_get. rewrite dict_at_adds_other by exact H. reflexivity. Qed.
Lemma payload_shared h a : dict_at h a <> [] -> payload_init h (Some a) = (h, a).
Proof. intro H. unfold payload_init. destruct (dict_at h a); [congruence|reflexivity]. Qed.
Lemma payload_not_shared h a calls h' p : dict_at h a = [] -> payload_init h (Some a) = (h', p) -> a < List.length h ->
  dict_at (adds h' p calls) a = [].
Proof.
  intros H E L. unfold payload_init in E. rewrite H in E. cbn in E. injection E as <- <-.
  rewrite dict_at_adds_other by lia. rewrite dict_at_old. exact H.
Qed.
Lemma payload_order h calls h' p : payload_init h None = (h', p) ->
  NoDup (map fst (payload_full_map (adds h' p calls) p)) /\
  (forall id, In id (map fst (payload_full_map (adds h' p calls) p)) <-> In id (map fst calls)).
Proof.
  cbn. intro E; injection E as <- <-.
  assert (L : List.length h < List.length (h ++ [[]])) by (rewrite app_length; cbn; lia).
  unfold payload_full_map. rewrite dict_at_adds by exact L. rewrite dict_at_new.
  induction calls as [|[k v] calls [IHn IHi]] using rev_ind; [split; [constructor|cbn; tauto]|].
  unfold dict_update in *. rewrite fold_left_app. cbn [fold_left fst snd]. split.
  - apply GraphFacts.nodup_set; exact IHn.
  - intro id. rewrite GraphFacts.keys_set, IHi, map_app, in_app_iff. cbn. intuition congruence.
Qed.

(** * Checksums *)
Lemma convert_algorithm a : convert_checksum_algorithm_to_hash_algorithm a = Ok (hash_name a).
Proof. destruct a; vm_compute; reflexivity. Qed.
Lemma hash_name_known a : In (hash_name a) HashAlgorithm.
Proof. destruct a; vm_compute; tauto. Qed.
Lemma hash_name_injective a b : hash_name a = hash_name b -> a = b.
Proof. destruct a, b; intro H; try reflexivity; vm_compute in H; discriminate. Qed.
Lemma bump_checksum_is c : bump_checksum c = Ok (hash_of c).
Proof. unfold bump_checksum. rewrite convert_algorithm. reflexivity. Qed.
Lemma bump_checksums l : map_result bump_checksum l = Ok (map hash_of l).
Proof. induction l as [|c l IH]; cbn [map_result map]; [reflexivity|]. rewrite bump_checksum_is, IH. reflexivity. Qed.

(** * Licenses *)
Section Licenses.
  Variable O : oracles.
  Variable infos : list extracted.

  Lemma info_first key : FirstInfo infos key (info_for infos key).
  Proof.
    unfold info_for. set (P := fun e => match el_id e with Some i => str_eqb i key | None => false end).
    assert (HP : forall e, P e = true <-> el_id e = Some key).
    { intro e; unfold P. destruct (el_id e); [rewrite str_eqb_eq; split; congruence|split; discriminate]. }
    assert (G : forall l, match find P l with
                          | Some e => exists b a, l = b ++ e :: a /\ el_id e = Some key /\ (forall x, In x b -> el_id x <> Some key)
                          | None => forall x, In x l -> el_id x <> Some key end).
    { induction l as [|e l IH]; cbn; [tauto|]. destruct (P e) eqn:E.
      - apply HP in E. exists [], l. repeat split; auto.
      - assert (el_id e <> Some key) by (rewrite <- HP, E; discriminate).
        destruct (find P l) as [y|].
        + destruct IH as (b & a & -> & H1 & H2). exists (e :: b), a. repeat split; auto. intros x [<-|]; auto.
        + intros x [<-|]; auto. }
    specialize (G infos). destruct (find P infos) as [e|].
    - destruct G as (b & a & E & H1 & H2). exact (first_info _ _ _ _ _ E H1 H2).
    - exact (no_info _ _ G).
  Qed.
  Lemma bump_symbol_means key : SymbolMeans O infos key (bump_symbol O infos key).
  Proof.
    unfold bump_symbol. destruct (o_invalid_symbols O (LSym key)) as [|s l] eqn:E; [constructor; exact E|].
    assert (N : ~ listed O key) by (unfold listed; rewrite E; discriminate).
    pose proof (info_first key) as F. destruct (info_for infos key) as [e|].
    - assert (el_id e = Some key) as K by (inversion F; subst; assumption).
      pose proof (means_custom O infos key _ N F) as M. unfold info_name, info_text in M.
      unfold text_of_opt at 1. rewrite K. exact M.
    - exact (means_custom O infos key _ N F).
  Qed.
  Lemma bump_exception_means key : AdditionMeans O infos key (bump_license_exception O infos key).
  Proof.
    unfold bump_license_exception. destruct (o_invalid_symbols O (LSym key)) as [|s l] eqn:E; [constructor; exact E|].
    assert (N : ~ listed O key) by (unfold listed; rewrite E; discriminate).
    pose proof (info_first key) as F. destruct (info_for infos key) as [e|].
    - assert (el_id e = Some key) as K by (inversion F; subst; assumption).
      pose proof (adds_custom O infos key _ N F) as M. unfold info_name, info_text in M.
      unfold text_of_opt at 1. rewrite K. exact M.
    - exact (adds_custom O infos key _ N F).
  Qed.
  Lemma bump_license_means : forall e, Means O infos e (bump_license_expression O infos e).
  Proof.
    fix IH 1. intros [k|l x|es|es]; cbn [bump_license_expression].
    - constructor. apply bump_symbol_means.
    - constructor; [apply bump_symbol_means|apply bump_exception_means].
    - constructor. induction es as [|e es IHes]; cbn [map]; constructor; [exact (IH e)|exact IHes].
    - constructor. induction es as [|e es IHes]; cbn [map]; constructor; [exact (IH e)|exact IHes].
  Qed.
  Lemma symbol_means_key key key' l : SymbolMeans O infos key l -> SymbolMeans O infos key' l -> key = key'.
  Proof. intros H H'. inversion H; subst; inversion H'; congruence. Qed.
  Lemma addition_means_key key key' l : AdditionMeans O infos key l -> AdditionMeans O infos key' l -> key = key'.
  Proof. intros H H'. inversion H; subst; inversion H'; congruence. Qed.
  Lemma means_injective : forall e e' l, Means O infos e l -> Means O infos e' l -> e = e'.
  Proof.
    fix IH 1. intros e e' l H H'. destruct e as [k|k x|es|es].
    - inversion H as [key l0 S| | |]; subst. inversion H' as [key' l' S'| | |]; subst.
      + f_equal. exact (symbol_means_key _ _ _ S S').
      + exfalso; inversion S.
      + exfalso; inversion S.
      + exfalso; inversion S.
    - inversion H as [|key exc l0 a S A| |]; subst. inversion H' as [key' l' S'|key' exc' l' a' S' A'| |]; subst.
      + exfalso; inversion S'.
      + rewrite (symbol_means_key _ _ _ S S'), (addition_means_key _ _ _ A A'). reflexivity.
    - inversion H as [| |es0 ls F|]; subst. inversion H' as [key' l' S'| |es' ls' F'|]; subst; [exfalso; inversion S'|].
      f_equal. clear H H'. revert ls F es' F'. induction es as [|e es IHes]; intros ls F es' F'.
      + inversion F; subst. inversion F'; subst. reflexivity.
      + inversion F as [|? ? ? ? He Fe]; subst. inversion F' as [|? ? ? ? He' Fe']; subst.
        f_equal; [exact (IH _ _ _ He He')|exact (IHes _ Fe _ Fe')].
    - inversion H as [| | |es0 ls F]; subst. inversion H' as [key' l' S'| | |es' ls' F']; subst; [exfalso; inversion S'|].
      f_equal. clear H H'. revert ls F es' F'. induction es as [|e es IHes]; intros ls F es' F'.
      + inversion F; subst. inversion F'; subst. reflexivity.
      + inversion F as [|? ? ? ? He Fe]; subst. inversion F' as [|? ? ? ? He' Fe']; subst.
        f_equal; [exact (IH _ _ _ He He')|exact (IHes _ Fe _ Fe')].
  Qed.
  Lemma bump_license_injective e e' : bump_license_expression O infos e = bump_license_expression O infos e' -> e = e'.
  Proof. intro H. apply (means_injective e e' (bump_license_expression O infos e)); [|rewrite H]; apply bump_license_means. Qed.
End Licenses.

(** * One relationship *)
Lemma mapping_table t :
  match relationship_mapping t with
  | Some p => type3 t = Some (rp_type p) /\ (rp_swap p = true <-> turned_around t)
              /\ (rp_dependency p = true <-> type3 t = Some $"DEPENDS_ON")
  | None => type3 t = None
  end.
Proof.
  destruct t; cbn [relationship_mapping plain swapped dependency rp_type rp_swap rp_dependency type3]; try reflexivity;
    (split; [reflexivity|]); (split; split; intro H); try reflexivity; try discriminate H;
    try (vm_compute in H; intuition discriminate); vm_compute; tauto.
Qed.

Lemma bump_dropped r ns i : type3 (re_type r) = None -> bump_relationship r ns i = None.
Proof.
  intro H. pose proof (mapping_table (re_type r)) as T. unfold bump_relationship.
  destruct (determine_completeness_and_to (re_related r)). destruct (relationship_mapping (re_type r)); [|reflexivity].
  destruct T as [T _]. congruence.
Qed.

Lemma bump_forward r ns i t b : type3 (re_type r) = Some t -> ~ turned_around (re_type r) -> re_related r = NVal b ->
  exists x, bump_relationship r ns i = Some x /\ r3_id x = relationship_id ns i /\ r3_from x = here ns (re_id r)
            /\ r3_type x = t /\ r3_to x = [here ns b] /\ r3_comment x = re_comment r /\ r3_completeness x = None.
Proof.
  intros Ht N Hb. pose proof (mapping_table (re_type r)) as T. unfold bump_relationship. rewrite Hb. cbn [determine_completeness_and_to].
  destruct (relationship_mapping (re_type r)) as [p|]; [|congruence]. destruct T as (T & S & _).
  assert (E : rp_swap p = false) by (destruct (rp_swap p); [tauto|reflexivity]). rewrite E.
  eexists; split; [reflexivity|]. cbn. assert (rp_type p = t) by congruence. subst. destruct (rp_dependency p); repeat split.
Qed.

Lemma bump_turned r ns i t b : type3 (re_type r) = Some t -> turned_around (re_type r) -> re_type r <> RT_DEPENDENCY_OF ->
  re_related r = NVal b ->
  exists x, bump_relationship r ns i = Some x /\ r3_id x = relationship_id ns i /\ r3_from x = here ns b
            /\ r3_type x = t /\ r3_to x = [here ns (re_id r)] /\ r3_comment x = re_comment r /\ r3_completeness x = None.
Proof.
  intros Ht N D Hb. pose proof (mapping_table (re_type r)) as T. unfold bump_relationship. rewrite Hb. cbn [determine_completeness_and_to].
  assert (E : rel_type_eqb (re_type r) RT_DEPENDENCY_OF = false) by (unfold rel_type_eqb; destruct rel_type_eq_dec; congruence).
  destruct (relationship_mapping (re_type r)) as [p|] eqn:Em; [|congruence]. destruct T as (T & S & _).
  apply S in N as N'. rewrite N'.
  assert (P : rp_dependency p = false).
  { clear - N D Em. destruct (re_type r); try congruence; cbn in N; try (exfalso; intuition discriminate); injection Em as <-; reflexivity. }
  eexists; split; [reflexivity|]. cbn [r3_id r3_from r3_type r3_to r3_comment r3_completeness map]. rewrite P.
  assert (rp_type p = t) by congruence. subst. repeat split.
Qed.

Lemma bump_dependency_of a b c ns i :
  exists x, bump_relationship {| re_id := a; re_type := RT_DEPENDENCY_OF; re_related := NVal b; re_comment := c |} ns i = Some x
            /\ r3_from x = here ns a /\ r3_to x = [here ns a].
Proof. eexists; split; [reflexivity|]. split; reflexivity. Qed.

Lemma bump_no_target r ns i t : type3 (re_type r) = Some t -> ~ turned_around (re_type r) ->
  re_related r = NNone \/ re_related r = NNoAssertion ->
  exists x, bump_relationship r ns i = Some x /\ r3_id x = relationship_id ns i /\ r3_from x = here ns (re_id r)
            /\ r3_type x = t /\ r3_to x = [] /\ r3_comment x = re_comment r
            /\ r3_completeness x = Some (match re_related r with NNone => $"COMPLETE" | _ => $"NOASSERTION" end).
Proof.
  intros Ht N Hb. pose proof (mapping_table (re_type r)) as T. unfold bump_relationship.
  destruct (relationship_mapping (re_type r)) as [p|]; [|congruence]. destruct T as (T & S & _).
  assert (E : rp_swap p = false) by (destruct (rp_swap p); [tauto|reflexivity]). rewrite E.
  assert (rp_type p = t) by congruence. subst t.
  destruct Hb as [-> | ->]; (eexists; split; [reflexivity|]); cbn; destruct (rp_dependency p); repeat split.
Qed.

Lemma bump_turned_no_target r ns i : turned_around (re_type r) ->
  re_related r = NNone \/ re_related r = NNoAssertion -> bump_relationship r ns i = None.
Proof.
  intros N Hb. pose proof (mapping_table (re_type r)) as T. unfold bump_relationship.
  destruct (relationship_mapping (re_type r)) as [p|]; [|destruct Hb as [-> | ->]; reflexivity].
  destruct T as (T & S & _). apply S in N. rewrite N. destruct Hb as [-> | ->]; reflexivity.
Qed.

Lemma bump_id r ns i x : bump_relationship r ns i = Some x -> r3_id x = relationship_id ns i.
Proof.
  unfold bump_relationship. destruct (determine_completeness_and_to (re_related r)) as [c to].
  destruct (relationship_mapping (re_type r)) as [p|]; [|discriminate].
  destruct (rp_swap p); [destruct to; [discriminate|]|]; intro E; injection E as <-; reflexivity.
Qed.
