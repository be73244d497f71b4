(** Facts about reading the serialised forms. *)
From Verif Require Import Py Data Oracles Json JsonParse JsonSpec Loading LoadingSpec PyFacts JsonFacts JsonShape JsonMore.

Lemma json_rect' (P : json -> Prop) :
  P JNull -> (forall b, P (JBool b)) -> (forall z, P (JInt z)) -> (forall r, P (JFloat r)) -> (forall s, P (JStr s)) ->
  (forall l, Forall P l -> P (JArr l)) -> (forall kvs, Forall (fun kv => P (snd kv)) kvs -> P (JObj kvs)) -> forall j, P j.
Proof.
  intros H1 H2 H3 H4 H5 H6 H7. fix IH 1. intros [|b|z|r|s|l|kvs]; [exact H1|exact (H2 b)|exact (H3 z)|exact (H4 r)|exact (H5 s)| |].
  - apply H6. induction l as [|x l IHl]; constructor; [exact (IH x)|exact IHl].
  - apply H7. induction kvs as [|[k v] kvs IHl]; constructor; [exact (IH v)|exact IHl].
Qed.

(** ** Dicts *)
Lemma firsts_ext l : forall seen seen', (forall x, In x seen <-> In x seen') -> firsts seen l = firsts seen' l.
Proof.
  induction l as [|x l IH]; intros seen seen' H; cbn [firsts]; [reflexivity|].
  replace (str_in x seen') with (str_in x seen).
  - destruct (str_in x seen); [apply IH; exact H|]. f_equal. apply IH. intro y. cbn. rewrite H. reflexivity.
  - destruct (str_in x seen) eqn:A, (str_in x seen') eqn:B; auto; [apply str_in_In in A; apply str_in_false in B|apply str_in_false in A; apply str_in_In in B]; rewrite H in A; contradiction.
Qed.
Lemma dict_set_fst {A} k (v : A) l : map fst (dict_set k v l) = if str_in k (map fst l) then map fst l else map fst l ++ [k].
Proof.
  induction l as [|[k' v'] l IH]; cbn [dict_set map]; [reflexivity|]. unfold str_in in *. cbn [existsb fst]. destruct (str_eqb k k'); cbn [orb map fst]; [reflexivity|].
  rewrite IH. destruct (existsb (str_eqb k) (map fst l)); reflexivity.
Qed.
Lemma dict_set_assoc {A} k (v : A) l k' : assoc k' (dict_set k v l) = if str_eqb k' k then Some v else assoc k' l.
Proof.
  induction l as [|[k0 v0] l IH]; cbn [dict_set assoc]; [reflexivity|]. destruct (str_eqb k k0) eqn:E; cbn [assoc].
  - apply str_eqb_eq in E. subst k0. destruct (str_eqb k' k); reflexivity.
  - rewrite IH. destruct (str_eqb k' k0) eqn:F; [|reflexivity]. apply str_eqb_eq in F. subst k0. rewrite str_eqb_sym, E. reflexivity.
Qed.
Lemma dict_fold ps : forall acc,
  let d := fold_left (fun acc kv => dict_set (fst kv) (snd kv) acc) ps acc : list (pystr * json) in
  map fst d = map fst acc ++ firsts (map fst acc) (map fst ps)
  /\ forall k, assoc k d = match assoc k (rev ps) with Some v => Some v | None => assoc k acc end.
Proof.
  induction ps as [|[k v] ps IH]; intro acc; cbn [fold_left fst snd].
  - cbn. rewrite app_nil_r. auto.
  - destruct (IH (dict_set k v acc)) as [I1 I2]. cbv zeta. split.
    + rewrite I1, dict_set_fst. cbn [map fst firsts]. destruct (str_in k (map fst acc)); [reflexivity|]. rewrite <- app_assoc. cbn [app]. f_equal. f_equal. apply firsts_ext.
      intro x. rewrite in_app_iff. cbn. tauto.
    + intro k'. rewrite I2, dict_set_assoc. cbn [rev]. rewrite assoc_app. cbn [assoc]. destruct (assoc k' (rev ps)); [reflexivity|]. destruct (str_eqb k' k); reflexivity.
Qed.
Lemma dict_of_spec ps : DictOf ps (dict_of ps).
Proof.
  destruct (dict_fold ps []) as [A B]. split; [exact A|]. intro k. unfold dict_of. rewrite B. destruct (assoc k (rev ps)); reflexivity.
Qed.
Lemma same_dict (l m : list (pystr * json)) : map fst l = map fst m -> NoDup (map fst l) -> (forall k, assoc k l = assoc k m) -> l = m.
Proof.
  revert m. induction l as [|[k v] l IH]; intros [|[k' v'] m] E N H; try discriminate; [reflexivity|]. cbn in E. injection E as <- E.
  cbn in N. apply NoDup_cons_iff in N. destruct N as [N1 N2]. pose proof (H k) as Hk. cbn in Hk. rewrite str_eqb_refl in Hk. injection Hk as <-. f_equal.
  apply IH; [exact E|exact N2|]. intro x. specialize (H x). cbn in H. destruct (str_eqb x k) eqn:F; [|exact H]. apply str_eqb_eq in F. subst x.
  rewrite !assoc_notin; [reflexivity| |]; [rewrite <- E|]; exact N1.
Qed.
Lemma DictOf_fun ps l m : DictOf ps l -> DictOf ps m -> l = m.
Proof.
  intros [A1 A2] [B1 B2]. apply same_dict; [congruence| |intro; rewrite A2, B2; reflexivity]. rewrite A1. apply firsts_NoDup.
Qed.
Lemma DictOf_self l : NoDup (map fst l) -> DictOf l l.
Proof.
  intro N. split.
  - assert (G : forall seen k, NoDup k -> (forall x, In x k -> ~ In x seen) -> firsts seen k = k).
    { clear. intros seen k N. revert seen. induction N as [|x k X N IH]; intros seen H; cbn [firsts]; [reflexivity|].
      rewrite (proj2 (str_in_false x seen)) by (apply H; left; reflexivity). f_equal. apply IH. intros y Y [->|Z]; [contradiction|]. apply (H y); [right; exact Y|exact Z]. }
    symmetry. apply G; [exact N|]. intros x _ [].
  - intro k. induction l as [|[k' v] l IH]; [reflexivity|]. cbn [map fst] in N. apply NoDup_cons_iff in N. destruct N as [N1 N2].
    cbn [rev]. rewrite assoc_app, <- (IH N2). cbn [assoc]. destruct (str_eqb k k') eqn:E; [|destruct (assoc k l); reflexivity]. apply str_eqb_eq in E. subst k'.
    rewrite (assoc_notin k l N1). reflexivity.
Qed.

(** ** Control characters *)
Lemma translate_spec s : Stripped s (translate_control s).
Proof.
  induction s as [|c s IH]; cbn; [constructor|]. destruct (N.eqb_spec c 8) as [->|A]; [constructor; [left; reflexivity|exact IH]|].
  destruct (N.eqb_spec c 12) as [->|B]; [constructor; [right; reflexivity|exact IH]|]. constructor; assumption.
Qed.
Lemma Stripped_fun s t : Stripped s t -> t = translate_control s.
Proof.
  induction 1 as [|c s t [-> | ->] _ IH|c s t A B _ IH]; cbn; auto. apply N.eqb_neq in A, B. unfold BACKSPACE, FORM_FEED in A, B. rewrite A, B. cbn. f_equal. exact IH.
Qed.
Lemma translate_clean s : NoControl (translate_control s).
Proof. split; intro H; apply filter_In in H; destruct H as [_ H]; discriminate. Qed.
Lemma translate_id s : NoControl s -> translate_control s = s.
Proof.
  intros [A B]. induction s as [|c s IH]; cbn; [reflexivity|].
  destruct (N.eqb_spec c 8) as [->|]; [exfalso; apply A; left; reflexivity|]. destruct (N.eqb_spec c 12) as [->|]; [exfalso; apply B; left; reflexivity|]. cbn. f_equal.
  apply IH; intro H; [apply A|apply B]; right; exact H.
Qed.
Lemma load_both j : Loaded false j (json_load j) /\ Loaded true j (remove_control_chars (json_load j)).
Proof.
  induction j as [|b|z|r|s|l IH|kvs IH] using json_rect'; cbn [json_load remove_control_chars]; try (split; constructor; fail).
  - split; constructor. apply translate_spec.
  - split; constructor; rewrite ?map_map; induction IH as [|x l [A B] _ IHl]; cbn [map]; constructor; assumption.
  - assert (H : forall b, Loaded b (JObj kvs) (JObj (dict_of (map (fun kv => (fst kv, remove_control_chars (json_load (snd kv)))) kvs)))).
    { intro b. eapply L_object; [|apply dict_of_spec]. induction IH as [|[k v] l [A B] _ IHl]; cbn [map]; constructor; [split; [reflexivity|exact B]|exact IHl]. }
    split; apply H.
Qed.
Lemma Loaded_fun j : forall b x y, Loaded b j x -> Loaded b j y -> x = y.
Proof.
  induction j as [|b'|z|r|s|l IH|kvs IH] using json_rect'; intros b x y H K.
  1-4: inversion H; inversion K; subst; reflexivity.
  - inversion H; subst; inversion K; subst; auto. f_equal. rewrite (Stripped_fun _ _ H2), (Stripped_fun _ _ H1). reflexivity.
  - inversion H as [| | | | | |b0 l0 l1 F1|]; subst. inversion K as [| | | | | |b0 l0 l2 F2|]; subst. f_equal. clear H K. revert l1 l2 F1 F2.
    induction IH as [|a l A _ IHl]; intros l1 l2 F1 F2; inversion F1; inversion F2; subst; [reflexivity|]. f_equal; [eapply A; eassumption|eapply IHl; eassumption].
  - inversion H as [| | | | | | |b0 p0 p1 k1 F1 D1]; subst. inversion K as [| | | | | | |b0 p0 p2 k2 F2 D2]; subst. f_equal. clear H K.
    assert (p1 = p2); [|subst; eapply DictOf_fun; eassumption]. clear D1 D2. revert p1 p2 F1 F2.
    induction IH as [|[k v] l A _ IHl]; intros p1 p2 F1 F2; inversion F1 as [|? [] ? ? [E1 G1]]; inversion F2 as [|? [] ? ? [E2 G2]]; subst; [reflexivity|]. cbn in *. subst.
    f_equal; [f_equal; eapply A; eassumption|eapply IHl; eassumption].
Qed.
Theorem load_spec j x : json_load j = x <-> Loaded false j x.
Proof. split; [intros <-; apply load_both|]. intro H. eapply Loaded_fun; [apply load_both|exact H]. Qed.
(** everything inside an object, b: the value itself is inside *)
Fixpoint plain (b : bool) (j : json) : Prop :=
  match j with
  | JStr s => if b then NoControl s else True
  | JArr l => (fix all (l : list json) : Prop := match l with [] => True | x :: l' => plain b x /\ all l' end) l
  | JObj kvs => NoDup (map fst kvs)
      /\ (fix all (l : list (pystr * json)) : Prop := match l with [] => True | x :: l' => plain true (snd x) /\ all l' end) kvs
  | _ => True
  end.
Lemma plain_arr b l : plain b (JArr l) <-> forall x, In x l -> plain b x.
Proof.
  cbn. induction l as [|x l IH]; [cbn; split; [intros _ y []|auto]|]. rewrite IH. cbn. split.
  - intros [A B] y [<-|H]; auto.
  - intro H. split; auto.
Qed.
Lemma plain_obj b kvs : plain b (JObj kvs) <-> NoDup (map fst kvs) /\ forall k v, In (k, v) kvs -> plain true v.
Proof.
  cbn [plain]. apply and_iff_compat_l. induction kvs as [|[k v] l IH]; [cbn; split; [intros _ y z []|auto]|]. cbn [snd]. rewrite IH. cbn [In]. split.
  - intros [A B] k' y [[= <- <-]|H]; eauto.
  - intro H. split; [|intros k' v' I]; eapply H; eauto.
Qed.
Lemma within_str_in s j : Within (JStr s) j -> match j with JStr t => s = t | JArr l => exists x, In x l /\ Within (JStr s) x
  | JObj kvs => exists k v, In (k, v) kvs /\ Within (JStr s) v | _ => False end.
Proof. intro H. inversion H; subst; eauto. Qed.
Lemma within_obj_in kv0 j : Within (JObj kv0) j -> match j with JArr l => exists x, In x l /\ Within (JObj kv0) x
  | JObj kvs => kv0 = kvs \/ exists k v, In (k, v) kvs /\ Within (JObj kv0) v | _ => False end.
Proof. intro H. inversion H; subst; eauto. Qed.
Lemma Forall_snd {P : pystr * json -> Prop} {kvs : list (pystr * json)} : Forall P kvs -> forall k v, In (k, v) kvs -> P (k, v).
Proof. intros F k v I. rewrite Forall_forall in F. exact (F _ I). Qed.
Lemma plain_true j : plain true j <-> (forall s, Within (JStr s) j -> NoControl s) /\ (forall kvs, Within (JObj kvs) j -> NoDup (map fst kvs)).
Proof.
  induction j as [|b|z|r|t|l IH|kvs IH] using json_rect'.
  1-4: split; [intros _; split; intros ? H; inversion H|cbn; auto].
  - cbn. split; [intro H; split; intros ? K; inversion K; subst; exact H|]. intros [H _]. apply H. constructor.
  - rewrite plain_arr. rewrite Forall_forall in IH. split.
    + intro H. split; intros y K; [apply within_str_in in K|apply within_obj_in in K]; destruct K as (x & I & W); apply (IH x I); auto.
    + intros [H K] x I. apply IH; [exact I|]. split; [intros s W; apply H|intros kv W; apply K]; econstructor; eassumption.
  - rewrite plain_obj. pose proof (Forall_snd IH) as G. cbv beta in G. cbn [snd] in G. split.
    + intros [N H]. split.
      * intros s K. apply within_str_in in K. destruct K as (k & v & I & W). apply (G k v I); eauto.
      * intros kv K. apply within_obj_in in K. destruct K as [->|(k & v & I & W)]; [exact N|]. apply (G k v I); eauto.
    + intros [H K]. split; [apply K; constructor|]. intros k v I. apply (G k v I). split; [intros s W; apply H|intros kv W; apply K]; eapply W_member; eassumption.
Qed.
Lemma within_trans a b c : Within a b -> Within b c -> Within a c.
Proof. intros H K. induction K; [exact H|eapply W_item; eauto|eapply W_member; eauto]. Qed.
Lemma plain_false j : plain false j <-> PlainObjects j.
Proof.
  unfold PlainObjects. induction j as [|b|z|r|t|l IH|kvs IH] using json_rect'.
  1-5: split; [intros _ ? H; inversion H|cbn; auto].
  - rewrite plain_arr. rewrite Forall_forall in IH. split.
    + intros H kv K. apply within_obj_in in K. destruct K as (x & I & W). apply (IH x I); auto.
    + intros H x I. apply IH; [exact I|]. intros kv W. apply H. econstructor; eassumption.
  - change (plain false (JObj kvs)) with (plain true (JObj kvs)). rewrite plain_true. split.
    + intros [A B] kv K. split; [apply B; exact K|]. intros s W. apply A. eapply within_trans; eassumption.
    + intro H. split; [intros s W; apply (H kvs); [constructor|exact W]|]. intros kv W. apply (H kv W).
Qed.
Lemma rc_plain j : plain true j -> remove_control_chars j = j.
Proof.
  induction j as [|b|z|r|t|l IH|kvs IH] using json_rect'; cbn [remove_control_chars]; auto.
  - cbn. intro H. f_equal. apply translate_id. exact H.
  - rewrite plain_arr. intro H. f_equal. rewrite <- (map_id l) at 2. apply map_ext_in. intros x I. rewrite Forall_forall in IH. auto.
Qed.
Lemma load_plain b j : plain b j -> json_load j = j.
Proof.
  revert b. induction j as [|b'|z|r|t|l IH|kvs IH] using json_rect'; intros b H; cbn [json_load]; auto.
  - rewrite plain_arr in H. f_equal. rewrite <- (map_id l) at 2. apply map_ext_in. intros x I. rewrite Forall_forall in IH. eauto.
  - rewrite plain_obj in H. destruct H as [N H]. f_equal.
    replace (map (fun kv => (fst kv, remove_control_chars (json_load (snd kv)))) kvs) with kvs.
    + eapply DictOf_fun; [apply dict_of_spec|apply DictOf_self; exact N].
    + rewrite <- (map_id kvs) at 1. apply map_ext_in. intros [k v] I. cbn [fst snd]. pose proof (H k v I) as P. pose proof (Forall_snd IH k v I true P) as Q. cbn [snd] in Q. rewrite Q, rc_plain by exact P. reflexivity.
Qed.
Lemma assoc_In {A} k (v : A) l : assoc k l = Some v -> In (k, v) l.
Proof.
  induction l as [|[k' v'] l IH]; [discriminate|]. cbn. destruct (str_eqb k k') eqn:E; [|auto]. apply str_eqb_eq in E. intros [= ->]. left. congruence.
Qed.
Lemma In_assoc {A} k (v : A) l : NoDup (map fst l) -> In (k, v) l -> assoc k l = Some v.
Proof.
  induction l as [|[k' v'] l IH]; [intros _ []|]. cbn. intro N. apply NoDup_cons_iff in N. destruct N as [N1 N2]. intros [[= -> ->]|H].
  - rewrite str_eqb_refl. reflexivity.
  - destruct (str_eqb k k') eqn:E; [|auto]. apply str_eqb_eq in E. subst k'. exfalso. apply N1. change k with (fst (k, v)). apply in_map. exact H.
Qed.
Lemma DictOf_In ps kvs k v : DictOf ps kvs -> In (k, v) kvs -> In (k, v) ps.
Proof.
  intros [A B] I. apply In_assoc in I; [|rewrite A; apply firsts_NoDup]. rewrite B in I. apply assoc_In in I. apply in_rev. exact I.
Qed.
Lemma loaded_plain j : forall b x, Loaded b j x -> plain b x.
Proof.
  induction j as [|b'|z|r|t|l IH|kvs IH] using json_rect'; intros b x H.
  1-4: inversion H; subst; exact I.
  - inversion H as [| | | |s0 t0 S| | |]; subst; [|exact I]. cbn. rewrite (Stripped_fun _ _ S). apply translate_clean.
  - inversion H as [| | | | | |b0 l0 l1 F1|]; subst. apply plain_arr. clear H. induction F1 as [|a a' l l' A F IHF]; intros x; [intros []|]. inversion IH; subst.
    intros [<-|I]; eauto.
  - inversion H as [| | | | | | |b0 p0 p1 k1 F1 D1]; subst. apply plain_obj. split; [rewrite (proj1 D1); apply firsts_NoDup|]. intros k v I. apply (DictOf_In _ _ _ _ D1) in I.
    clear H D1 k1. induction F1 as [|[k1 v1] [k2 v2] l l' [E A] F IHF]; [destruct I|]. inversion IH; subst. destruct I as [[= -> ->]|I]; eauto.
Qed.
Theorem load_clean j : PlainObjects (json_load j).
Proof. apply plain_false. eapply loaded_plain. apply load_both. Qed.
Theorem load_id j : PlainObjects j -> json_load j = j.
Proof. intro H. apply plain_false in H. eapply load_plain. exact H. Qed.
Theorem load_idem j : json_load (json_load j) = json_load j.
Proof. apply load_id, load_clean. Qed.

(** ** XML *)
Lemma is_list_spec j : is_list j = true <-> Array j.
Proof. unfold Array. destruct j; cbn; split; intro H; try discriminate; try (destruct H; discriminate); eauto. Qed.
Lemma list_like k : str_in k LIST_LIKE_FIELDS = true <-> ListField k.
Proof. apply str_in_In. Qed.
Lemma fix_spec j : Repaired j (fix_list_like_fields j).
Proof.
  induction j as [|b|z|r|t|l IH|kvs IH] using json_rect'; cbn [fix_list_like_fields]; try (constructor; intros; discriminate).
  - apply R_array. induction IH; cbn; constructor; auto.
  - apply R_object. induction IH as [|[k v] l A _ IHl]; cbn [map]; constructor; [|exact IHl]. cbn [fst snd] in *.
    destruct (str_in k LIST_LIKE_FIELDS) eqn:L; cbn [andb].
    + apply list_like in L. destruct (is_list v) eqn:I; cbn [negb].
      * apply is_list_spec in I. apply E_same; auto.
      * assert (~ Array v) by (rewrite <- is_list_spec; congruence). destruct (jtruthy v) eqn:T; [apply E_single|apply E_empty]; auto.
    + apply E_same; [|exact A]. left. rewrite <- list_like. congruence.
Qed.
Scheme Repaired_mut := Induction for Repaired Sort Prop with RepairedEntry_mut := Induction for RepairedEntry Sort Prop.
Lemma Repaired_fun j : forall x y, Repaired j x -> Repaired j y -> x = y.
Proof.
  induction j as [|b|z|r|t|l IH|kvs IH] using json_rect'; intros x y H K.
  1-5: inversion H; inversion K; subst; congruence.
  - inversion H as [? N _| ? l1 F1|]; subst; [exfalso; eapply N; reflexivity|]. inversion K as [? N _| ? l2 F2|]; subst; [exfalso; eapply N; reflexivity|]. f_equal.
    clear H K. revert l1 l2 F1 F2. induction IH as [|a l A _ IHl]; intros l1 l2 F1 F2; inversion F1; inversion F2; subst; [reflexivity|]. f_equal; [eapply A; eassumption|eapply IHl; eassumption].
  - inversion H as [? _ N| |? l1 F1]; subst; [exfalso; eapply N; reflexivity|]. inversion K as [? _ N| |? l2 F2]; subst; [exfalso; eapply N; reflexivity|]. f_equal.
    clear H K. revert l1 l2 F1 F2. induction IH as [|[k v] l A _ IHl]; intros l1 l2 F1 F2; inversion F1 as [|? ? ? ? E1]; inversion F2 as [|? ? ? ? E2]; subst; [reflexivity|].
    f_equal; [|eapply IHl; eassumption]. cbn in A. inversion E1; inversion E2; subst; try congruence; try (f_equal; eauto; fail); try tauto.
    f_equal. f_equal. f_equal. eapply A; eassumption.
Qed.
Theorem fix_iff j x : fix_list_like_fields j = x <-> Repaired j x.
Proof. split; [intros <-; apply fix_spec|]. intro H. eapply Repaired_fun; [apply fix_spec|exact H]. Qed.
Theorem fix_lists j : ListFieldsAreLists (fix_list_like_fields j).
Proof.
  unfold ListFieldsAreLists. induction j as [|b|z|r|t|l IH|kvs IH] using json_rect'; cbn [fix_list_like_fields]; intros kv0 k v W I L; try (inversion W; fail).
  - apply within_obj_in in W. destruct W as (x & X & W). apply in_map_iff in X. destruct X as (y & <- & Y). rewrite Forall_forall in IH. eapply IH; eassumption.
  - apply within_obj_in in W. destruct W as [->|(k1 & v1 & J & W)].
    + apply in_map_iff in I. destruct I as ([k1 v1] & E & J). cbn [fst snd] in E. apply pair_equal_spec in E. destruct E as [-> <-]. rewrite (proj2 (list_like k) L). cbn [andb].
      destruct (is_list v1) eqn:Q; cbn [negb]; [|destruct (jtruthy v1); eexists; reflexivity]. destruct v1; try discriminate. eexists. reflexivity.
    + apply in_map_iff in J. destruct J as ([k2 v2] & E & J). cbn [fst snd] in E. apply pair_equal_spec in E. destruct E as [-> <-]. pose proof (Forall_snd IH _ _ J) as H. cbv beta in H. cbn [snd] in H.
      destruct (str_in k1 LIST_LIKE_FIELDS && negb (is_list v2)); [|eapply H; eassumption]. destruct (jtruthy v2); [|inversion W; subst; contradiction].
      apply within_obj_in in W. destruct W as (x & [<-|[]] & W). eapply H; eassumption.
Qed.
Theorem fix_id j : ListFieldsAreLists j -> fix_list_like_fields j = j.
Proof.
  unfold ListFieldsAreLists. induction j as [|b|z|r|t|l IH|kvs IH] using json_rect'; cbn [fix_list_like_fields]; intro H; auto; f_equal.
  - rewrite <- (map_id l) at 2. apply map_ext_in. intros x I. rewrite Forall_forall in IH. apply IH; [exact I|]. intros kv k v W. apply H. econstructor; eassumption.
  - rewrite <- (map_id kvs) at 2. apply map_ext_in. intros [k v] I. cbn [fst snd]. f_equal. pose proof (Forall_snd IH _ _ I) as G. cbv beta in G. cbn [snd] in G.
    assert (F : fix_list_like_fields v = v) by (apply G; intros kv k' v' W; apply H; eapply W_member; eassumption).
    destruct (str_in k LIST_LIKE_FIELDS) eqn:L; cbn [andb]; [|exact F]. apply list_like in L. assert (A : Array v) by (eapply H; [constructor|exact I|exact L]).
    apply is_list_spec in A. rewrite A. exact F.
Qed.
Theorem fix_idem j : fix_list_like_fields (fix_list_like_fields j) = fix_list_like_fields j.
Proof. apply fix_id, fix_lists. Qed.
