(** What is in the payload that bump_spdx_document returns. *)
From Verif Require Import Py Data Oracles DocUtils Payload Bump BumpSpec PyFacts BumpFacts BumpMerge BumpGroups BumpRels BumpDoc BumpPhases.

Ltac phases H := let X := fresh "Ph" in destruct (bump_phases _ _ _ H) as (stA & stB & stR & stN & lp & lf & ls & la & X).

(** * Relationships *)
Section Relationships.
  Variables (d : document) (st : bstate) (doc : nat).
  Hypothesis H : bump_spdx_document d = Ok (st, doc).

  Lemma doc_alone l1 x l2 : converted d = l1 ++ x :: l2 -> (forall y, In y (l1 ++ l2) -> ~ same_group x y) ->
    get_element st (r3_id x) = Ok (E3Relationship x).
  Proof.
    intros E N. phases H. destruct (ph_summary _ _ _ _ _ _ _ _ _ _ _ Ph) as [P S].
    apply (rel_to_end _ _ _ _ _ _ _ _ _ _ _ Ph).
    - intro j. apply id_not_annotation. rewrite E. apply in_app_iff. right; left; reflexivity.
    - exact (alone_kept _ _ _ _ S l1 x l2 E N).
  Qed.
  Lemma doc_comment_kept l1 x l2 : converted d = l1 ++ x :: l2 -> commented x -> (exists y, In y l2 /\ same_group x y) ->
    get_element st (r3_id x) = Ok (E3Relationship x).
  Proof.
    intros E C N. phases H. destruct (ph_summary _ _ _ _ _ _ _ _ _ _ _ Ph) as [P S].
    apply (rel_to_end _ _ _ _ _ _ _ _ _ _ _ Ph).
    - intro j. apply id_not_annotation. rewrite E. apply in_app_iff. right; left; reflexivity.
    - exact (comment_kept _ _ _ _ S l1 x l2 E C N).
  Qed.
  Lemma doc_commented_no_targets x : In x (converted d) -> commented x -> group_targets x (converted d) = [] ->
    get_element st (r3_id x) = Ok (E3Relationship x).
  Proof.
    intros Hx C T. phases H. destruct (ph_summary _ _ _ _ _ _ _ _ _ _ _ Ph) as [P S].
    apply (rel_to_end _ _ _ _ _ _ _ _ _ _ _ Ph).
    - intro j. apply id_not_annotation. exact Hx.
    - exact (commented_no_targets _ _ _ _ S x Hx C T).
  Qed.
  Lemma in_stR_id stA stB stR stN lp lf ls la i m : Phases d st doc stA stB stR stN lp lf ls la -> get_element stR i = Ok (E3Relationship m) ->
    forall j, i <> annotation_id (ci_namespace (do_ci d)) j.
  Proof.
    intros Ph G j E. destruct (ph_summary _ _ _ _ _ _ _ _ _ _ _ Ph) as [P S].
    destruct (in_dec char_list_eq_dec i (map r3_id (converted d))) as [Hi|Hi].
    - destruct (rel_ids _ _ Hi) as [k Ek]. rewrite E in Ek. exact (annotation_not_relationship _ _ _ Ek).
    - rewrite (su_other _ _ _ _ S i Hi) in G. exact (stB_norel _ _ _ _ _ _ _ _ _ _ _ Ph _ _ G).
  Qed.
  Lemma doc_target_kept x t : In x (converted d) -> ~ commented x -> In t (r3_to x) ->
    exists m, get_element st (r3_id m) = Ok (E3Relationship m) /\ same_group x m /\ In t (r3_to m).
  Proof.
    intros Hx C Ht. phases H. destruct (ph_summary _ _ _ _ _ _ _ _ _ _ _ Ph) as [P S].
    destruct (target_kept _ _ _ _ S x t Hx C Ht) as (m & G & M1 & M2). exists m. split; [|auto].
    apply (rel_to_end _ _ _ _ _ _ _ _ _ _ _ Ph); [exact (in_stR_id _ _ _ _ _ _ _ _ _ _ Ph G)|exact G].
  Qed.
  Lemma doc_last_becomes l1 x l2 : converted d = l1 ++ x :: l2 -> (forall y, In y l2 -> ~ same_group x y) -> (exists y, In y l1 /\ same_group x y) ->
    group_targets x (converted d) <> [] ->
    exists m, get_element st (r3_id x) = Ok (E3Relationship m) /\ get_element st (r3_id m) = Ok (E3Relationship m)
              /\ same_group x m /\ r3_to m = group_targets x (converted d) /\ r3_comment m = None
              /\ r3_scope m = r3_scope x /\ r3_linkage m = r3_linkage x /\ r3_conditionality m = r3_conditionality x.
  Proof.
    intros E N Y T. phases H. destruct (ph_summary _ _ _ _ _ _ _ _ _ _ _ Ph) as [P S].
    destruct (last_becomes _ _ _ _ S l1 x l2 E N Y T) as (m & G1 & G2 & R). exists m.
    split; [|split; [|exact R]]; (apply (rel_to_end _ _ _ _ _ _ _ _ _ _ _ Ph); [eapply in_stR_id; [exact Ph|eassumption]|assumption]).
  Qed.
  Lemma doc_back i m : get_element st i = Ok (E3Relationship m) ->
    exists stA stB stR stN lp lf ls la, Phases d st doc stA stB stR stN lp lf ls la /\ get_element stR i = Ok (E3Relationship m).
  Proof.
    intro G. phases H. exists stA, stB, stR, stN, lp, lf, ls, la. split; [exact Ph|].
    rewrite (ph_end _ _ _ _ _ _ _ _ _ _ _ Ph) in G. apply update_document_get in G; [|apply not_doc_rel].
    destruct (steps_back _ _ _ _ _ _ (ph_annotations _ _ _ _ _ _ _ _ _ _ _ Ph) (ph_wfR _ _ _ _ _ _ _ _ _ _ _ Ph) (not_doc_rel m) G) as [X|[[a X]|(im & X & _)]];
      [exact X|discriminate|].
    exfalso. destruct (la_ids _ _ _ _ _ _ _ _ _ _ _ Ph _ X) as (j & a & E1 & E2 & _).
    destruct (ph_notes _ _ _ _ _ _ _ _ _ _ _ Ph) as [_ F]. destruct (F j a E2) as (ie & sti & iesi & E3 & (_ & y & E4 & _) & _).
    rewrite E1 in E3. injection E3 as <-. discriminate.
  Qed.
  Lemma doc_nothing_kept x : In x (converted d) -> ~ commented x -> (exists y, In y (converted d) /\ y <> x /\ same_group x y) ->
    group_targets x (converted d) = [] -> forall m, get_element st (r3_id x) <> Ok (E3Relationship m).
  Proof.
    intros Hx C Y T m G. destruct (doc_back _ _ G) as (stA & stB & stR & stN & lp & lf & ls & la & Ph & G').
    destruct (ph_summary _ _ _ _ _ _ _ _ _ _ _ Ph) as [P S]. rewrite (nothing_kept _ _ _ _ S x Hx C Y T) in G'.
    exact (stB_norel _ _ _ _ _ _ _ _ _ _ _ Ph _ _ G').
  Qed.
  Lemma doc_nothing_invented i m : get_element st i = Ok (E3Relationship m) ->
    (exists x, In x (converted d) /\ same_group x m) /\
    (forall t, In t (r3_to m) -> exists x, In x (converted d) /\ same_group x m /\ In t (r3_to x)).
  Proof.
    intro G. destruct (doc_back _ _ G) as (stA & stB & stR & stN & lp & lf & ls & la & Ph & G').
    destruct (ph_summary _ _ _ _ _ _ _ _ _ _ _ Ph) as [P S]. apply (nothing_invented _ _ _ _ S i m G').
    intro r. exact (stB_norel _ _ _ _ _ _ _ _ _ _ _ Ph _ r).
  Qed.
End Relationships.

(** * Elements *)
Lemma Forall2_map_both {A B C D} (R : C -> D -> Prop) (f : A -> C) (g : B -> D) l l' :
  Forall2 (fun x y => R (f x) (g y)) l l' -> Forall2 R (map f l) (map g l').
Proof. induction 1; cbn; constructor; auto. Qed.
Lemma FullIds_fun d ids ids' : FullIds d ids -> FullIds d ids' -> ids = ids'.
Proof.
  unfold FullIds. intro F. revert ids'. induction F as [|x y l l' Hxy F IH]; intros ids' F'; inversion F'; subst; [reflexivity|].
  f_equal; [congruence|]. apply IH. assumption.
Qed.
Definition lids (l : list (list extmap3 * element3)) := map (fun ie => e3_id (snd ie)) l.
Lemma phases_ids d st doc stA stB stR stN lp lf ls la : Phases d st doc stA stB stR stN lp lf ls la -> FullIds d (lids (lp ++ lf ++ ls)).
Proof.
  intro Ph. unfold FullIds, element_ids, lids. rewrite !map_app. apply Forall2_app; [|apply Forall2_app].
  - apply Forall2_map_both. eapply forall2_impl; [|exact (ph_packages _ _ _ _ _ _ _ _ _ _ _ Ph)].
    intros p ie _ (sti & iesi & (_ & x & E & G & _) & _). rewrite E. exact G.
  - apply Forall2_map_both. eapply forall2_impl; [|exact (ph_files _ _ _ _ _ _ _ _ _ _ _ Ph)].
    intros p ie _ (sti & iesi & (_ & x & E & G & _) & _). rewrite E. exact G.
  - apply Forall2_map_both. eapply forall2_impl; [|exact (ph_snippets _ _ _ _ _ _ _ _ _ _ _ Ph)].
    intros p ie _ (sti & iesi & (_ & x & E & G & _) & _). rewrite E. exact G.
Qed.

Section Elements.
  Variables (d : document) (st : bstate) (doc : nat).
  Hypothesis H : bump_spdx_document d = Ok (st, doc).
  Let ns := ci_namespace (do_ci d).

  Lemma ids_there : exists ids, FullIds d ids /\ forall i, In i ids -> exists e, get_element st i = Ok e.
  Proof.
    phases H. exists (lids (lp ++ lf ++ ls)). split; [exact (phases_ids _ _ _ _ _ _ _ _ _ _ _ Ph)|]. intros i Hi.
    apply keys_get; [exact (ph_wfE _ _ _ _ _ _ _ _ _ _ _ Ph)|]. rewrite (ph_keysE _ _ _ _ _ _ _ _ _ _ _ Ph).
    apply (steps_keys _ _ _ _ (ph_annotations _ _ _ _ _ _ _ _ _ _ _ Ph)). left. rewrite (ph_rels _ _ _ _ _ _ _ _ _ _ _ Ph). apply relationships_keys.
    apply (steps_keys _ _ _ _ (ph_elements _ _ _ _ _ _ _ _ _ _ _ Ph)). right. exact Hi.
  Qed.
  Lemma NoDup_app_mid {A} (l1 : list A) x l2 : NoDup (l1 ++ x :: l2) -> ~ In x l2.
  Proof. intros N Hin. apply NoDup_remove_2 in N. apply N. apply in_app_iff. right; exact Hin. Qed.

  Lemma element_kept stA stB stR stN lp lf ls la ids ie : Phases d st doc stA stB stR stN lp lf ls la ->
    FullIds d ids -> NoDup ids -> In ie (lp ++ lf ++ ls) -> ~ is_document (snd ie) -> ~ made_up ns (e3_id (snd ie)) ->
    get_element st (e3_id (snd ie)) = Ok (snd ie).
  Proof.
    intros Ph F N Hin Nd Nm. rewrite (FullIds_fun _ _ _ F (phases_ids _ _ _ _ _ _ _ _ _ _ _ Ph)) in N.
    apply (keep_to_end _ _ _ _ _ _ _ _ _ _ _ Ph); [exact Nd|exact Nm|].
    apply in_split in Hin as (l1 & l2 & El).
    apply (steps_new _ _ l1 ie l2 _ _ (ph_elements _ _ _ _ _ _ _ _ _ _ _ Ph) (ph_wf _ _ _ _ _ _ _ _ _ _ _ Ph) El).
    rewrite El in N. unfold lids in N. rewrite map_app in N. cbn [map] in N. exact (NoDup_app_mid _ _ _ N).
  Qed.

  Lemma package_there ids p i : FullIds d ids -> NoDup ids -> In p (do_packages d) ->
    get_full_element_spdx_id (pk_id p) ns (ci_refs (do_ci d)) = Ok i -> ~ made_up ns i ->
    exists x, get_element st i = Ok (E3Package x) /\ p3_id x = i /\ PackageSays ns p x /\ p3_concluded x = None /\ p3_declared x = None
      /\ (forall k, In k (p3_supplied x ++ p3_originated x) -> exists e, get_element st k = Ok e).
  Proof.
    intros F N Hp Hi Nm. phases H. destruct (Forall2_in_l _ _ _ _ (ph_packages _ _ _ _ _ _ _ _ _ _ _ Ph) Hp) as (ie & Hie & sti & iesi & (_ & x & E & G & Says & L1 & L2 & K) & S).
    fold ns in G. rewrite Hi in G. injection G as G. exists x.
    assert (X : get_element st (e3_id (snd ie)) = Ok (snd ie)).
    { apply (element_kept _ _ _ _ _ _ _ _ ids ie Ph F N); [apply in_app_iff; left; exact Hie|rewrite E; intros [? X]; discriminate|].
      rewrite E. cbn [e3_id]. rewrite <- G. exact Nm. }
    rewrite E in X. cbn [e3_id] in X. rewrite <- G in X. split; [exact X|]. split; [auto|]. split; [exact Says|]. split; [exact L1|]. split; [exact L2|].
    intros k Hk. apply keys_get; [exact (ph_wfE _ _ _ _ _ _ _ _ _ _ _ Ph)|]. rewrite (ph_keysE _ _ _ _ _ _ _ _ _ _ _ Ph).
    apply (steps_keys _ _ _ _ (ph_annotations _ _ _ _ _ _ _ _ _ _ _ Ph)). left. rewrite (ph_rels _ _ _ _ _ _ _ _ _ _ _ Ph). apply relationships_keys.
    apply (steps_keys _ _ _ _ S). left. exact (K k Hk).
  Qed.
  Lemma file_there ids f i : FullIds d ids -> NoDup ids -> In f (do_files d) ->
    get_full_element_spdx_id (fi_id f) ns (ci_refs (do_ci d)) = Ok i -> ~ made_up ns i ->
    exists x, get_element st i = Ok (E3File x) /\ f3_id x = i /\ FileSays f x.
  Proof.
    intros F N Hp Hi Nm. phases H. destruct (Forall2_in_l _ _ _ _ (ph_files _ _ _ _ _ _ _ _ _ _ _ Ph) Hp) as (ie & Hie & sti & iesi & (_ & x & E & G & Says) & S).
    fold ns in G. rewrite Hi in G. injection G as G. exists x.
    assert (X : get_element st (e3_id (snd ie)) = Ok (snd ie)).
    { apply (element_kept _ _ _ _ _ _ _ _ ids ie Ph F N); [rewrite !in_app_iff; tauto|rewrite E; intros [? X]; discriminate|].
      rewrite E. cbn [e3_id]. rewrite <- G. exact Nm. }
    rewrite E in X. cbn [e3_id] in X. rewrite <- G in X. auto.
  Qed.
  Lemma snippet_there ids s i : FullIds d ids -> NoDup ids -> In s (do_snippets d) ->
    get_full_element_spdx_id (sn_id s) ns (ci_refs (do_ci d)) = Ok i -> ~ made_up ns i ->
    exists x, get_element st i = Ok (E3Snippet x) /\ s3_id x = i /\ SnippetSays s x.
  Proof.
    intros F N Hp Hi Nm. phases H. destruct (Forall2_in_l _ _ _ _ (ph_snippets _ _ _ _ _ _ _ _ _ _ _ Ph) Hp) as (ie & Hie & sti & iesi & (_ & x & E & G & Says) & S).
    fold ns in G. rewrite Hi in G. injection G as G. exists x.
    assert (X : get_element st (e3_id (snd ie)) = Ok (snd ie)).
    { apply (element_kept _ _ _ _ _ _ _ _ ids ie Ph F N); [rewrite !in_app_iff; tauto|rewrite E; intros [? X]; discriminate|].
      rewrite E. cbn [e3_id]. rewrite <- G. exact Nm. }
    rewrite E in X. cbn [e3_id] in X. rewrite <- G in X. auto.
  Qed.

  Lemma payload_origin i e : get_element st i = Ok e -> ComesFrom d i e.
  Proof.
    intro G. destruct (match e with E3Relationship _ => true | _ => false end) eqn:ER.
    { destruct e; try discriminate. exact (proj1 (doc_nothing_invented _ _ _ H _ _ G)). }
    phases H.
    assert (Nd : (exists a, e = E3Actor a) \/ is_document e \/ ~ is_document e /\ ~ (exists a, e = E3Actor a)).
    { destruct e; first [left; eexists; reflexivity | right; left; eexists; reflexivity | right; right; split; intros [? X]; discriminate]. }
    destruct Nd as [[a ->]|[[dd ->]|[Nd Na]]]; [exact I|exact I|].
    rewrite (ph_end _ _ _ _ _ _ _ _ _ _ _ Ph) in G. apply update_document_get in G; [|exact Nd].
    destruct (steps_back _ _ _ _ _ _ (ph_annotations _ _ _ _ _ _ _ _ _ _ _ Ph) (ph_wfR _ _ _ _ _ _ _ _ _ _ _ Ph) Nd G) as [X|[X|(im & X & Ei)]];
      [|exfalso; exact (Na X)|].
    - destruct (ph_summary _ _ _ _ _ _ _ _ _ _ _ Ph) as [P S].
      assert (XB : get_element stB i = Ok e).
      { destruct (in_dec char_list_eq_dec i (map r3_id (converted d))) as [Hi|Hi]; [|rewrite <- (su_other _ _ _ _ S i Hi); exact X].
        apply in_map_iff in Hi as (x & <- & Hx). rewrite <- (su_values _ _ _ _ S) in Hx. apply in_map_iff in Hx as (p & <- & Hp).
        rewrite (su_group _ _ _ _ S p Hp) in X. clear - X ER.
        destruct (filter (haskey (key (snd p))) P) as [|p1 [|p2 L]]; cbn [group_effect] in X; [exact X| |].
        - destruct (str_eqb (r3_id (snd p)) (r3_id (snd p1))); [injection X as <-; discriminate|exact X].
        - unfold merge_effect in X. revert X.
          repeat match goal with |- context [match ?t with _ => _ end] => destruct t end; intro X; try exact X; injection X as <-; discriminate. }
      destruct (steps_back _ _ _ _ _ _ (ph_elements _ _ _ _ _ _ _ _ _ _ _ Ph) (ph_wf _ _ _ _ _ _ _ _ _ _ _ Ph) Nd XB) as [Y|[Y|(im & Y & Ei)]].
      + destruct (ph_start _ _ _ _ _ _ _ _ _ _ _ Ph _ _ Y) as [Z|Z]; contradiction.
      + contradiction.
      + apply in_app_iff in Y as [Y|Y]; [|apply in_app_iff in Y as [Y|Y]].
        * destruct (Forall2_in_r _ _ _ _ (ph_packages _ _ _ _ _ _ _ _ _ _ _ Ph) Y) as (p & Hp & sti & iesi & (_ & y & E & Gp & Sp & _) & _).
          cbn [snd] in E. subst e. cbn in Ei. subst i. exists p. auto.
        * destruct (Forall2_in_r _ _ _ _ (ph_files _ _ _ _ _ _ _ _ _ _ _ Ph) Y) as (p & Hp & sti & iesi & (_ & y & E & Gp & Sp) & _).
          cbn [snd] in E. subst e. cbn in Ei. subst i. exists p. auto.
        * destruct (Forall2_in_r _ _ _ _ (ph_snippets _ _ _ _ _ _ _ _ _ _ _ Ph) Y) as (p & Hp & sti & iesi & (_ & y & E & Gp & Sp) & _).
          cbn [snd] in E. subst e. cbn in Ei. subst i. exists p. auto.
    - destruct (la_ids _ _ _ _ _ _ _ _ _ _ _ Ph _ X) as (j & a & E1 & E2 & E3). destruct (ph_notes _ _ _ _ _ _ _ _ _ _ _ Ph) as [_ Fn].
      destruct (Fn j a E2) as (ie & sti & iesi & E4 & (_ & y & E5 & E6 & E7 & E8 & E9 & _) & _). rewrite E1 in E4. injection E4 as <-. cbn [snd] in *.
      subst e i. exists j, a. auto.
  Qed.

  (** * The annotations *)
  Lemma annotation_there j a : nth_error (do_annotations d) j = Some a ->
    exists x, get_element st (annotation_id ns j) = Ok (E3Annotation x) /\ n3_id x = annotation_id ns j
      /\ n3_type x = annotation_type_name (an_type a) /\ n3_subject x = here ns (an_id a) /\ n3_statement x = an_comment a
      /\ nth_error (b_cis st) (n3_ci x) = Some (annotation_cinfo ns a (document_cinfo d))
      /\ (exists e, get_element st (actor_id ns (an_annotator a)) = Ok e).
  Proof.
    intro Ha. phases H. destruct (ph_notes _ _ _ _ _ _ _ _ _ _ _ Ph) as [Ln F].
    destruct (F j a Ha) as (ie & sti & iesi & E1 & (_ & x & E2 & E3 & E4 & E5 & E6 & E7 & E8) & SS). exists x. fold ns in E3, E5, E7, E8.
    assert (G : get_element stN (e3_id (snd ie)) = Ok (snd ie)).
    { destruct (nth_error_split _ _ E1) as (l1 & l2 & El & Lj).
      apply (steps_new _ _ l1 ie l2 _ _ (ph_annotations _ _ _ _ _ _ _ _ _ _ _ Ph) (ph_wfR _ _ _ _ _ _ _ _ _ _ _ Ph) El).
      intro Hin. apply in_map_iff in Hin as (ie2 & Ee & Hin). apply In_nth_error in Hin as [k Hk].
      assert (Hk' : nth_error la (List.length l1 + S k) = Some ie2).
      { rewrite El, nth_error_app2 by lia. replace (List.length l1 + S k - List.length l1) with (S k) by lia. exact Hk. }
      assert (La : exists b, nth_error (do_annotations d) (List.length l1 + S k) = Some b).
      { destruct (nth_error (do_annotations d) (List.length l1 + S k)) as [b|] eqn:Eb; [exists b; reflexivity|]. apply nth_error_None in Eb.
        assert (List.length l1 + S k < List.length la) by (apply nth_error_Some; congruence). lia. }
      destruct La as [b Eb]. destruct (F _ _ Eb) as (ie3 & _ & _ & X1 & (_ & y & X2 & X3 & _) & _). rewrite Hk' in X1. injection X1 as <-.
      rewrite X2, E2 in Ee. cbn [e3_id] in Ee. rewrite X3, E3 in Ee. apply annotation_id_inj in Ee. lia. }
    rewrite E2 in G. cbn [e3_id] in G. rewrite E3 in G.
    split; [rewrite (ph_end _ _ _ _ _ _ _ _ _ _ _ Ph); apply update_document_get; [intros [? X]; discriminate|exact G]|].
    repeat (split; [assumption|]). split.
    - rewrite (ph_end _ _ _ _ _ _ _ _ _ _ _ Ph), update_document_cis. exact (steps_cis _ _ _ _ _ _ SS E7).
    - apply keys_get; [exact (ph_wfE _ _ _ _ _ _ _ _ _ _ _ Ph)|]. rewrite (ph_keysE _ _ _ _ _ _ _ _ _ _ _ Ph).
      apply (steps_keys _ _ _ _ SS). left. exact E8.
  Qed.

  (** * The document *)
  Lemma flat_imports stA stB stR stN lp lf ls la : Phases d st doc stA stB stR stN lp lf ls la ->
    flat_map fst (lp ++ lf ++ ls) = flat_map import_of (element_ids d) /\ flat_map fst la = [].
  Proof.
    intro Ph. assert (X : forall A (f : A -> pystr) (l : list A) (ies : list (list extmap3 * element3)),
      Forall2 (fun x ie => fst ie = import_of (f x)) l ies -> flat_map fst ies = flat_map import_of (map f l)).
    { intros A f l ies F. induction F as [|x ie l ies E F IH]; [reflexivity|]. cbn. rewrite E, IH. reflexivity. }
    split.
    - unfold element_ids. rewrite !flat_map_app. f_equal; [|f_equal]; apply X.
      + eapply forall2_impl; [|exact (ph_packages _ _ _ _ _ _ _ _ _ _ _ Ph)]. intros p ie _ (sti & iesi & (E & _) & _). exact E.
      + eapply forall2_impl; [|exact (ph_files _ _ _ _ _ _ _ _ _ _ _ Ph)]. intros p ie _ (sti & iesi & (E & _) & _). exact E.
      + eapply forall2_impl; [|exact (ph_snippets _ _ _ _ _ _ _ _ _ _ _ Ph)]. intros p ie _ (sti & iesi & (E & _) & _). exact E.
    - assert (Y : forall ie, In ie la -> fst ie = []).
      { intros ie Hin. destruct (la_ids _ _ _ _ _ _ _ _ _ _ _ Ph _ Hin) as (j & a & E1 & E2 & _). destruct (ph_notes _ _ _ _ _ _ _ _ _ _ _ Ph) as [_ F].
        destruct (F j a E2) as (ie2 & _ & _ & E3 & (E4 & _) & _). rewrite E1 in E3. injection E3 as <-. exact E4. }
      clear - Y. induction la as [|ie l IH]; [reflexivity|]. cbn. rewrite (Y ie (or_introl eq_refl)), IH; [reflexivity|]. intros; apply Y; right; assumption.
  Qed.
  Lemma document_there ids : FullIds d ids -> ~ In (document_id d) ids -> ~ made_up ns (document_id d) ->
    exists x, get_element st (document_id d) = Ok (E3Document x) /\ nth_error (b_objs st) doc = Some (E3Document x)
      /\ d3_id x = document_id d /\ d3_name x = ci_name (do_ci d) /\ d3_comment x = ci_doc_comment (do_ci d)
      /\ d3_root x = document_root d /\ d3_namespaces x = refs_namespaces (ci_refs (do_ci d))
      /\ d3_imports x = refs_imports (ci_refs (do_ci d)) ++ flat_map import_of (element_ids d)
      /\ nth_error (b_cis st) (d3_ci x) = Some (document_cinfo d)
      /\ NoDup (d3_element x) /\ (forall i, In i (d3_element x) <-> i <> document_id d /\ exists e, get_element st i = Ok e).
  Proof.
    intros F Nd Nm. phases H. rewrite (FullIds_fun _ _ _ F (phases_ids _ _ _ _ _ _ _ _ _ _ _ Ph)) in Nd.
    destruct (ph_summary _ _ _ _ _ _ _ _ _ _ _ Ph) as [P S]. destruct (flat_imports _ _ _ _ _ _ _ _ Ph) as [I1 I2].
    pose proof (ph_docmap _ _ _ _ _ _ _ _ _ _ _ Ph) as Mp.
    assert (KA : In (document_id d) (keys stA)) by (apply assoc_keys; eexists; exact Mp).
    pose proof (steps_map _ _ _ _ _ (ph_elements _ _ _ _ _ _ _ _ _ _ _ Ph) (ph_wf _ _ _ _ _ _ _ _ _ _ _ Ph) KA Nd) as MB. rewrite Mp in MB.
    pose proof (steps_doc _ _ _ _ _ (ph_elements _ _ _ _ _ _ _ _ _ _ _ Ph) (ph_doc _ _ _ _ _ _ _ _ _ _ _ Ph)) as DB.
    cbn [d3_id d3_name d3_element d3_root d3_ci d3_comment d3_namespaces d3_imports] in DB. rewrite I1 in DB.
    match type of DB with _ = Some (E3Document ?D) => set (D2 := D) in * end.
    pose proof (su_objs _ _ _ _ S _ _ DB) as DR.
    assert (NR : ~ In (document_id d) (map r3_id (converted d))).
    { intro Y. destruct (rel_ids _ _ Y) as [j Ej]. apply Nm. left. exists j. exact Ej. }
    assert (GB : get_element stB (document_id d) = Ok (E3Document D2)) by (unfold get_element; rewrite MB, DB; reflexivity).
    assert (MR : assoc (document_id d) (b_map stR) = Some doc).
    { pose proof (su_other _ _ _ _ S _ NR) as G. rewrite GB in G. unfold get_element in G.
      destruct (assoc (document_id d) (b_map stR)) as [b|] eqn:Eb; [|discriminate]. destruct (nth_error (b_objs stR) b) as [e|] eqn:Ee; [|discriminate].
      injection G as ->. destruct (Nat.lt_ge_cases b (List.length (b_objs stB))) as [Lt|Ge].
      - pose proof (su_map _ _ _ _ S _ _ Lt Eb) as X. congruence.
      - rewrite (ph_rels _ _ _ _ _ _ _ _ _ _ _ Ph) in Ee. destruct (relationships_objs _ _ _ _ _ Ee Ge) as [r X]. discriminate. }
    assert (KR : In (document_id d) (keys stR)) by (apply assoc_keys; eexists; exact MR).
    assert (NN : ~ In (document_id d) (map (fun ie => e3_id (snd ie)) la)).
    { intro Y. destruct (la_lids _ _ _ _ _ _ _ _ _ _ _ Ph _ Y) as [j Ej]. apply Nm. right. exists j. exact Ej. }
    pose proof (steps_map _ _ _ _ _ (ph_annotations _ _ _ _ _ _ _ _ _ _ _ Ph) (ph_wfR _ _ _ _ _ _ _ _ _ _ _ Ph) KR NN) as MN. rewrite MR in MN.
    pose proof (steps_doc _ _ _ _ _ (ph_annotations _ _ _ _ _ _ _ _ _ _ _ Ph) DR) as DN. rewrite I2, doc3_eta in DN.
    set (L := filter (fun i => negb (str_eqb i (document_id d))) (keys stN)).
    pose proof (update_document_at (set_elements L) _ _ _ DN) as DE. pose proof (ph_end _ _ _ _ _ _ _ _ _ _ _ Ph) as EE. fold L in EE. rewrite <- EE in DE.
    assert (NDN : NoDup (keys stN)).
    { apply (steps_nodup _ _ _ _ (ph_annotations _ _ _ _ _ _ _ _ _ _ _ Ph)). rewrite (ph_rels _ _ _ _ _ _ _ _ _ _ _ Ph). apply relationships_nodup.
      apply (steps_nodup _ _ _ _ (ph_elements _ _ _ _ _ _ _ _ _ _ _ Ph)). exact (ph_nodup _ _ _ _ _ _ _ _ _ _ _ Ph). }
    exists (set_elements L D2). split; [|split; [exact DE|]].
    - assert (ME : b_map st = b_map stN) by (rewrite EE; apply update_document_map). unfold get_element. rewrite ME, MN, DE. reflexivity.
    - cbn [set_elements D2 d3_id d3_name d3_element d3_root d3_ci d3_comment d3_namespaces d3_imports]. repeat (split; [reflexivity|]). split; [|split].
      + rewrite (ph_end _ _ _ _ _ _ _ _ _ _ _ Ph), update_document_cis.
        apply (steps_cis _ _ _ _ _ _ (ph_annotations _ _ _ _ _ _ _ _ _ _ _ Ph)). rewrite (su_cis _ _ _ _ S).
        exact (steps_cis _ _ _ _ _ _ (ph_elements _ _ _ _ _ _ _ _ _ _ _ Ph) (ph_cinfo _ _ _ _ _ _ _ _ _ _ _ Ph)).
      + apply NoDup_filter. exact NDN.
      + intro i. unfold L. rewrite filter_In, negb_true_iff, str_eqb_neq. rewrite <- (ph_keysE _ _ _ _ _ _ _ _ _ _ _ Ph). split.
        * intros [Hi Ne]. split; [exact Ne|]. exact (keys_get _ _ (ph_wfE _ _ _ _ _ _ _ _ _ _ _ Ph) Hi).
        * intros [Ne [e G]]. split; [exact (get_keys _ _ _ G)|exact Ne].
  Qed.

  (** * The creators *)
  Lemma creator_there a : In a (ci_creators (do_ci d)) -> exists e, get_element st (actor_id ns a) = Ok e.
  Proof.
    intro Ha. phases H. apply keys_get; [exact (ph_wfE _ _ _ _ _ _ _ _ _ _ _ Ph)|]. rewrite (ph_keysE _ _ _ _ _ _ _ _ _ _ _ Ph).
    apply (steps_keys _ _ _ _ (ph_annotations _ _ _ _ _ _ _ _ _ _ _ Ph)). left. rewrite (ph_rels _ _ _ _ _ _ _ _ _ _ _ Ph). apply relationships_keys.
    apply (steps_keys _ _ _ _ (ph_elements _ _ _ _ _ _ _ _ _ _ _ Ph)). left. exact (ph_creators _ _ _ _ _ _ _ _ _ _ _ Ph a Ha).
  Qed.
  Lemma actor_not_made_up a : ~ made_up ns (actor_id ns a).
  Proof.
    intros [[i E]|[i E]]; unfold actor_id, relationship_id, annotation_id, here in E; apply app_inv_head in E; apply app_inv_head in E;
      vm_compute in E; discriminate.
  Qed.
  Lemma first_creator ids l1 a l2 : FullIds d ids -> ~ In (actor_id ns a) ids -> actor_id ns a <> document_id d ->
    ci_creators (do_ci d) = l1 ++ a :: l2 -> (forall b, In b l1 -> actor_id ns b <> actor_id ns a) ->
    exists x, get_element st (actor_id ns a) = Ok (E3Actor x) /\ ActorSays a (Some 0) x.
  Proof.
    intros F Ni Nd El N. phases H. rewrite (FullIds_fun _ _ _ F (phases_ids _ _ _ _ _ _ _ _ _ _ _ Ph)) in Ni.
    destruct (ph_first _ _ _ _ _ _ _ _ _ _ _ Ph l1 a l2 El N Nd) as (x & G & Says). exists x. split; [|exact Says].
    apply (keep_to_end _ _ _ _ _ _ _ _ _ _ _ Ph); [intros [? X]; discriminate|apply actor_not_made_up|].
    apply (steps_keep _ _ _ _ _ _ (ph_elements _ _ _ _ _ _ _ _ _ _ _ Ph) (ph_wf _ _ _ _ _ _ _ _ _ _ _ Ph)); [intros [? X]; discriminate|exact Ni|exact G].
  Qed.
End Elements.

(** * When the conversion succeeds *)
Lemma each_ok {A} (f : A -> bstate -> result bstate) (C : A -> Prop) l :
  (forall x st, (exists st', f x st = Ok st') <-> C x) -> forall st, (exists st', each f l st = Ok st') <-> (forall x, In x l -> C x).
Proof.
  intro Hf. induction l as [|x l IH]; intro st; cbn [each].
  - split; [intros _ x []|intros _; eexists; reflexivity].
  - split.
    + intros [st' E]. apply bind_inv in E as (st1 & E1 & E2). intros y [<-|Hy]; [apply (Hf x st); eexists; exact E1|].
      apply (IH st1); [eexists; exact E2|exact Hy].
    + intro Hc. destruct (proj2 (Hf x st) (Hc x (or_introl eq_refl))) as [st1 E1]. rewrite E1. cbn [bind]. apply IH. intros y Hy. apply Hc. right; exact Hy.
Qed.
Lemma package_ok p ns refs doc st : (exists st', bump_package p ns refs doc st = Ok st') <->
  (exists full, get_full_element_spdx_id (pk_id p) ns refs = Ok full) /\ pk_homepage p <> Some NNone /\ pk_homepage p <> Some NNoAssertion.
Proof.
  unfold bump_package. destruct (get_full_element_spdx_id (pk_id p) ns refs) as [id|e]; cbn [bind].
  2: { split; [intros [? X]; discriminate|intros [[? X] _]; discriminate]. }
  destruct (bump_optional_actor (pk_supplier p) ns (import_external (pk_id p) doc st)) as [st1 sup].
  destruct (bump_optional_actor (pk_originator p) ns st1) as [st2 ori]. rewrite bump_checksums. cbn [bind]. rewrite external_refs_are.
  assert (X : exists o, match pk_purpose p with Some x => bind (enum_member SoftwarePurpose (purpose_name x)) (fun n => Ok (Some n)) | None => Ok None end = Ok o).
  { destruct (pk_purpose p) as [u|]; [rewrite enum_purpose|]; eexists; reflexivity. }
  destruct X as [o ->]. cbn [bind]. unfold check_homepage. destruct (pk_homepage p) as [[s| |]|]; cbn [bind].
  - split; [|intros _; eexists; reflexivity]. intros _. split; [eexists; reflexivity|split; discriminate].
  - split; [intros [? X]; discriminate|]. intros [_ [X Y]]; congruence.
  - split; [intros [? X]; discriminate|]. intros [_ [X Y]]; congruence.
  - split; [|intros _; eexists; reflexivity]. intros _. split; [eexists; reflexivity|split; discriminate].
Qed.
Lemma file_ok f ns refs doc st : (exists st', bump_file f ns refs doc st = Ok st') <-> (exists full, get_full_element_spdx_id (fi_id f) ns refs = Ok full).
Proof.
  unfold bump_file. destruct (get_full_element_spdx_id (fi_id f) ns refs) as [id|e]; cbn [bind]; [|split; intros [? X]; discriminate].
  rewrite bump_checksums. cbn [bind]. split; intros _; eexists; reflexivity.
Qed.
Lemma snippet_ok s ns refs doc st : (exists st', bump_snippet s ns refs doc st = Ok st') <-> (exists full, get_full_element_spdx_id (sn_id s) ns refs = Ok full).
Proof.
  unfold bump_snippet. destruct (get_full_element_spdx_id (sn_id s) ns refs) as [id|e]; cbn [bind]; [|split; intros [? X]; discriminate].
  split; intros _; eexists; reflexivity.
Qed.
Lemma creation_ok c : exists st doc, bump_creation_info c {| b_objs := []; b_cis := []; b_map := [] |} = Ok (st, doc).
Proof.
  unfold bump_creation_info. rewrite external_refs_maps. cbn [bind new_cinfo]. destruct (bump_creators _ _ _ _ _ _) as [[st1 cs] ts]. eexists; eexists; reflexivity.
Qed.
Lemma bump_ok d : (exists st doc, bump_spdx_document d = Ok (st, doc)) <-> Convertible d.
Proof.
  split.
  - intros (st & doc & E). destruct (bump_phases _ _ _ E) as (stA & stB & stR & stN & lp & lf & ls & la & Ph). split.
    + intros i Hi. pose proof (phases_ids _ _ _ _ _ _ _ _ _ _ _ Ph) as F. destruct (Forall2_in_l _ _ _ _ F Hi) as (full & _ & X). exists full. exact X.
    + intros p Hp. unfold bump_spdx_document in E. cbv zeta in E. apply bind_inv in E as ([st0 doc0] & _ & E). apply bind_inv in E as (st1 & E1 & _).
      pose proof (proj1 (each_ok _ _ (do_packages d) (fun p s => package_ok p _ _ doc0 s) _) (ex_intro _ _ E1) p Hp) as [_ X]. exact X.
  - intros [Hi Hh]. unfold bump_spdx_document. cbv zeta. destruct (creation_ok (do_ci d)) as (st0 & doc0 & E0). rewrite E0. cbn [bind].
    destruct (start_phase _ _ _ E0) as (stc & D & Es & Ed & Wc & _ & ED & Hci & _).
    match goal with |- context [each _ (do_packages d) ?s] => set (stA := s) end.
    assert (In_el : forall x, (In x (map pk_id (do_packages d)) \/ In x (map fi_id (do_files d)) \/ In x (map sn_id (do_snippets d))) -> In x (element_ids d)).
    { intros x Hx. unfold element_ids. rewrite !in_app_iff. exact Hx. }
    destruct (proj2 (each_ok (fun x => bump_package x (ci_namespace (do_ci d)) (ci_refs (do_ci d)) doc0) _ (do_packages d) (fun p s => package_ok p (ci_namespace (do_ci d)) (ci_refs (do_ci d)) doc0 s) stA)) as [st1 E1].
    { intros p Hp. split; [|exact (Hh p Hp)]. apply Hi, In_el. left. apply in_map. exact Hp. }
    rewrite E1. cbn [bind].
    destruct (proj2 (each_ok (fun x => bump_file x (ci_namespace (do_ci d)) (ci_refs (do_ci d)) doc0) _ (do_files d) (fun p s => file_ok p (ci_namespace (do_ci d)) (ci_refs (do_ci d)) doc0 s) st1)) as [st2 E2].
    { intros p Hp. apply Hi, In_el. right; left. apply in_map. exact Hp. }
    rewrite E2. cbn [bind].
    destruct (proj2 (each_ok (fun x => bump_snippet x (ci_namespace (do_ci d)) (ci_refs (do_ci d)) doc0) _ (do_snippets d) (fun p s => snippet_ok p (ci_namespace (do_ci d)) (ci_refs (do_ci d)) doc0 s) st2)) as [st3 E3].
    { intros p Hp. apply Hi, In_el. right; right. apply in_map. exact Hp. }
    rewrite E3. cbn [bind].
    match goal with |- context [bump_annotations _ ?n _ _ ?s] => set (ci := n); set (stR := s) end.
    assert (Hc : exists c, nth_error (b_cis stR) ci = Some c).
    { assert (Eci : ci = 0).
      { unfold ci. assert (X : nth_error (b_objs st0) doc0 = Some (E3Document D)) by (rewrite Es, Ed; apply nth_error_snoc).
        rewrite (update_document_at _ _ _ _ X). cbn [d3_ci set_root]. rewrite ED. reflexivity. }
      rewrite Eci. eexists. unfold stR.
      destruct (each_steps doc0 _ _ _ _ _ (fun x s s' _ => package_step x (ci_namespace (do_ci d)) (ci_refs (do_ci d)) doc0 s s') E1) as (lp & S1 & _).
      destruct (each_steps doc0 _ _ _ _ _ (fun x s s' _ => file_step x (ci_namespace (do_ci d)) (ci_refs (do_ci d)) doc0 s s') E2) as (lf & S2 & _).
      destruct (each_steps doc0 _ _ _ _ _ (fun x s s' _ => snippet_step x (ci_namespace (do_ci d)) (ci_refs (do_ci d)) doc0 s s') E3) as (ls & S3 & _).
      pose proof (steps_app _ _ _ _ _ _ S1 (steps_app _ _ _ _ _ _ S2 S3)) as SB.
      assert (CA : b_cis stA = b_cis stc) by (unfold stA; rewrite add_element_cis, update_document_cis, Es; reflexivity).
      assert (WA : WF stA).
      { unfold stA. apply WF_add_element, WF_update. rewrite Es. eapply WF_new_object; [|exact Wc]. reflexivity. }
      destruct (bump_relationships_summary (do_relationships d) (ci_namespace (do_ci d)) st3 (steps_wf _ _ _ _ SB WA)) as (P & SR).
      rewrite (su_cis _ _ _ _ SR). apply (steps_cis _ _ _ _ _ _ SB). rewrite CA. exact Hci. }
    destruct Hc as [c Hc]. destruct (annotations_ok (do_annotations d) ci c (ci_namespace (do_ci d)) 0 stR Hc) as [st4 E4]. rewrite E4. cbn [bind].
    eexists; eexists; reflexivity.
Qed.
