(** The phases of bump_spdx_document. *)
From Verif Require Import Py Data Oracles DocUtils Payload Bump BumpSpec PyFacts BumpFacts BumpMerge BumpGroups BumpRels.

Lemma bind_inv {A B} (r : result A) (f : A -> result B) b : bind r f = Ok b -> exists a, r = Ok a /\ f a = Ok b.
Proof. destruct r; [intro H; exists a; auto|discriminate]. Qed.

Definition is_document (e : element3) : Prop := exists d, e = E3Document d.
Definition keys (st : bstate) : list pystr := map fst (b_map st).

(** A step that may add actors, extend the imports of the document at [doc] by [im] and add creation infos. *)
Record Quiet (doc : nat) (im : list extmap3) (st st' : bstate) : Prop := {
  qu_wf : WF st -> WF st';
  qu_keep : forall i e, WF st -> ~ is_document e -> get_element st i = Ok e -> get_element st' i = Ok e;
  qu_back : forall i e, WF st -> ~ is_document e -> get_element st' i = Ok e ->
              get_element st i = Ok e \/ (exists a, e = E3Actor a);
  qu_keys : forall k, In k (keys st) -> In k (keys st');
  qu_nodup : NoDup (keys st) -> NoDup (keys st');
  qu_map : forall k, WF st -> In k (keys st) -> assoc k (b_map st') = assoc k (b_map st);
  qu_doc : forall d, nth_error (b_objs st) doc = Some (E3Document d) ->
             nth_error (b_objs st') doc = Some (E3Document {| d3_id := d3_id d; d3_name := d3_name d; d3_element := d3_element d; d3_root := d3_root d;
               d3_ci := d3_ci d; d3_comment := d3_comment d; d3_namespaces := d3_namespaces d; d3_imports := d3_imports d ++ im |});
  qu_cis : forall j c, nth_error (b_cis st) j = Some c -> nth_error (b_cis st') j = Some c
}.

Lemma doc3_eta d : {| d3_id := d3_id d; d3_name := d3_name d; d3_element := d3_element d; d3_root := d3_root d;
  d3_ci := d3_ci d; d3_comment := d3_comment d; d3_namespaces := d3_namespaces d; d3_imports := d3_imports d ++ [] |} = d.
Proof. destruct d; cbn. rewrite app_nil_r. reflexivity. Qed.

Lemma quiet_refl doc st : Quiet doc [] st st.
Proof. constructor; auto. intros d H. rewrite doc3_eta. exact H. Qed.
Lemma quiet_trans doc im im' st st' st'' : Quiet doc im st st' -> Quiet doc im' st' st'' -> Quiet doc (im ++ im') st st''.
Proof.
  intros H H'. constructor.
  - intro W. apply (qu_wf _ _ _ _ H'), (qu_wf _ _ _ _ H), W.
  - intros i e W N G. apply (qu_keep _ _ _ _ H'); [apply (qu_wf _ _ _ _ H W)|exact N|]. apply (qu_keep _ _ _ _ H); assumption.
  - intros i e W N G. destruct (qu_back _ _ _ _ H' i e (qu_wf _ _ _ _ H W) N G) as [X|X]; [|right; exact X]. apply (qu_back _ _ _ _ H); assumption.
  - intros k Hk. apply (qu_keys _ _ _ _ H'), (qu_keys _ _ _ _ H), Hk.
  - intro N. apply (qu_nodup _ _ _ _ H'), (qu_nodup _ _ _ _ H), N.
  - intros k W Hk. rewrite (qu_map _ _ _ _ H' k (qu_wf _ _ _ _ H W) (qu_keys _ _ _ _ H k Hk)). apply (qu_map _ _ _ _ H k W Hk).
  - intros d Hd. apply (qu_doc _ _ _ _ H) in Hd. apply (qu_doc _ _ _ _ H') in Hd. cbn in Hd. rewrite <- app_assoc in Hd. exact Hd.
  - intros j c Hc. apply (qu_cis _ _ _ _ H'), (qu_cis _ _ _ _ H), Hc.
Qed.

Lemma assoc_keys {A} k (l : list (pystr * A)) : In k (map fst l) <-> exists v, assoc k l = Some v.
Proof.
  destruct (assoc k l) as [v|] eqn:E.
  - split; [intros _; exists v; reflexivity|]. intros _. apply PyFacts.assoc_In in E. apply in_map_iff. exists (k, v). auto.
  - apply assoc_None in E. split; [tauto|]. intros [v X]; discriminate.
Qed.
Lemma get_keys st i e : get_element st i = Ok e -> In i (keys st).
Proof. unfold get_element. intro H. apply assoc_keys. destruct (assoc i (b_map st)) as [a|]; [exists a; reflexivity|discriminate]. Qed.
Lemma keys_get st i : WF st -> In i (keys st) -> exists e, get_element st i = Ok e.
Proof.
  intros W H. apply assoc_keys in H as [a Ha]. unfold get_element. rewrite Ha. specialize (W _ _ Ha). apply nth_error_Some in W.
  destruct (nth_error (b_objs st) a) as [e|]; [exists e; reflexivity|congruence].
Qed.

Lemma quiet_new doc st e : ~ In (e3_id e) (keys st) -> (exists a, e = E3Actor a) -> Quiet doc [] st (add_new st e).
Proof.
  intros F [x ->]. constructor.
  - apply WF_add_new.
  - intros i e W _ G. rewrite get_add_new by exact W. destruct (str_eqb i (e3_id (E3Actor x))) eqn:E; [|exact G].
    apply str_eqb_eq in E. subst i. exfalso. apply F. exact (get_keys _ _ _ G).
  - intros i e W N G. rewrite get_add_new in G by exact W. destruct (str_eqb i (e3_id (E3Actor x))); [|left; exact G].
    right. exists x. congruence.
  - intros k Hk. unfold keys. rewrite add_new_map. apply GraphFacts.keys_set. right; exact Hk.
  - intro N. unfold keys. rewrite add_new_map. apply GraphFacts.nodup_set. exact N.
  - intros k W Hk. rewrite add_new_map. apply assoc_dict_set_other. intros ->. exact (F Hk).
  - intros d Hd. rewrite doc3_eta, add_new_objs. rewrite nth_error_app1; [exact Hd|]. apply nth_error_Some. congruence.
  - intros j c Hc. rewrite add_new_cis. exact Hc.
Qed.

Lemma bump_actor_is a ns ci st st' id doc : bump_actor a ns ci st = (st', id) ->
  id = actor_id ns a /\ Quiet doc [] st st' /\ In id (keys st') /\ b_cis st' = b_cis st.
Proof.
  intro H. unfold bump_actor in H.
  set (mail := match ac_email a with Some ((_ :: _) as e) => Some e | _ => None end) in H.
  assert (Eid : ns ++ $"#SPDXRef-Actor-" ++ remove_ws (ac_name a) ++ match mail with Some e => $"-" ++ e | None => [] end = actor_id ns a).
  { unfold actor_id, here, mail. change ($"#SPDXRef-Actor-") with ($"#" ++ $"SPDXRef-Actor-"). rewrite <- app_assoc.
    destruct (ac_email a) as [[|c s]|]; reflexivity. }
  rewrite Eid in H. destruct (assoc (actor_id ns a) (b_map st)) as [x|] eqn:E.
  - injection H as <- <-. split; [reflexivity|]. split; [apply quiet_refl|]. split; [|reflexivity].
    apply assoc_keys. exists x. exact E.
  - injection H as <- <-. split; [reflexivity|]. split; [|split; [|apply add_new_cis]].
    + apply quiet_new; [|eexists; reflexivity]. intro X. apply assoc_None in E. exact (E X).
    + unfold keys. rewrite add_new_map. apply GraphFacts.keys_set. left; reflexivity.
Qed.

(** an actor that is not there yet *)
Lemma bump_actor_new a ns ci st st' id : bump_actor a ns ci st = (st', id) -> WF st -> ~ In (actor_id ns a) (keys st) ->
  exists x, get_element st' (actor_id ns a) = Ok (E3Actor x) /\ ActorSays a ci x.
Proof.
  intros H W F. unfold bump_actor in H.
  set (mail := match ac_email a with Some ((_ :: _) as e) => Some e | _ => None end) in H.
  assert (Eid : ns ++ $"#SPDXRef-Actor-" ++ remove_ws (ac_name a) ++ match mail with Some e => $"-" ++ e | None => [] end = actor_id ns a).
  { unfold actor_id, here, mail. change ($"#SPDXRef-Actor-") with ($"#" ++ $"SPDXRef-Actor-"). rewrite <- app_assoc.
    destruct (ac_email a) as [[|c s]|]; reflexivity. }
  rewrite Eid in H. destruct (assoc (actor_id ns a) (b_map st)) as [y|] eqn:E; [exfalso; apply F; apply assoc_keys; exists y; exact E|].
  injection H as <- <-. rewrite get_add_new by exact W. cbn [e3_id a3_id]. rewrite str_eqb_refl. eexists. split; [reflexivity|].
  unfold ActorSays. cbn. repeat split. unfold mail. destruct (ac_email a) as [[|c s]|]; reflexivity.
Qed.

(** * Changing the document *)
Lemma update_document_get f doc st i e : ~ is_document e -> (get_element (update_document f doc st) i = Ok e <-> get_element st i = Ok e).
Proof.
  intro N. unfold update_document. destruct (nth_error (b_objs st) doc) as [[| | | | | |d]|] eqn:E; try tauto.
  unfold get_element. cbn [with_objs b_map b_objs]. destruct (assoc i (b_map st)) as [a|]; [|tauto]. rewrite set_nth_nth.
  destruct (Nat.eqb a doc) eqn:Ea; [|tauto]. apply Nat.eqb_eq in Ea. subst a.
  assert (Lt : doc < List.length (b_objs st)) by (apply nth_error_Some; congruence). apply Nat.ltb_lt in Lt. rewrite Lt, E.
  split; intro H; exfalso; apply N; eexists; symmetry; injection H; intro; eassumption.
Qed.
Lemma update_document_map f doc st : b_map (update_document f doc st) = b_map st.
Proof. unfold update_document. destruct (nth_error (b_objs st) doc) as [[| | | | | |d]|]; reflexivity. Qed.
Lemma update_document_cis f doc st : b_cis (update_document f doc st) = b_cis st.
Proof. unfold update_document. destruct (nth_error (b_objs st) doc) as [[| | | | | |d]|]; reflexivity. Qed.
Lemma update_document_length f doc st : List.length (b_objs (update_document f doc st)) = List.length (b_objs st).
Proof. unfold update_document. destruct (nth_error (b_objs st) doc) as [[| | | | | |d]|]; try reflexivity. cbn. apply set_nth_length. Qed.
Lemma update_document_at f doc st d : nth_error (b_objs st) doc = Some (E3Document d) ->
  nth_error (b_objs (update_document f doc st)) doc = Some (E3Document (f d)).
Proof.
  intro E. unfold update_document. rewrite E. cbn. rewrite set_nth_nth, Nat.eqb_refl.
  assert (Lt : doc < List.length (b_objs st)) by (apply nth_error_Some; congruence). apply Nat.ltb_lt in Lt. rewrite Lt. reflexivity.
Qed.
Lemma WF_update f doc st : WF st -> WF (update_document f doc st).
Proof. intros W k a H. rewrite update_document_map in H. rewrite update_document_length. exact (W _ _ H). Qed.

Lemma import_quiet id doc st : Quiet doc (import_of id) st (import_external id doc st).
Proof.
  unfold import_external, import_of. destruct (has_char #":" id); [|apply quiet_refl]. constructor.
  - apply WF_update.
  - intros i e W N G. apply update_document_get; assumption.
  - intros i e W N G. left. apply update_document_get in G; assumption.
  - intros k Hk. unfold keys. rewrite update_document_map. exact Hk.
  - intro N. unfold keys. rewrite update_document_map. exact N.
  - intros k W Hk. rewrite update_document_map. reflexivity.
  - intros d Hd. rewrite (update_document_at _ _ _ _ Hd). reflexivity.
  - intros j c Hc. rewrite update_document_cis. exact Hc.
Qed.
Lemma optional_actor_quiet a ns st st' l doc : bump_optional_actor a ns st = (st', l) ->
  l = actor_ids ns a /\ Quiet doc [] st st' /\ (forall i, In i l -> In i (keys st')).
Proof.
  unfold bump_optional_actor. destruct a as [[x|]|].
  - destruct (bump_actor x ns None st) as [st1 id] eqn:E. intro H; injection H as <- <-.
    destruct (bump_actor_is _ _ _ _ _ _ doc E) as (-> & Q & K & _). split; [reflexivity|]. split; [exact Q|]. intros i [<-|[]]. exact K.
  - intro H; injection H as <- <-. split; [reflexivity|]. split; [apply quiet_refl|intros i []].
  - intro H; injection H as <- <-. split; [reflexivity|]. split; [apply quiet_refl|intros i []].
Qed.

(** * External references *)
Lemma external_ref_kind r :
  match bump_external_package_ref r with
  | Some (XRef x) => identifier_kind (er_type r) = None /\ references [r] = [x]
  | Some (XId x) => reference_kind (er_type r) = None /\ identifiers [r] = [x]
  | None => identifier_kind (er_type r) = None /\ reference_kind (er_type r) = None
  end.
Proof.
  unfold bump_external_package_ref, external_ref_type_map, identifier_kind, reference_kind, references, identifiers, identifier_kind, reference_kind.
  cbn [flat_map assoc].
  repeat match goal with |- context [str_eqb (er_type r) ?s] =>
    let E := fresh "E" in destruct (str_eqb (er_type r) s) eqn:E;
    [solve [apply str_eqb_eq in E; try rewrite E; cbn; auto]|] end.
  cbn. auto.
Qed.
Definition refs_left (purl : option pystr) (refs : list ext_pkg_ref) := match purl with Some _ => without_purls refs | None => refs end.
Lemma references_cons r refs : references (r :: refs) = references [r] ++ references refs.
Proof. unfold references. cbn [flat_map]. rewrite app_nil_r. reflexivity. Qed.
Lemma identifiers_cons r refs : identifiers (r :: refs) = identifiers [r] ++ identifiers refs.
Proof. unfold identifiers. cbn [flat_map]. rewrite app_nil_r. reflexivity. Qed.
Lemma no_references r : reference_kind (er_type r) = None -> references [r] = [].
Proof. intro H. unfold references. cbn [flat_map]. rewrite H. reflexivity. Qed.
Lemma no_identifiers r : identifier_kind (er_type r) = None -> identifiers [r] = [].
Proof. intro H. unfold identifiers. cbn [flat_map]. rewrite H. reflexivity. Qed.
Lemma external_refs_are skip refs :
  bump_external_refs skip refs = (references refs, identifiers (if skip then without_purls refs else refs)).
Proof.
  induction refs as [|r refs IH]; [destruct skip; reflexivity|]. cbn [bump_external_refs]. rewrite IH. rewrite references_cons.
  assert (P : is_purl r = true -> references [r] = []).
  { intro H. apply no_references. apply str_eqb_eq in H. rewrite H. reflexivity. }
  pose proof (external_ref_kind r) as K. unfold is_purl in *.
  destruct skip; cbn [andb].
  - change (without_purls (r :: refs)) with (if negb (str_eqb (er_type r) $"purl") then r :: without_purls refs else without_purls refs).
    destruct (str_eqb (er_type r) $"purl"); cbn [negb].
    + rewrite P by reflexivity. reflexivity.
    + rewrite (identifiers_cons r (without_purls refs)). destruct (bump_external_package_ref r) as [[x|x]|]; destruct K as [K1 K2].
      * rewrite K2, (no_identifiers _ K1). reflexivity.
      * rewrite K2, (no_references _ K1). reflexivity.
      * rewrite (no_references _ K2), (no_identifiers _ K1). reflexivity.
  - rewrite (identifiers_cons r refs). destruct (bump_external_package_ref r) as [[x|x]|]; destruct K as [K1 K2].
      * rewrite K2, (no_identifiers _ K1). reflexivity.
      * rewrite K2, (no_references _ K1). reflexivity.
      * rewrite (no_references _ K2), (no_identifiers _ K1). reflexivity.
Qed.

Lemma filter_one {A} (f : A -> bool) l r : filter f l = [r] ->
  exists before after, l = before ++ r :: after /\ f r = true /\ forall x, In x before \/ In x after -> f x = false.
Proof.
  induction l as [|y l IH]; [discriminate|]. cbn. destruct (f y) eqn:E.
  - intro H. injection H as -> H. exists [], l. split; [reflexivity|]. split; [exact E|]. intros x [[]|Hx].
    destruct (f x) eqn:Ex; [|reflexivity]. assert (In x (filter f l)) by (apply filter_In; auto). rewrite H in H0. destruct H0.
  - intro H. destruct (IH H) as (b & a & -> & Er & F). exists (y :: b), a. split; [reflexivity|]. split; [exact Er|].
    intros x [[<-|Hx]|Hx]; auto.
Qed.
Lemma one_filter {A} (f : A -> bool) before r after : f r = true -> (forall x, In x before \/ In x after -> f x = false) ->
  filter f (before ++ r :: after) = [r].
Proof.
  intros Hr H. rewrite filter_app. cbn. rewrite Hr. rewrite !filter_none; [reflexivity| |]; intros x Hx; apply H; auto.
Qed.
Lemma single_purl_is refs :
  match single_purl refs with
  | Some l => exists r, OnlyPurl refs r /\ l = er_locator r
  | None => forall r, ~ OnlyPurl refs r
  end.
Proof.
  unfold single_purl. destruct (filter is_purl refs) as [|r [|r2 l]] eqn:E.
  - intros r (T & C & b & a & -> & F). rewrite (one_filter is_purl) in E; [discriminate| |].
    + unfold is_purl. rewrite T. reflexivity.
    + intros x Hx. apply str_eqb_neq. exact (F x Hx).
  - destruct (filter_one _ _ _ E) as (b & a & -> & Er & F). destruct (er_comment r) as [c|] eqn:C.
    + intros r' (T & C' & b' & a' & E' & F'). rewrite E' in E. rewrite (one_filter is_purl) in E.
      * congruence.
      * unfold is_purl. rewrite T. reflexivity.
      * intros x Hx. apply str_eqb_neq. exact (F' x Hx).
    + exists r. split; [|reflexivity]. split; [apply str_eqb_eq; exact Er|]. split; [exact C|]. exists b, a. split; [reflexivity|].
      intros x Hx. apply str_eqb_neq. exact (F x Hx).
  - intros r' (T & C & b & a & E' & F). rewrite E' in E. rewrite (one_filter is_purl) in E; [discriminate| |].
    + unfold is_purl. rewrite T. reflexivity.
    + intros x Hx. apply str_eqb_neq. exact (F x Hx).
Qed.

(** * Steps that add one element each *)
Inductive Steps (doc : nat) : list (list extmap3 * element3) -> bstate -> bstate -> Prop :=
| steps_nil st : Steps doc [] st st
| steps_cons im e l st st1 st' : ~ is_document e -> Quiet doc im st st1 -> Steps doc l (add_new st1 e) st' -> Steps doc ((im, e) :: l) st st'.

Lemma steps_app doc l l' st st' st'' : Steps doc l st st' -> Steps doc l' st' st'' -> Steps doc (l ++ l') st st''.
Proof. induction 1; [auto|]. intro S. cbn. econstructor; eauto. Qed.

Lemma get_add_new_other st e i : WF st -> i <> e3_id e -> get_element (add_new st e) i = get_element st i.
Proof. intros W N. rewrite get_add_new by exact W. apply str_eqb_neq in N. rewrite N. reflexivity. Qed.
Lemma get_add_new_same st e : WF st -> get_element (add_new st e) (e3_id e) = Ok e.
Proof. intro W. rewrite get_add_new by exact W. rewrite str_eqb_refl. reflexivity. Qed.

Section Steps.
  Variable doc : nat.
  Lemma steps_wf l st st' : Steps doc l st st' -> WF st -> WF st'.
  Proof. induction 1; auto. intro W. apply IHSteps. apply WF_add_new. apply (qu_wf _ _ _ _ H0 W). Qed.
  Lemma steps_keep l st st' i x : Steps doc l st st' -> WF st -> ~ is_document x -> ~ In i (map (fun ie => e3_id (snd ie)) l) ->
    get_element st i = Ok x -> get_element st' i = Ok x.
  Proof.
    induction 1; auto. intros W Nx Ni G. cbn in Ni. apply IHSteps; auto.
    - apply WF_add_new. apply (qu_wf _ _ _ _ H0 W).
    - rewrite get_add_new_other; [|apply (qu_wf _ _ _ _ H0 W)|intro; subst; tauto]. apply (qu_keep _ _ _ _ H0); auto.
  Qed.
  Lemma steps_new l l1 ie l2 st st' : Steps doc l st st' -> WF st -> l = l1 ++ ie :: l2 -> ~ In (e3_id (snd ie)) (map (fun ie => e3_id (snd ie)) l2) ->
    get_element st' (e3_id (snd ie)) = Ok (snd ie).
  Proof.
    intro S. revert l1. induction S as [|im e l st st1 st' Ne Q S IH]; intros l1 W E Ni; [destruct l1; discriminate|].
    assert (W1 : WF (add_new st1 e)) by (apply WF_add_new; apply (qu_wf _ _ _ _ Q W)).
    destruct l1 as [|ie1 l1]; cbn in E.
    - injection E as <- <-. cbn [snd] in *. apply (steps_keep _ _ _ _ _ S W1 Ne Ni). apply get_add_new_same. apply (qu_wf _ _ _ _ Q W).
    - injection E as _ E. exact (IH l1 W1 E Ni).
  Qed.
  Lemma steps_back l st st' i x : Steps doc l st st' -> WF st -> ~ is_document x -> get_element st' i = Ok x ->
    get_element st i = Ok x \/ (exists a, x = E3Actor a) \/ (exists im, In (im, x) l /\ i = e3_id x).
  Proof.
    intro S. induction S as [|im e l st st1 st' Ne Q S IH]; intros W Nx G; [auto|].
    assert (W1 : WF st1) by apply (qu_wf _ _ _ _ Q W).
    destruct (IH (WF_add_new _ _ W1) Nx G) as [X|[X|(im' & X & Y)]]; [|auto|right; right; exists im'; split; [right; exact X|exact Y]].
    rewrite get_add_new in X by exact W1. destruct (str_eqb i (e3_id e)) eqn:E.
    - apply str_eqb_eq in E. injection X as <-. right; right. exists im. split; [left; reflexivity|exact E].
    - destruct (qu_back _ _ _ _ Q i x W Nx X) as [Y|Y]; auto.
  Qed.
  Lemma steps_keys l st st' : Steps doc l st st' -> forall k, In k (keys st) \/ In k (map (fun ie => e3_id (snd ie)) l) -> In k (keys st').
  Proof.
    induction 1 as [|im e l st st1 st' Ne Q S IH]; intros k Hk; [destruct Hk as [Hk|[]]; exact Hk|]. apply IH.
    assert (X : forall k, In k (keys (add_new st1 e)) <-> k = e3_id e \/ In k (keys st1)).
    { intro j. unfold keys. rewrite add_new_map. apply GraphFacts.keys_set. }
    rewrite X. cbn in Hk. destruct Hk as [Hk|[Hk|Hk]]; [left; right; apply (qu_keys _ _ _ _ Q k Hk)|left; left; auto|right; exact Hk].
  Qed.
  Lemma steps_nodup l st st' : Steps doc l st st' -> NoDup (keys st) -> NoDup (keys st').
  Proof.
    induction 1 as [|im e l st st1 st' Ne Q S IH]; auto. intro N. apply IH. unfold keys. rewrite add_new_map. apply GraphFacts.nodup_set.
    apply (qu_nodup _ _ _ _ Q N).
  Qed.
  Lemma steps_map l st st' k : Steps doc l st st' -> WF st -> In k (keys st) -> ~ In k (map (fun ie => e3_id (snd ie)) l) ->
    assoc k (b_map st') = assoc k (b_map st).
  Proof.
    induction 1 as [|im e l st st1 st' Ne Q S IH]; auto. intros W Hk Ni. cbn in Ni. rewrite IH.
    - rewrite add_new_map, assoc_dict_set_other by (intro; subst; tauto). apply (qu_map _ _ _ _ Q k W Hk).
    - apply WF_add_new. apply (qu_wf _ _ _ _ Q W).
    - unfold keys. rewrite add_new_map. apply GraphFacts.keys_set. right. apply (qu_keys _ _ _ _ Q k Hk).
    - tauto.
  Qed.
  Lemma steps_doc l st st' d : Steps doc l st st' -> nth_error (b_objs st) doc = Some (E3Document d) ->
    nth_error (b_objs st') doc = Some (E3Document {| d3_id := d3_id d; d3_name := d3_name d; d3_element := d3_element d; d3_root := d3_root d;
               d3_ci := d3_ci d; d3_comment := d3_comment d; d3_namespaces := d3_namespaces d; d3_imports := d3_imports d ++ flat_map fst l |}).
  Proof.
    intro S. revert d. induction S as [|im e l st st1 st' Ne Q S IH]; intros d Hd; [cbn; rewrite doc3_eta; exact Hd|].
    apply (qu_doc _ _ _ _ Q) in Hd. specialize (IH {| d3_id := d3_id d; d3_name := d3_name d; d3_element := d3_element d; d3_root := d3_root d;
               d3_ci := d3_ci d; d3_comment := d3_comment d; d3_namespaces := d3_namespaces d; d3_imports := d3_imports d ++ im |}).
    cbn [d3_id d3_name d3_element d3_root d3_ci d3_comment d3_namespaces d3_imports] in IH. cbn [flat_map fst]. rewrite <- app_assoc in IH. apply IH. rewrite add_new_objs. rewrite nth_error_app1; [exact Hd|]. apply nth_error_Some. congruence.
  Qed.
  Lemma steps_cis l st st' j c : Steps doc l st st' -> nth_error (b_cis st) j = Some c -> nth_error (b_cis st') j = Some c.
  Proof. induction 1 as [|im e l st st1 st' Ne Q S IH]; auto. intro Hc. apply IH. rewrite add_new_cis. apply (qu_cis _ _ _ _ Q j c Hc). Qed.
End Steps.

Lemma each_steps {A} doc (f : A -> bstate -> result bstate) (R : A -> list extmap3 * element3 -> bstate -> Prop) l st st' :
  (forall x st st', In x l -> f x st = Ok st' -> exists ie, Steps doc [ie] st st' /\ R x ie st') -> each f l st = Ok st' ->
  exists ies, Steps doc ies st st' /\ Forall2 (fun x ie => exists sti iesi, R x ie sti /\ Steps doc iesi sti st') l ies.
Proof.
  revert st. induction l as [|x l IH]; intros st Hf H; cbn in H.
  - injection H as <-. exists []. split; constructor.
  - apply bind_inv in H as (st1 & H1 & H2). destruct (Hf x st st1 (or_introl eq_refl) H1) as (ie & S1 & R1).
    destruct (IH st1 (fun y s s' Hy => Hf y s s' (or_intror Hy)) H2) as (ies & S2 & F). exists (ie :: ies). split.
    + exact (steps_app _ [ie] _ _ _ _ S1 S2).
    + constructor; [|exact F]. exists st1, ies. auto.
Qed.

Lemma enum_purpose u : enum_member SoftwarePurpose (purpose_name u) = Ok (purpose_name u).
Proof. destruct u; reflexivity. Qed.
Lemma enum_annotation t : enum_member AnnotationType (annotation_type_name t) = Ok (annotation_type_name t).
Proof. destruct t; reflexivity. Qed.
Lemma copyright_text v : bump_copyright v = text_of v.
Proof. reflexivity. Qed.

Definition PackageStep ns refs (p : package) (ie : list extmap3 * element3) (st' : bstate) : Prop :=
  fst ie = import_of (pk_id p) /\ exists x, snd ie = E3Package x /\ get_full_element_spdx_id (pk_id p) ns refs = Ok (p3_id x)
    /\ PackageSays ns p x /\ p3_concluded x = None /\ p3_declared x = None
    /\ (forall i, In i (p3_supplied x ++ p3_originated x) -> In i (keys st')).
Lemma package_step p ns refs doc st st' : bump_package p ns refs doc st = Ok st' ->
  exists ie, Steps doc [ie] st st' /\ PackageStep ns refs p ie st'.
Proof.
  intro H. unfold bump_package in H. apply bind_inv in H as (id & Hid & H).
  destruct (bump_optional_actor (pk_supplier p) ns (import_external (pk_id p) doc st)) as [st1 sup] eqn:E1.
  destruct (bump_optional_actor (pk_originator p) ns st1) as [st2 ori] eqn:E2.
  destruct (optional_actor_quiet _ _ _ _ _ doc E1) as (-> & Q1 & K1). destruct (optional_actor_quiet _ _ _ _ _ doc E2) as (-> & Q2 & K2).
  rewrite bump_checksums in H. cbn [bind] in H. rewrite external_refs_are in H. apply bind_inv in H as (pu & Hpu & H).
  apply bind_inv in H as (hp & Hhp & H). injection H as <-.
  assert (Q : Quiet doc (import_of (pk_id p)) st st2).
  { pose proof (quiet_trans _ _ _ _ _ _ (import_quiet (pk_id p) doc st) (quiet_trans _ _ _ _ _ _ Q1 Q2)) as Q. rewrite app_nil_r in Q. exact Q. }
  eexists (import_of (pk_id p), _). split; [econstructor; [|exact Q|constructor]; intros [? X]; discriminate|].
  split; [reflexivity|]. eexists. split; [reflexivity|]. cbn [p3_id p3_concluded p3_declared p3_supplied p3_originated]. split; [exact Hid|]. split; [|split; [reflexivity|split; [reflexivity|]]].
  - constructor; cbn.
    + reflexivity.
    + auto.
    + reflexivity.
    + auto.
    + auto.
    + destruct (pk_purpose p) as [u|]; [rewrite enum_purpose in Hpu|]; cbn in Hpu; congruence.
    + split; [destruct (pk_download p); reflexivity|]. split; [|reflexivity]. unfold check_homepage in Hhp. destruct (pk_homepage p) as [[| |]|]; cbn; congruence.
    + reflexivity.
    + reflexivity.
    + pose proof (single_purl_is (pk_refs p)) as S. destruct (single_purl (pk_refs p)) as [l|].
      * left. destruct S as (r & HO & ->). exists r. auto.
      * right. auto.
  - intros i Hi. unfold keys. rewrite add_new_map. apply GraphFacts.keys_set. right. apply in_app_iff in Hi as [Hi|Hi].
    + apply (qu_keys _ _ _ _ Q2). exact (K1 i Hi).
    + exact (K2 i Hi).
Qed.

Definition FileStep ns refs (f : file) (ie : list extmap3 * element3) (st' : bstate) : Prop :=
  fst ie = import_of (fi_id f) /\ exists x, snd ie = E3File x /\ get_full_element_spdx_id (fi_id f) ns refs = Ok (f3_id x) /\ FileSays f x.
Lemma file_step f ns refs doc st st' : bump_file f ns refs doc st = Ok st' -> exists ie, Steps doc [ie] st st' /\ FileStep ns refs f ie st'.
Proof.
  intro H. unfold bump_file in H. apply bind_inv in H as (id & Hid & H). rewrite bump_checksums in H. cbn [bind] in H. injection H as <-.
  eexists (import_of (fi_id f), _). split; [econstructor; [|apply import_quiet|constructor]; intros [? X]; discriminate|].
  split; [reflexivity|]. eexists. split; [reflexivity|]. cbn [f3_id]. split; [exact Hid|]. unfold FileSays; cbn. auto.
Qed.
Definition SnippetStep ns refs (s : snippet) (ie : list extmap3 * element3) (st' : bstate) : Prop :=
  fst ie = import_of (sn_id s) /\ exists x, snd ie = E3Snippet x /\ get_full_element_spdx_id (sn_id s) ns refs = Ok (s3_id x) /\ SnippetSays s x.
Lemma snippet_step s ns refs doc st st' : bump_snippet s ns refs doc st = Ok st' -> exists ie, Steps doc [ie] st st' /\ SnippetStep ns refs s ie st'.
Proof.
  intro H. unfold bump_snippet in H. apply bind_inv in H as (id & Hid & H). injection H as <-.
  eexists (import_of (sn_id s), _). split; [econstructor; [|apply import_quiet|constructor]; intros [? X]; discriminate|].
  split; [reflexivity|]. eexists. split; [reflexivity|]. cbn [s3_id]. split; [exact Hid|]. unfold SnippetSays; cbn. auto 10.
Qed.

(** * Annotations *)
Lemma quiet_cis doc st l : (forall j c, nth_error (b_cis st) j = Some c -> nth_error l j = Some c) -> Quiet doc [] st (with_cis st l).
Proof.
  intro H. constructor.
  - auto.
  - auto.
  - auto.
  - auto.
  - auto.
  - auto.
  - intros d Hd. rewrite doc3_eta. exact Hd.
  - exact H.
Qed.
Lemma bump_actor_cis a ns ci st l : bump_actor a ns ci (with_cis st l) = (with_cis (fst (bump_actor a ns ci st)) l, snd (bump_actor a ns ci st)).
Proof.
  unfold bump_actor. cbn [with_cis b_map]. destruct (assoc _ (b_map st)); [reflexivity|]. cbn [fst snd]. f_equal.
  unfold add_new, new_object. cbn [with_cis with_objs b_objs b_cis b_map]. unfold add_element. cbn [with_cis with_objs b_objs b_cis b_map].
  rewrite nth_error_snoc. reflexivity.
Qed.

Definition AnnotationStep ns counter c (a : annotation) (ie : list extmap3 * element3) (st' : bstate) : Prop :=
  fst ie = [] /\ exists x, snd ie = E3Annotation x /\ n3_id x = annotation_id ns counter /\ n3_type x = annotation_type_name (an_type a)
    /\ n3_subject x = here ns (an_id a) /\ n3_statement x = an_comment a /\ nth_error (b_cis st') (n3_ci x) = Some (annotation_cinfo ns a c)
    /\ In (actor_id ns (an_annotator a)) (keys st').
Lemma annotation_step a ci c ns counter doc st st' : nth_error (b_cis st) ci = Some c -> bump_annotation a ci ns counter st = Ok st' ->
  exists ie, Steps doc [ie] st st' /\ AnnotationStep ns counter c a ie st'.
Proof.
  intros Hc H. unfold bump_annotation in H. rewrite Hc in H. cbn [new_cinfo] in H. rewrite bump_actor_cis in H.
  destruct (bump_actor (an_annotator a) ns (Some (List.length (b_cis st))) st) as [st1 id] eqn:E. cbn [fst snd] in H.
  destruct (bump_actor_is _ _ _ _ _ _ doc E) as (-> & Q & K & Ec).
  set (l := b_cis st ++ [annotation_cinfo ns a c]).
  assert (X : (if is_agent (ac_type (an_annotator a)) then
       with_cis (with_cis st1 (b_cis st ++ [{| c3_created := an_date a; c3_created_by := c3_created_by c; c3_created_using := c3_created_using c; c3_data_license := c3_data_license c |}]))
         (set_nth (List.length (b_cis st)) {| c3_created := an_date a; c3_created_by := [actor_id ns (an_annotator a)]; c3_created_using := c3_created_using c; c3_data_license := c3_data_license c |}
           (b_cis (with_cis st1 (b_cis st ++ [{| c3_created := an_date a; c3_created_by := c3_created_by c; c3_created_using := c3_created_using c; c3_data_license := c3_data_license c |}]))))
       else with_cis st1 (b_cis st ++ [{| c3_created := an_date a; c3_created_by := c3_created_by c; c3_created_using := c3_created_using c; c3_data_license := c3_data_license c |}]))
     = with_cis st1 l).
  { unfold l, annotation_cinfo. change (no_tool (an_annotator a)) with (is_agent (ac_type (an_annotator a))). destruct (is_agent (ac_type (an_annotator a))); [|reflexivity]. unfold with_cis. cbn. f_equal.
    clear. induction (b_cis st) as [|x y IH]; cbn; [reflexivity|]. rewrite IH. reflexivity. }
  rewrite X in H. clear X. rewrite enum_annotation in H. cbn [bind] in H. injection H as <-.
  eexists ([], _). split.
  - econstructor; [|eapply quiet_trans with (im := []) (im' := []); [exact Q|apply quiet_cis with (l := l)]|constructor].
    + intros [? X]; discriminate.
    + rewrite Ec. intros j x Hj. unfold l. rewrite nth_error_app1; [exact Hj|]. apply nth_error_Some. congruence.
  - split; [reflexivity|]. eexists. split; [reflexivity|]. cbn [n3_id n3_type n3_subject n3_statement n3_ci]. repeat (split; [reflexivity|]).
    split; [rewrite add_new_cis; cbn [with_cis b_cis]; apply nth_error_snoc|].
    unfold keys. rewrite add_new_map. apply GraphFacts.keys_set. right. exact K.
Qed.
Lemma annotations_steps l ci c ns counter doc st st' : nth_error (b_cis st) ci = Some c -> bump_annotations l ci ns counter st = Ok st' ->
  exists ies, Steps doc ies st st' /\ List.length ies = List.length l /\
    forall j a, nth_error l j = Some a -> exists ie sti iesi, nth_error ies j = Some ie /\ AnnotationStep ns (counter + j) c a ie sti /\ Steps doc iesi sti st'.
Proof.
  revert counter st. induction l as [|a l IH]; intros counter st Hc H; cbn in H.
  - injection H as <-. exists []. split; [constructor|]. split; [reflexivity|]. intros [|j] a Ha; discriminate.
  - apply bind_inv in H as (st1 & H1 & H2). destruct (annotation_step _ _ _ _ _ doc _ _ Hc H1) as (ie & S1 & A1).
    pose proof (steps_cis _ _ _ _ _ _ S1 Hc) as Hc1. destruct (IH _ _ Hc1 H2) as (ies & S2 & Ln & F). exists (ie :: ies).
    split; [exact (steps_app _ [ie] _ _ _ _ S1 S2)|]. split; [cbn; congruence|]. intros [|j] b Hb; cbn in Hb.
    + injection Hb as <-. exists ie, st1, ies. rewrite Nat.add_0_r. auto.
    + destruct (F j b Hb) as (ie' & sti & iesi & E1 & E2 & E3). exists ie', sti, iesi. rewrite Nat.add_succ_r. auto.
Qed.
Lemma annotations_ok l ci c ns counter st : nth_error (b_cis st) ci = Some c -> exists st', bump_annotations l ci ns counter st = Ok st'.
Proof.
  revert counter st. induction l as [|a l IH]; intros counter st Hc; cbn; [eexists; reflexivity|].
  destruct (bump_annotation a ci ns counter st) as [st1|e] eqn:E.
  - cbn. apply IH. destruct (annotation_step _ _ _ _ _ 0 _ _ Hc E) as (ie & S1 & _). exact (steps_cis _ _ _ _ _ _ S1 Hc).
  - exfalso. unfold bump_annotation in E. rewrite Hc in E. cbn [new_cinfo] in E. rewrite bump_actor_cis in E.
    rewrite enum_annotation in E. discriminate.
Qed.

