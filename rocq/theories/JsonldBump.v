(** The payloads that the conversion from SPDX 2 makes can be written as JSON-LD. *)
From Verif Require Import Py PyFacts Data Oracles Basics Json JsonFacts DocUtils Payload Bump BumpSpec BumpFacts BumpMerge BumpDoc BumpRels BumpPhases Jsonld JsonldSpec JsonldFacts.

(** ** The dates in an object; apart from numbers with a fraction and dictionaries only they can fail *)
Fixpoint dates_of (v : pyobj) : list datetime :=
  match v with
  | XDate d => [d]
  | XList l => flat_map dates_of l
  | XObj _ attrs => flat_map (fun p => dates_of (snd p)) attrs
  | _ => []
  end.
Fixpoint regular (v : pyobj) : bool :=
  match v with
  | XFloat _ | XDict _ => false
  | XList l => forallb regular l
  | XObj _ attrs => forallb (fun p => regular (snd p)) attrs
  | _ => true
  end.
Section Induction.
  Variable P : pyobj -> Prop.
  Hypothesis none : P XNone.
  Hypothesis str : forall s, P (XStr s).
  Hypothesis int : forall z, P (XInt z).
  Hypothesis bool_ : forall b, P (XBool b).
  Hypothesis float : forall s, P (XFloat s).
  Hypothesis dict : forall l, P (XDict l).
  Hypothesis ver : forall s, P (XVersion s).
  Hypothesis date : forall d, P (XDate d).
  Hypothesis enum : forall n, P (XEnum n).
  Hypothesis lst : forall l, Forall P l -> P (XList l).
  Hypothesis obj : forall c attrs, Forall (fun p => P (snd p)) attrs -> P (XObj c attrs).
  Fixpoint pyobj_all_ind (v : pyobj) : P v :=
    match v with
    | XNone => none | XStr s => str s | XInt z => int z | XBool b => bool_ b | XFloat s => float s | XDict l => dict l | XVersion s => ver s | XDate d => date d | XEnum n => enum n
    | XList l => lst l ((fix all l : Forall P l := match l with [] => Forall_nil P | x :: r => Forall_cons x (pyobj_all_ind x) (all r) end) l)
    | XObj c attrs =>
        obj c attrs ((fix all l : Forall (fun p => P (snd p)) l :=
                        match l with [] => Forall_nil _ | p :: r => Forall_cons p (pyobj_all_ind (snd p)) (all r) end) attrs)
    end.
End Induction.

Lemma convert_fails v e : regular v = true -> convert_to_json_ld v = Raise e -> exists t, In t (dates_of v) /\ datetime_to_iso_string t = Raise e.
Proof.
  revert e. induction v using pyobj_all_ind; intros e G C.
  - discriminate C.
  - cbn in C. destruct s; discriminate C.
  - cbn in C. destruct z; discriminate C.
  - cbn in C. destruct b; discriminate C.
  - discriminate G.
  - discriminate G.
  - discriminate C.
  - cbn in C. destruct (datetime_to_iso_string d) eqn:D; [discriminate C|]. cbn in C. exists d. split; [left; reflexivity|]. congruence.
  - discriminate C.
  - rewrite convert_list in C. assert (I : items l = Raise e).
    { destruct l; [discriminate C|]. destruct (items (p :: l)); [discriminate C|]. cbn in C. congruence. }
    clear C. cbn [dates_of]. cbn [regular] in G. induction H as [|x r X R IH]; [discriminate I|]. cbn [items] in I. cbn [flat_map].
    cbn [forallb] in G. apply andb_prop in G as [G1 G]. specialize (IH G). specialize (fun e => X e G1).
    destruct (xtruthy x).
    + destruct (convert_to_json_ld x) eqn:C; cbn in I.
      * destruct (items r) eqn:J; [discriminate I|]. cbn in I. assert (I' : Raise e0 = Raise e :> result (list json)) by congruence.
        destruct (IH I') as (t & T & D). exists t. split; [apply in_or_app; auto|exact D].
      * assert (E : e0 = e) by congruence. subst. destruct (X _ eq_refl) as (t & T & D). exists t. split; [apply in_or_app; auto|exact D].
    + destruct (IH I) as (t & T & D). exists t. split; [apply in_or_app; auto|exact D].
  - rewrite convert_obj in C. destruct (loop attrs [($"@type", JStr c)]) eqn:L; [discriminate C|]. cbn in C.
    assert (E : e0 = e) by congruence. subst e0. clear C. cbn [dates_of]. cbn [regular] in G. revert L. generalize [($"@type", JStr c)].
    induction H as [|[a x] r X R IH]; intros acc L; [discriminate L|]. cbn [loop] in L. cbn [flat_map snd] in *.
    cbn [forallb snd] in G. apply andb_prop in G as [G1 G]. specialize (IH G). specialize (fun e => X e G1).
    destruct (xtruthy x).
    + destruct (convert_to_json_ld x) eqn:C; cbn in L.
      * destruct (IH _ L) as (t & T & D). exists t. split; [apply in_or_app; auto|exact D].
      * assert (E : e0 = e) by congruence. subst. destruct (X _ eq_refl) as (t & T & D). exists t. split; [apply in_or_app; auto|exact D].
    + destruct (IH _ L) as (t & T & D). exists t. split; [apply in_or_app; auto|exact D].
Qed.

(** ** An element that is converted has an entry *)
Lemma time_or o : (exists t, Time o t) \/ (exists e, convert_to_json_ld (xopt XDate o) = Raise e /\ xtruthy (xopt XDate o) = true).
Proof.
  destruct o as [d|]; [|left; eexists; constructor]. destruct (datetime_to_iso_string d) eqn:D.
  - left. eexists. constructor. exact D.
  - right. cbn. rewrite D. cbn. eauto.
Qed.
Lemma creation_or st o : (forall c, o = Some c -> c < List.length (b_cis st)) ->
  (exists ci, Creation st o ci) \/ (exists e, convert_to_json_ld (cinfo_if st o) = Raise e /\ xtruthy (cinfo_if st o) = true).
Proof.
  destruct o as [a|]; [|left; eexists; constructor]. intro L. specialize (L a eq_refl).
  destruct (nth_error (b_cis st) a) as [c|] eqn:N; [|apply nth_error_None in N; lia].
  destruct (time_or (Some (c3_created c))) as [[t T]|(e & T & _)]; [left; eexists; econstructor; eassumption|]. right.
  cbn [cinfo_if]. unfold cinfo_at. rewrite N. cbn [xopt].
  cut (exists e', convert_to_json_ld (cinfo_object c) = Raise e'); [intros [e' E]; exists e'; split; [exact E|reflexivity]|].
  unfold cinfo_object. apply (object_raises _ _ $"_created" (XDate (c3_created c)) e); [cbn [In]; tauto|reflexivity|exact T].
Qed.
Ltac in_attrs := unfold element_attrs, artifact_attrs, software_attrs, relationship_attrs; cbn [app In]; repeat (first [left; reflexivity|right]).
Lemma entry_or st e : Known (List.length (b_cis st)) e -> (exists j, Entry st e j) \/ (exists err, convert_to_json_ld (element_object st e) = Raise err).
Proof.
  intro K. destruct e as [a|p|f|s|r|a|d]; cbn [Known] in K.
  - destruct K as [_ K]. destruct (creation_or st _ K) as [[ci C]|(e & C & T)]; [left; eexists; constructor; exact C|right].
    cbn [element_object]. apply (object_raises _ _ $"_creation_info" (cinfo_if st (a3_ci a)) e); [in_attrs|exact T|exact C].
  - destruct (time_or (p3_built p)) as [[b B]|(e & C & T)].
    2:{ right. cbn [element_object]. apply (object_raises _ _ $"_built_time" (xopt XDate (p3_built p)) e); [in_attrs|exact T|exact C]. }
    destruct (time_or (p3_release p)) as [[r R]|(e & C & T)].
    2:{ right. cbn [element_object]. apply (object_raises _ _ $"_release_time" (xopt XDate (p3_release p)) e); [in_attrs|exact T|exact C]. }
    destruct (time_or (p3_valid_until p)) as [[v V]|(e & C & T)].
    2:{ right. cbn [element_object]. apply (object_raises _ _ $"_valid_until_time" (xopt XDate (p3_valid_until p)) e); [in_attrs|exact T|exact C]. }
    left. eexists. apply package_entry; eassumption.
  - left. eexists. apply file_entry.
  - left. eexists. apply snippet_entry.
  - left. destruct (r3_dependency r) eqn:D; eexists; [apply dependency_entry|apply relationship_entry]; exact D.
  - destruct K as [_ K]. destruct (creation_or st (Some (n3_ci a))) as [[ci C]|(e & C & T)]; [intros c E; congruence|left; eexists; constructor; exact C|right].
    cbn [element_object]. apply (object_raises _ _ $"_creation_info" (cinfo_if st (Some (n3_ci a))) e); [in_attrs|exact T|exact C].
  - destruct K as [_ K]. destruct (creation_or st (Some (d3_ci d))) as [[ci C]|(e & C & T)]; [intros c E; congruence|left; eexists; constructor; exact C|right].
    cbn [element_object]. apply (object_raises _ _ $"_creation_info" (cinfo_if st (Some (d3_ci d))) e); [in_attrs|exact T|exact C].
Qed.
Lemma entry_iff st e j : Known (List.length (b_cis st)) e -> (convert_to_json_ld (element_object st e) = Ok j <-> Entry st e j).
Proof.
  intro K. split; [|apply entry_converted; exact K]. intro C. destruct (entry_or st e K) as [[j' E]|[err E]]; [|congruence].
  pose proof (entry_converted st e j' K E). congruence.
Qed.

(** ** Invariant of the conversion; [T]: the dates of the document *)
Section Invariant.
Variable T : list datetime.
Definition given (o : option datetime) : list datetime := match o with Some t => [t] | None => [] end.
Definition Good (n : nat) (e : element3) : Prop :=
  Known n e /\ match e with E3Package p => incl (given (p3_built p) ++ given (p3_release p) ++ given (p3_valid_until p)) T | _ => True end.
Definition Inv (st : bstate) : Prop :=
  Forall (Good (List.length (b_cis st))) (b_objs st) /\ Forall (fun c => In (c3_created c) T) (b_cis st).

Lemma good_mono n m e : n <= m -> Good n e -> Good m e.
Proof.
  intros L [K D]. split; [|exact D]. destruct e; cbn [Known] in *; try exact K.
  - destruct K as [K1 K2]. split; [exact K1|]. intros c E. specialize (K2 c E). lia.
  - destruct K as [K1 K2]. split; [exact K1|lia].
  - destruct K as [K1 K2]. split; [exact K1|lia].
Qed.
Lemma forall_set_nth {A} (P : A -> Prop) i x l : Forall P l -> P x -> Forall P (set_nth i x l).
Proof.
  intros F X. apply Forall_forall. intros y I. apply In_nth_error in I as [j J]. rewrite set_nth_nth in J.
  destruct (Nat.eqb j i); [destruct (Nat.ltb i (List.length l)); congruence|]. rewrite Forall_forall in F. apply F. exact (nth_error_In _ _ J).
Qed.
Lemma inv_map st m : Inv st -> Inv (with_map st m).
Proof. exact (fun H => H). Qed.
Lemma inv_add_element st a : Inv st -> Inv (add_element st a).
Proof. intro H. unfold add_element. destruct (nth_error (b_objs st) a); [apply inv_map|]; exact H. Qed.
Lemma inv_new st e st' a : Inv st -> Good (List.length (b_cis st)) e -> new_object st e = (st', a) -> Inv st' /\ b_cis st' = b_cis st.
Proof.
  intros [H1 H2] G E. unfold new_object in E. assert (E' : st' = with_objs st (b_objs st ++ [e])) by congruence. subst st'.
  split; [|reflexivity]. split; [|exact H2]. cbn. apply Forall_app. split; [exact H1|]. constructor; [exact G|constructor].
Qed.
Lemma inv_add_new st e : Inv st -> Good (List.length (b_cis st)) e -> Inv (add_new st e) /\ b_cis (add_new st e) = b_cis st.
Proof.
  intros H G. unfold add_new. destruct (new_object st e) as [st' a] eqn:E. destruct (inv_new _ _ _ _ H G E) as [I C].
  split; [apply inv_add_element; exact I|]. unfold add_element. destruct (nth_error (b_objs st') a); exact C.
Qed.
Lemma inv_cinfo st c st' a : Inv st -> In (c3_created c) T -> new_cinfo st c = (st', a) -> Inv st' /\ a < List.length (b_cis st') /\ List.length (b_cis st) <= List.length (b_cis st').
Proof.
  intros [H1 H2] I E. unfold new_cinfo in E. assert (st' = with_cis st (b_cis st ++ [c]) /\ a = List.length (b_cis st)) as [-> ->] by (split; congruence).
  cbn. rewrite app_length. cbn. split; [|lia]. split; cbn.
  - rewrite app_length. cbn. apply Forall_forall. intros e J. rewrite Forall_forall in H1. apply (good_mono (List.length (b_cis st))); [lia|auto].
  - apply Forall_app. split; [exact H2|]. constructor; [exact I|constructor].
Qed.
Lemma inv_set_cinfo st i c : Inv st -> In (c3_created c) T -> Inv (with_cis st (set_nth i c (b_cis st))).
Proof. intros [H1 H2] I. split; cbn; [rewrite set_nth_length; exact H1|]. apply forall_set_nth; assumption. Qed.
Lemma inv_update f doc st : Inv st -> (forall d, Good (List.length (b_cis st)) (E3Document d) -> Good (List.length (b_cis st)) (E3Document (f d))) ->
  Inv (update_document f doc st).
Proof.
  intros [H1 H2] F. unfold update_document. destruct (nth_error (b_objs st) doc) as [[]|] eqn:N; try (split; assumption).
  split; cbn; [|exact H2]. apply forall_set_nth; [exact H1|]. apply F. rewrite Forall_forall in H1. apply H1. exact (nth_error_In _ _ N).
Qed.

(** *** the single functions *)
Lemma known_email : KnownWord identifier_words $"EMAIL".
Proof. unfold KnownWord. cbn [identifier_words map fst In]. tauto. Qed.
Lemma inv_actor a ns ci st st' id : Inv st -> (forall c, ci = Some c -> c < List.length (b_cis st)) -> bump_actor a ns ci st = (st', id) ->
  Inv st' /\ b_cis st' = b_cis st.
Proof.
  intros H L E. unfold bump_actor in E. destruct (assoc _ (b_map st)).
  - assert (E' : st' = st) by congruence. subst. split; [exact H|reflexivity].
  - apply (f_equal fst) in E. cbn [fst] in E. subst st'. apply inv_add_new; [exact H|]. split; [|exact I]. cbn [Known a3_extids a3_ci]. split; [|exact L].
    destruct (ac_email a) as [[|x m]|]; constructor; [exact known_email|constructor].
Qed.
Lemma inv_optional_actor a ns st st' l : Inv st -> bump_optional_actor a ns st = (st', l) -> Inv st' /\ b_cis st' = b_cis st.
Proof.
  intros H E. unfold bump_optional_actor in E. destruct a as [[x|]|].
  - destruct (bump_actor x ns None st) as [st1 id] eqn:A. assert (E' : st' = st1) by congruence. subst. apply (inv_actor _ _ _ _ _ _ H) in A; [exact A|discriminate].
  - assert (E' : st' = st) by congruence. subst. auto.
  - assert (E' : st' = st) by congruence. subst. auto.
Qed.
Lemma inv_creators l : forall ns ci st cr tl st' cr' tl', Inv st -> ci < List.length (b_cis st) -> bump_creators l ns ci st cr tl = (st', cr', tl') ->
  Inv st' /\ b_cis st' = b_cis st.
Proof.
  induction l as [|a l IH]; intros ns ci st cr tl st' cr' tl' H L E; cbn [bump_creators] in E.
  - assert (E' : st' = st) by congruence. subst. auto.
  - destruct (bump_actor a ns (Some ci) st) as [st1 id] eqn:A. apply (inv_actor _ _ _ _ _ _ H) in A as [H1 C1]; [|intros c Q; congruence].
    destruct (is_agent (ac_type a)); apply IH in E; try assumption; try (rewrite C1; exact L); destruct E as [E1 E2]; (split; [exact E1|congruence]).
Qed.
Lemma known_hash c : KnownWord hash_words (h3_alg (hash_of c)).
Proof. unfold KnownWord. cbn [hash_of h3_alg]. destruct (ck_alg c); vm_compute; tauto. Qed.
Lemma known_hashes l : KnownHashes (map hash_of l).
Proof. apply Forall_forall. intros h I. apply in_map_iff in I as (c & <- & _). apply known_hash. Qed.
Lemma external_refs_imports l maps : map_result bump_external_document_ref l = Ok maps -> Forall (fun m => KnownHashes (em_verified m)) (map snd maps).
Proof.
  revert maps. induction l as [|r l IH]; intros maps E; cbn [map_result] in E.
  - assert (E' : maps = []) by congruence. subst. constructor.
  - apply bind_inv in E as (m & M & E). apply bind_inv in E as (ms & Ms & E). assert (E' : maps = m :: ms) by congruence. subst. cbn [map].
    constructor; [|apply IH; exact Ms]. unfold bump_external_document_ref in M. rewrite bump_checksum_is in M. cbn [bind] in M.
    apply (f_equal (fun r => match r with Ok x => em_verified (snd x) | Raise _ => [] end)) in M. cbn [snd em_verified] in M. rewrite <- M.
    constructor; [apply known_hash|constructor].
Qed.
Lemma inv_creation_info c st st' doc : Inv st -> In (ci_created c) T -> bump_creation_info c st = Ok (st', doc) ->
  Inv st' /\ 0 < List.length (b_cis st').
Proof.
  intros H I E. unfold bump_creation_info in E. apply bind_inv in E as (maps & M & E). apply external_refs_imports in M.
  destruct (new_cinfo st _) as [st1 ci] eqn:N. apply (inv_cinfo _ _ _ _ H) in N as (H1 & L1 & _); [|exact I].
  destruct (bump_creators _ _ _ _ _ _) as [[st2 cr] tl] eqn:B. apply (inv_creators _ _ _ _ _ _ _ _ _ H1 L1) in B as [H2 C2].
  cbv zeta in E. set (st3 := with_cis st2 _) in E.
  assert (H3 : Inv st3) by (apply inv_set_cinfo; [exact H2|exact I]).
  assert (L3 : ci < List.length (b_cis st3)) by (unfold st3; cbn; rewrite set_nth_length, C2; exact L1).
  destruct (new_object st3 _) as [st4 a] eqn:O. apply (inv_new _ _ _ _ H3) in O as [H4 C4].
  - assert (E' : st' = st4) by congruence. subst. split; [exact H4|]. rewrite C4. lia.
  - split; [|exact Logic.I]. cbn [Known d3_imports d3_ci]. split; [exact M|exact L3].
Qed.

Lemma known_external_refs skip refs : Forall (fun r => KnownWord reference_words (xr_type r)) (fst (bump_external_refs skip refs))
  /\ Forall (fun i => KnownWord identifier_words (xi_type i)) (snd (bump_external_refs skip refs)).
Proof.
  induction refs as [|r refs [IH1 IH2]]; [split; constructor|]. cbn [bump_external_refs].
  destruct (bump_external_refs skip refs) as [xs is]. cbn [fst snd] in *.
  destruct (skip && is_purl r); [auto|]. unfold bump_external_package_ref.
  assert (K : match assoc (er_type r) external_ref_type_map with
              | Some (Some (RefType n)) => KnownWord reference_words n
              | Some (Some (IdType n)) => KnownWord identifier_words n
              | _ => True end).
  { unfold external_ref_type_map. cbn [assoc]. repeat (destruct (str_eqb _ _); [vm_compute; tauto|]). exact Logic.I. }
  destruct (assoc (er_type r) external_ref_type_map) as [[[n|n]|]|]; cbn [fst snd]; auto.
Qed.
Lemma known_purpose u : KnownWord purpose_words (purpose_name u).
Proof. unfold KnownWord. destruct u; vm_compute; tauto. Qed.
Lemma inv_import id doc st : Inv st -> Inv (import_external id doc st).
Proof.
  intro H. unfold import_external. destruct (has_char #":" id); [|exact H]. apply inv_update; [exact H|]. intros d [[K1 K2] _]. split; [|exact Logic.I].
  cbn [Known append_import d3_imports d3_ci]. split; [|exact K2]. apply Forall_app. split; [exact K1|]. constructor; [constructor|constructor].
Qed.
Lemma import_cis id doc st : b_cis (import_external id doc st) = b_cis st.
Proof. unfold import_external. destruct (has_char #":" id); [apply update_document_cis|reflexivity]. Qed.
Lemma inv_package p ns refs doc st st' : Inv st -> incl (given (pk_built p) ++ given (pk_release p) ++ given (pk_valid_until p)) T ->
  bump_package p ns refs doc st = Ok st' -> Inv st' /\ b_cis st' = b_cis st.
Proof.
  intros H D E. unfold bump_package in E. apply bind_inv in E as (id & _ & E). cbv zeta in E.
  pose proof (inv_import (pk_id p) doc st H) as H1. pose proof (import_cis (pk_id p) doc st) as C1.
  destruct (bump_optional_actor (pk_supplier p) ns (import_external (pk_id p) doc st)) as [st2 sup] eqn:A2.
  apply (inv_optional_actor _ _ _ _ _ H1) in A2 as [H2 C2].
  destruct (bump_optional_actor (pk_originator p) ns st2) as [st3 orig] eqn:A3. apply (inv_optional_actor _ _ _ _ _ H2) in A3 as [H3 C3].
  apply bind_inv in E as (hashes & Hs & E). rewrite bump_checksums in Hs. assert (Hs' : hashes = map hash_of (pk_checksums p)) by congruence. subst hashes.
  set (skip := match single_purl (pk_refs p) with Some _ => true | None => false end) in E. pose proof (known_external_refs skip (pk_refs p)) as X.
  destruct (bump_external_refs skip (pk_refs p)) as [xrefs xids]. cbn [fst snd] in X.
  apply bind_inv in E as (purpose & P & E). apply bind_inv in E as (home & _ & E).
  assert (E' : st' = add_new st3 _) by (symmetry; exact (f_equal (fun r => match r with Ok s => s | Raise _ => st end) E)). rewrite E'.
  match goal with |- Inv (add_new st3 ?e) /\ _ => assert (G : Good (List.length (b_cis st3)) e) end.
  { split; [|exact D]. cbn [Known p3_verified p3_extrefs p3_extids p3_purpose].
    split; [apply known_hashes|]. split; [exact (proj1 X)|]. split; [exact (proj2 X)|].
    destruct (pk_purpose p) as [u|].
    - rewrite enum_purpose in P. cbn [bind] in P. assert (P' : purpose = Some (purpose_name u)) by congruence. subst. apply known_purpose.
    - assert (P' : purpose = None) by congruence. subst. exact Logic.I. }
  destruct (inv_add_new st3 _ H3 G) as [H4 C4]. split; [exact H4|congruence].
Qed.
Lemma inv_file f ns refs doc st st' : Inv st -> bump_file f ns refs doc st = Ok st' -> Inv st' /\ b_cis st' = b_cis st.
Proof.
  intros H E. unfold bump_file in E. apply bind_inv in E as (id & _ & E). cbv zeta in E.
  pose proof (inv_import (fi_id f) doc st H) as H1. pose proof (import_cis (fi_id f) doc st) as C1.
  apply bind_inv in E as (hashes & Hs & E). rewrite bump_checksums in Hs. assert (Hs' : hashes = map hash_of (fi_checksums f)) by congruence. subst hashes.
  assert (E' : st' = add_new (import_external (fi_id f) doc st) _) by (symmetry; exact (f_equal (fun r => match r with Ok s => s | Raise _ => st end) E)). rewrite E'.
  match goal with |- Inv (add_new ?s ?e) /\ _ => assert (G : Good (List.length (b_cis s)) e) end.
  { split; [|exact Logic.I]. cbn [Known f3_verified]. apply known_hashes. }
  destruct (inv_add_new _ _ H1 G) as [H4 C4]. split; [exact H4|congruence].
Qed.
Lemma inv_snippet s ns refs doc st st' : Inv st -> bump_snippet s ns refs doc st = Ok st' -> Inv st' /\ b_cis st' = b_cis st.
Proof.
  intros H E. unfold bump_snippet in E. apply bind_inv in E as (id & _ & E). cbv zeta in E.
  pose proof (inv_import (sn_id s) doc st H) as H1. pose proof (import_cis (sn_id s) doc st) as C1.
  assert (E' : st' = add_new (import_external (sn_id s) doc st) _) by (symmetry; exact (f_equal (fun r => match r with Ok s => s | Raise _ => st end) E)). rewrite E'.
  match goal with |- Inv (add_new ?s ?e) /\ _ => assert (G : Good (List.length (b_cis s)) e) end.
  { split; exact Logic.I. }
  destruct (inv_add_new _ _ H1 G) as [H4 C4]. split; [exact H4|congruence].
Qed.
Lemma inv_each {A} (f : A -> bstate -> result bstate) l : forall st st', (forall a s s', In a l -> Inv s -> f a s = Ok s' -> Inv s' /\ b_cis s' = b_cis s) ->
  Inv st -> each f l st = Ok st' -> Inv st' /\ b_cis st' = b_cis st.
Proof.
  induction l as [|a l IH]; intros st st' F H E; cbn [each] in E.
  - assert (E' : st' = st) by congruence. subst. auto.
  - apply bind_inv in E as (s & S1 & E). destruct (F a st s (or_introl eq_refl) H S1) as [H1 C1].
    destruct (IH s st') as [H2 C2]; [intros; eapply F; [right|..]; eassumption|exact H1|exact E|]. split; [exact H2|congruence].
Qed.

(** *** relationships *)
Lemma known_relationship r ns i x n : bump_relationship r ns i = Some x -> Good n (E3Relationship x).
Proof.
  intro E. split; [|exact Logic.I]. unfold bump_relationship in E.
  assert (K : match relationship_mapping (re_type r) with
              | Some p => KnownWord relationship_words (rp_type p) /\ KnownWordIf scope_words (rp_scope p) /\ KnownWordIf linkage_words (rp_linkage p)
                          /\ KnownWordIf condition_words (rp_conditionality p)
              | None => True end) by (destruct (re_type r); vm_compute; tauto).
  assert (C : KnownWordIf completeness_words (fst (determine_completeness_and_to (re_related r)))) by (destruct (re_related r); vm_compute; tauto).
  destruct (determine_completeness_and_to (re_related r)) as [comp to]. cbn [fst] in C.
  destruct (relationship_mapping (re_type r)) as [p|]; [|discriminate E]. cbv zeta in E. destruct K as (K1 & K2 & K3 & K4).
  destruct (rp_swap p); [destruct to as [|t to]; [discriminate E|]|].
  - assert (E' := f_equal (fun o => match o with Some y => y | None => x end) E). cbv beta iota in E'. rewrite <- E'.
    cbn [Known r3_type r3_completeness r3_scope r3_linkage r3_conditionality]. tauto.
  - assert (E' := f_equal (fun o => match o with Some y => y | None => x end) E). cbv beta iota in E'. rewrite <- E'.
    cbn [Known r3_type r3_completeness r3_scope r3_linkage r3_conditionality]. tauto.
Qed.
Lemma inv_generate rs : forall ns i st g, Inv st -> Inv (fst (generate_relationships rs ns i st g)) /\ b_cis (fst (generate_relationships rs ns i st g)) = b_cis st.
Proof.
  induction rs as [|r rs IH]; intros ns i st g H; cbn [generate_relationships]; [split; [exact H|reflexivity]|].
  destruct (bump_relationship r ns i) as [x|] eqn:B; [|apply IH; exact H].
  destruct (new_object st (E3Relationship x)) as [st1 a] eqn:N. apply (inv_new _ _ _ _ H) in N as [H1 C1]; [|eapply known_relationship; exact B].
  destruct (IH ns (S i) st1 (group_append (r3_from x, r3_type x) a g) H1) as [H2 C2]. split; [exact H2|congruence].
Qed.
Lemma rel_at_known st a r : Inv st -> rel_at st a = Some r -> Good (List.length (b_cis st)) (E3Relationship r).
Proof.
  intros [H _] E. unfold rel_at in E. destruct (nth_error (b_objs st) a) as [[]|] eqn:N; try discriminate E.
  assert (E' : r0 = r) by congruence. subst. rewrite Forall_forall in H. apply H. exact (nth_error_In _ _ N).
Qed.
Lemma cis_add_element st a : b_cis (add_element st a) = b_cis st.
Proof. unfold add_element. destruct (nth_error (b_objs st) a); reflexivity. Qed.
Lemma inv_merge_loop l : forall st to comp id, Inv st -> KnownWordIf completeness_words comp ->
  let '(st', to', comp', id') := merge_loop l st to comp id in Inv st' /\ b_cis st' = b_cis st /\ KnownWordIf completeness_words comp'.
Proof.
  induction l as [|a l IH]; intros st to comp id H K; cbn [merge_loop]; [auto|].
  destruct (rel_at st a) as [r|] eqn:R; [|apply IH; assumption].
  destruct (truthy_opt (r3_comment r)).
  - specialize (IH (add_element st a) to comp id (inv_add_element _ _ H) K). rewrite cis_add_element in IH. exact IH.
  - apply IH; [exact H|]. destruct comp; [exact K|]. apply (rel_at_known _ _ _ H) in R as [(_ & R & _) _]. exact R.
Qed.
Lemma inv_merge l st : Inv st -> Inv (merge_relationships l st) /\ b_cis (merge_relationships l st) = b_cis st.
Proof.
  intro H. unfold merge_relationships. pose proof (inv_merge_loop l st [] None None H Logic.I) as M.
  destruct (merge_loop l st [] None None) as [[[st1 to] comp] id]. destruct M as (H1 & C1 & K1).
  destruct to as [|t to]; [auto|]. destruct (rev l) as [|last rest]; [auto|]. destruct (rel_at st1 last) as [r|] eqn:R; [|auto].
  pose proof (rel_at_known _ _ _ H1 R) as [(G1 & G2 & G3 & G4 & G5) _].
  split; [|rewrite cis_add_element; exact C1]. apply inv_add_element. destruct H1 as [H1 H2]. split; [|exact H2]. cbn.
  apply forall_set_nth; [exact H1|]. split; [|exact Logic.I]. cbn [Known assign_merged r3_type r3_completeness r3_scope r3_linkage r3_conditionality]. tauto.
Qed.
Lemma inv_add_groups g : forall st, Inv st -> Inv (add_groups g st) /\ b_cis (add_groups g st) = b_cis st.
Proof.
  induction g as [|[k l] g IH]; intros st H; cbn [add_groups]; [auto|]. destruct l as [|a [|b l]].
  - destruct (inv_merge [] st H) as [H1 C1]. destruct (IH _ H1) as [H2 C2]. split; [exact H2|congruence].
  - destruct (IH _ (inv_add_element _ a H)) as [H2 C2]. split; [exact H2|]. rewrite C2. apply cis_add_element.
  - destruct (inv_merge (a :: b :: l) st H) as [H1 C1]. destruct (IH _ H1) as [H2 C2]. split; [exact H2|congruence].
Qed.
Lemma inv_relationships rs ns st : Inv st -> Inv (bump_relationships rs ns st) /\ b_cis (bump_relationships rs ns st) = b_cis st.
Proof.
  intro H. unfold bump_relationships. pose proof (inv_generate rs ns 0 st [] H) as [H1 C1]. destruct (generate_relationships rs ns 0 st []) as [st1 g]. cbn [fst] in *.
  destruct (inv_add_groups g st1 H1) as [H2 C2]. split; [exact H2|congruence].
Qed.

(** *** annotations *)
Lemma inv_annotation a ci ns i st st' : Inv st -> In (an_date a) T -> bump_annotation a ci ns i st = Ok st' -> Inv st'.
Proof.
  intros H D E. unfold bump_annotation in E. destruct (nth_error (b_cis st) ci) as [c|]; [|discriminate E].
  destruct (new_cinfo st _) as [st1 ci'] eqn:N. apply (inv_cinfo _ _ _ _ H) in N as (H1 & L1 & _); [|exact D].
  destruct (bump_actor _ _ _ st1) as [st2 creator] eqn:A. apply (inv_actor _ _ _ _ _ _ H1) in A as [H2 C2]; [|intros x Q; congruence].
  cbv zeta in E. rewrite enum_annotation in E. cbn [bind] in E.
  assert (E' : st' = _) by (symmetry; exact (f_equal (fun r => match r with Ok s => s | Raise _ => st end) E)). cbv beta iota in E'. rewrite E'.
  apply inv_add_new.
  - destruct (is_agent _); [|exact H2]. apply inv_set_cinfo; [exact H2|exact D].
  - split; [|exact Logic.I]. cbn [Known n3_type n3_ci]. split; [destruct (an_type a); vm_compute; tauto|].
    destruct (is_agent _); [cbn; rewrite set_nth_length|]; rewrite C2; exact L1.
Qed.
Lemma inv_annotations l : forall ci ns i st st', Inv st -> incl (map an_date l) T -> bump_annotations l ci ns i st = Ok st' -> Inv st'.
Proof.
  induction l as [|a l IH]; intros ci ns i st st' H D E; cbn [bump_annotations] in E.
  - assert (E' : st' = st) by congruence. subst. exact H.
  - apply bind_inv in E as (s & S1 & E). apply (inv_annotation _ _ _ _ _ _ H) in S1; [|apply D; left; reflexivity].
    apply (IH _ _ _ _ _ S1) in E; [exact E|]. intros t I. apply D. right. exact I.
Qed.
End Invariant.

Lemma inv_document d st doc : bump_spdx_document d = Ok (st, doc) -> Inv (times d) st.
Proof.
  intro E. unfold bump_spdx_document in E. apply bind_inv in E as ([st1 doc1] & B & E). cbv zeta in E.
  apply (inv_creation_info (times d)) in B as [H1 _]; [|split; constructor|left; reflexivity].
  set (st2 := update_document _ doc1 st1) in E.
  assert (H2 : Inv (times d) st2) by (apply inv_update; [exact H1|intros x G; exact G]).
  apply bind_inv in E as (st3 & P & E). apply (inv_each (times d)) in P as [H3 _].
  2:{ intros p s s' I H. apply inv_package; [exact H|]. intros t It. right. apply in_or_app. right. apply in_flat_map. exists p. split; [exact I|exact It]. }
  2:{ apply inv_add_element. exact H2. }
  apply bind_inv in E as (st4 & F & E). apply (inv_each (times d)) in F as [H4 _]; [|intros f s s' I H; apply inv_file; exact H|exact H3].
  apply bind_inv in E as (st5 & S5 & E). apply (inv_each (times d)) in S5 as [H5 _]; [|intros f s s' I H; apply inv_snippet; exact H|exact H4].
  apply bind_inv in E as (st6 & A & E).
  apply (inv_annotations (times d)) in A; [|apply inv_relationships; exact H5|].
  2:{ intros t I. right. apply in_or_app. left. exact I. }
  assert (E' := f_equal (fun r => match r with Ok p => fst p | Raise _ => st end) E). cbv beta iota in E'. cbn [fst] in E'. rewrite <- E'.
  apply inv_update; [exact A|intros x G; exact G].
Qed.

(** ** The payload *)
Lemma document_map d st doc : bump_spdx_document d = Ok (st, doc) -> WF st /\ NoDup (map fst (b_map st)).
Proof.
  intro H. destruct (bump_phases d st doc H) as (stA & stB & stR & stN & lp & lf & ls & la & Ph). split; [exact (ph_wfE _ _ _ _ _ _ _ _ _ _ _ Ph)|].
  change (NoDup (keys st)). rewrite (ph_keysE _ _ _ _ _ _ _ _ _ _ _ Ph).
  apply (steps_nodup _ _ _ _ (ph_annotations _ _ _ _ _ _ _ _ _ _ _ Ph)). rewrite (ph_rels _ _ _ _ _ _ _ _ _ _ _ Ph). apply relationships_nodup.
  apply (steps_nodup _ _ _ _ (ph_elements _ _ _ _ _ _ _ _ _ _ _ Ph)). exact (ph_nodup _ _ _ _ _ _ _ _ _ _ _ Ph).
Qed.
Lemma assoc_in {A} k (a : A) l : NoDup (map fst l) -> In (k, a) l -> assoc k l = Some a.
Proof.
  induction l as [|[k' a'] l IH]; cbn [map fst In assoc]; [tauto|]. intros N [I|I].
  - assert (k' = k /\ a' = a) as [-> ->] by (split; congruence). rewrite str_eqb_refl. reflexivity.
  - apply NoDup_cons_iff in N as [N1 N2]. destruct (str_eqb k k') eqn:E; [|auto]. apply str_eqb_eq in E. subst k'.
    exfalso. apply N1. apply in_map_iff. exists (k, a). auto.
Qed.
Lemma payload_elements_are st : WF st -> NoDup (map fst (b_map st)) -> PayloadElements st (payload_elements st).
Proof.
  intros W N. unfold PayloadElements, payload_elements.
  assert (G : forall p, In p (b_map st) -> exists e, nth_error (b_objs st) (snd p) = Some e /\ get_element st (fst p) = Ok e).
  { intros [k a] I. apply (assoc_in k a _ N) in I. pose proof (W _ _ I) as L. apply nth_error_Some in L. cbn [fst snd].
    destruct (nth_error (b_objs st) a) as [e|] eqn:E; [|congruence]. exists e. split; [reflexivity|]. unfold get_element. rewrite I, E. reflexivity. }
  clear W N. induction (b_map st) as [|p m IH]; [constructor|]. cbn [map flat_map]. destruct (G p (or_introl eq_refl)) as (e & E1 & E2). rewrite E1. cbn [app].
  constructor; [exact E2|]. apply IH. intros q I. apply G. right. exact I.
Qed.
Lemma payload_elements_unique st es es' : PayloadElements st es -> PayloadElements st es' -> es = es'.
Proof.
  unfold PayloadElements. intro F. revert es'. induction F as [|i e l es E F IH]; intros es' F'; inversion F' as [|? e' ? es2 E' F2]; [reflexivity|].
  subst. f_equal; [congruence|]. apply IH. exact F2.
Qed.
Lemma map_result_forall2 {A B} (f : A -> result B) l l' : map_result f l = Ok l' <-> Forall2 (fun a b => f a = Ok b) l l'.
Proof.
  revert l'. induction l as [|a l IH]; intro l'; cbn [map_result].
  - split; [intro E; assert (E' : l' = []) by congruence; subst; constructor|intro F; inversion F; reflexivity].
  - split.
    + intro E. apply bind_inv in E as (b & B1 & E). apply bind_inv in E as (bs & B2 & E). assert (E' : l' = b :: bs) by congruence. subst.
      constructor; [exact B1|]. apply IH. exact B2.
    + intro F. inversion F as [|? b ? bs B1 B2]; subst. rewrite B1. cbn. apply IH in B2. rewrite B2. reflexivity.
Qed.
Lemma map_result_raise {A B} (f : A -> result B) l e : map_result f l = Raise e -> exists a, In a l /\ f a = Raise e.
Proof.
  induction l as [|a l IH]; cbn [map_result]; [discriminate|]. intro E. destruct (f a) eqn:F; cbn in E.
  - destruct (map_result f l) eqn:M; cbn in E; [discriminate|]. assert (E' : Raise e0 = Raise e :> result (list B)) by congruence. destruct (IH E') as (x & I & X).
    exists x. split; [right; exact I|exact X].
  - exists a. split; [left; reflexivity|congruence].
Qed.
Lemma forall2_iff {A B} (R R' : A -> B -> Prop) l l' : (forall a b, In a l -> (R a b <-> R' a b)) -> (Forall2 R l l' <-> Forall2 R' l l').
Proof. intro H. split; apply forall2_impl; intros a b I; apply H; exact I. Qed.

Lemma in_payload_good d st doc e : bump_spdx_document d = Ok (st, doc) -> In e (payload_elements st) -> Good (times d) (List.length (b_cis st)) e.
Proof.
  intros B I. apply inv_document in B as [H _]. apply in_flat_map in I as (p & _ & I). destruct (nth_error (b_objs st) (snd p)) eqn:E; [|destruct I].
  destruct I as [<-|[]]. rewrite Forall_forall in H. apply H. exact (nth_error_In _ _ E).
Qed.
Lemma payload_entries d st doc es js : bump_spdx_document d = Ok (st, doc) -> PayloadElements st es ->
  (convert_payload_to_json_ld st = Ok js <-> Forall2 (Entry st) es js).
Proof.
  intros B P. destruct (document_map _ _ _ B) as [W N]. rewrite (payload_elements_unique _ _ _ P (payload_elements_are st W N)).
  unfold convert_payload_to_json_ld. rewrite map_result_forall2. apply forall2_iff. intros e j I. apply entry_iff. exact (proj1 (in_payload_good _ _ _ _ B I)).
Qed.
Lemma payload_has_elements d st doc : bump_spdx_document d = Ok (st, doc) -> exists es, PayloadElements st es.
Proof. intro B. destruct (document_map _ _ _ B) as [W N]. exists (payload_elements st). apply payload_elements_are; assumption. Qed.

Lemma dates_xopt o T : incl (given o) T -> incl (dates_of (xopt XDate o)) T.
Proof. destruct o; exact (fun H => H). Qed.
Lemma dates_texts l : dates_of (xtexts l) = [].
Proof. unfold xtexts. cbn [dates_of]. induction l; [reflexivity|assumption]. Qed.
Lemma dates_list {A} (f : A -> pyobj) l : (forall a, dates_of (f a) = []) -> dates_of (XList (map f l)) = [].
Proof. intro H. cbn [dates_of]. induction l as [|a l IH]; [reflexivity|]. cbn [map flat_map]. rewrite H. exact IH. Qed.
Lemma dates_str o : dates_of (xopt XStr o) = [].
Proof. destruct o; reflexivity. Qed.
Lemma dates_enum o : dates_of (xopt XEnum o) = [].
Proof. destruct o; reflexivity. Qed.
Lemma dates_hash h : dates_of (hash_object h) = [].
Proof. reflexivity. Qed.
Lemma dates_extref r : dates_of (extref_object r) = [].
Proof. unfold extref_object. cbn [dates_of flat_map snd]. fold (dates_of (xtexts (xr_locator r))). rewrite dates_texts, dates_str. reflexivity. Qed.
Lemma dates_extid r : dates_of (extid_object r) = [].
Proof. unfold extid_object. cbn [dates_of flat_map snd]. rewrite dates_str. reflexivity. Qed.
Lemma dates_nsmap r : dates_of (nsmap_object r) = [].
Proof. reflexivity. Qed.
Lemma dates_extmap r : dates_of (extmap_object r) = [].
Proof.
  unfold extmap_object. change (dates_of (XStr (em_id r)) ++ dates_of (XList (map hash_object (em_verified r))) ++ [] ++ dates_of (xopt XStr (em_defining r)) ++ [] = []).
  rewrite (dates_list hash_object), dates_str by exact dates_hash. reflexivity.
Qed.
Lemma dates_range r : dates_of (xopt range_object r) = [].
Proof. destruct r as [[b e]|]; reflexivity. Qed.
Lemma dates_cinfo T st a : Forall (fun c => In (c3_created c) T) (b_cis st) -> incl (dates_of (cinfo_at st a)) T.
Proof.
  intro H. unfold cinfo_at. destruct (nth_error (b_cis st) a) as [c|] eqn:N; cbn [xopt]; [|intros t []].
  unfold cinfo_object. change (incl ([] ++ [c3_created c] ++ dates_of (xtexts (c3_created_by c)) ++ [] ++ [] ++ dates_of (xtexts (c3_created_using c)) ++ [] ++ []) T).
  rewrite !dates_texts. intros t [<-|[]]. rewrite Forall_forall in H. apply H. exact (nth_error_In _ _ N).
Qed.
(** the dates of an object, attribute by attribute *)
Lemma dates_obj cls attrs T : Forall (fun p => incl (dates_of (snd p)) T) attrs -> incl (dates_of (XObj cls attrs)) T.
Proof. intros F t I. cbn [dates_of] in I. apply in_flat_map in I as (p & P & I). rewrite Forall_forall in F. exact (F p P t I). Qed.
Lemma incl_empty (l T : list datetime) : l = [] -> incl l T.
Proof. intros ->. intros t []. Qed.
Ltac no_dates :=
  first [ assumption
        | apply incl_empty; first [ reflexivity | apply dates_texts | apply dates_str | apply dates_enum | apply dates_range
                                  | apply dates_list; first [exact dates_hash | exact dates_extref | exact dates_extid | exact dates_nsmap | exact dates_extmap] ] ].
Lemma dates_element T st e : Inv T st -> Good T (List.length (b_cis st)) e -> incl (dates_of (element_object st e)) T.
Proof.
  intros [_ C] [_ D]. destruct e as [a|p|f|s|r|a|d]; cbn [element_object].
  - assert (X : incl (dates_of (match a3_ci a with Some c => cinfo_at st c | None => XNone end)) T).
    { destruct (a3_ci a); [apply dates_cinfo; exact C|intros t []]. }
    apply dates_obj. unfold element_attrs. repeat constructor; cbn [snd]; no_dates.
  - assert (D1 : incl (dates_of (xopt XDate (p3_built p))) T) by (apply dates_xopt; intros t I; apply D, in_or_app; auto).
    assert (D2 : incl (dates_of (xopt XDate (p3_release p))) T) by (apply dates_xopt; intros t I; apply D, in_or_app; right; apply in_or_app; auto).
    assert (D3 : incl (dates_of (xopt XDate (p3_valid_until p))) T) by (apply dates_xopt; intros t I; apply D, in_or_app; right; apply in_or_app; auto).
    apply dates_obj. unfold element_attrs, artifact_attrs, software_attrs. cbn [app]. repeat constructor; cbn [snd]; no_dates.
  - apply dates_obj. unfold element_attrs, artifact_attrs, software_attrs. cbn [app]. repeat constructor; cbn [snd]; no_dates.
  - apply dates_obj. unfold element_attrs, artifact_attrs, software_attrs. cbn [app]. repeat constructor; cbn [snd]; no_dates.
  - destruct (r3_dependency r); apply dates_obj; unfold element_attrs, relationship_attrs; cbn [app]; repeat constructor; cbn [snd]; no_dates.
  - pose proof (dates_cinfo T st (n3_ci a) C) as X. apply dates_obj. unfold element_attrs. cbn [app]. repeat constructor; cbn [snd]; no_dates.
  - pose proof (dates_cinfo T st (d3_ci d) C) as X. apply dates_obj. unfold element_attrs. cbn [app]. repeat constructor; cbn [snd]; no_dates.
Qed.
(** no element that the conversion makes has numbers with a fraction or dictionaries *)
Lemma regular_list {A} (f : A -> pyobj) l : (forall a, regular (f a) = true) -> regular (XList (map f l)) = true.
Proof. intro H. cbn [regular]. induction l as [|a l IH]; [reflexivity|]. cbn [map forallb]. rewrite H. exact IH. Qed.
Lemma regular_xopt {A} (f : A -> pyobj) o : (forall a, regular (f a) = true) -> regular (xopt f o) = true.
Proof. intro H. destruct o; [apply H|reflexivity]. Qed.
Lemma regular_obj cls attrs : Forall (fun p => regular (snd p) = true) attrs -> regular (XObj cls attrs) = true.
Proof. intro F. cbn [regular]. apply forallb_forall. rewrite Forall_forall in F. exact F. Qed.
Ltac plain_attr := first [ reflexivity | apply regular_xopt; intro; reflexivity | unfold xtexts; apply regular_list; intro; reflexivity ].
Lemma regular_extref r : regular (extref_object r) = true.
Proof. apply regular_obj. repeat constructor; cbn [snd]; plain_attr. Qed.
Lemma regular_extid r : regular (extid_object r) = true.
Proof. apply regular_obj. repeat constructor; cbn [snd]; plain_attr. Qed.
Lemma regular_extmap r : regular (extmap_object r) = true.
Proof. apply regular_obj. repeat constructor; cbn [snd]; plain_attr. Qed.
Lemma regular_cinfo c : regular (cinfo_object c) = true.
Proof. apply regular_obj. repeat constructor; cbn [snd]; plain_attr. Qed.
Lemma regular_cinfo_at st a : regular (cinfo_at st a) = true.
Proof. unfold cinfo_at. apply regular_xopt. exact regular_cinfo. Qed.
Lemma regular_element st e : regular (element_object st e) = true.
Proof.
  Ltac plain := first [ plain_attr | apply regular_cinfo_at | apply regular_list; first [exact regular_extref | exact regular_extid | exact regular_extmap] ].
  destruct e as [a|p|f|s|r|a|d]; cbn [element_object].
  - apply regular_obj. repeat constructor; cbn [snd]; first [destruct (a3_ci a); plain | plain].
  - apply regular_obj. repeat constructor; cbn [snd]; plain.
  - apply regular_obj. repeat constructor; cbn [snd]; plain.
  - apply regular_obj. repeat constructor; cbn [snd]; plain.
  - destruct (r3_dependency r); apply regular_obj; repeat constructor; cbn [snd]; plain.
  - apply regular_obj. repeat constructor; cbn [snd]; plain.
  - apply regular_obj. repeat constructor; cbn [snd]; plain.
Qed.
Lemma payload_fails d st doc e : bump_spdx_document d = Ok (st, doc) -> convert_payload_to_json_ld st = Raise e ->
  exists t, In t (times d) /\ datetime_to_iso_string t = Raise e.
Proof.
  intros B C. unfold convert_payload_to_json_ld in C. apply map_result_raise in C as (x & I & C). apply convert_fails in C as (t & T & C); [|apply regular_element].
  exists t. split; [|exact C]. exact (dates_element _ _ _ (inv_document _ _ _ B) (in_payload_good _ _ _ _ B I) _ T).
Qed.
Lemma payload_succeeds d st doc : bump_spdx_document d = Ok (st, doc) -> Forall CanBeWritten (times d) -> exists js, convert_payload_to_json_ld st = Ok js.
Proof.
  intros B F. destruct (convert_payload_to_json_ld st) as [js|e] eqn:C; [eauto|]. destruct (payload_fails _ _ _ _ B C) as (t & I & E).
  rewrite Forall_forall in F. destruct (F t I) as [s S1]. congruence.
Qed.
Lemma object_word_distinct (words : list (pystr * pystr)) : nodupb (map snd words) = true -> forall n m, KnownWord words n -> KnownWord words m ->
  word words n = word words m -> n = m.
Proof.
  intros N n m Kn Km E. apply nodupb_spec in N.
  assert (A : forall k, KnownWord words k -> exists w, assoc k words = Some w /\ In (k, w) words).
  { clear. intros k. induction words as [|[k' w'] words IH]; [intros []|]. intros [K|K]; cbn [assoc].
    - cbn in K. subst. rewrite str_eqb_refl. exists w'. split; [reflexivity|left; reflexivity].
    - destruct (str_eqb k k') eqn:E; [apply str_eqb_eq in E; subst; exists w'; split; [reflexivity|left; reflexivity]|].
      destruct (IH K) as (w & W1 & W2). exists w. split; [exact W1|right; exact W2]. }
  destruct (A n Kn) as (w & W1 & W2). destruct (A m Km) as (w' & W1' & W2'). unfold word in E. rewrite W1, W1' in E. cbn in E. assert (E' : w = w') by congruence. subst w'.
  clear - N W2 W2'. induction words as [|[k v] words IH]; [destruct W2|]. cbn [map snd] in N. apply NoDup_cons_iff in N as [N1 N2]. destruct W2 as [W2|W2], W2' as [W2'|W2'].
  - congruence.
  - exfalso. apply N1. assert (v = w) by congruence. subst. apply in_map_iff. exists (m, w). auto.
  - exfalso. apply N1. assert (v = w) by congruence. subst. apply in_map_iff. exists (n, w). auto.
  - exact (IH N2 W2 W2').
Qed.
Lemma words_distinct (words : list (pystr * pystr)) (n m : pystr) :
  In words [hash_words; purpose_words; annotation_words; identifier_words; reference_words; relationship_words; completeness_words;
            scope_words; linkage_words; condition_words] ->
  In n (map fst words) -> In m (map fst words) -> word words n = word words m -> n = m.
Proof.
  intro H. apply object_word_distinct.
  assert (F : forallb (fun w => nodupb (map snd w))
                [hash_words; purpose_words; annotation_words; identifier_words; reference_words; relationship_words; completeness_words;
                 scope_words; linkage_words; condition_words] = true) by (vm_compute; reflexivity).
  rewrite forallb_forall in F. exact (F _ H).
Qed.
