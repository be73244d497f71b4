(** bump_spdx_document, phase by phase. *)
From Verif Require Import Py Data Oracles DocUtils Payload Bump BumpSpec PyFacts BumpFacts BumpMerge BumpGroups BumpRels BumpDoc.

(** * An induction principle for the relationships *)
Section Ind.
  Variable J : bstate -> Prop.
  Hypothesis Jnew : forall st x, J st -> J (with_objs st (b_objs st ++ [E3Relationship x])).
  Hypothesis Jadd : forall st a, J st -> J (add_element st a).
  Hypothesis Jset : forall st a r, J st -> J (with_objs st (set_nth a (E3Relationship r) (b_objs st))).
  Lemma merge_loop_ind l : forall st to c id st' to' c' id', J st -> merge_loop l st to c id = (st', to', c', id') -> J st'.
  Proof.
    induction l as [|a l IH]; intros st to c id st' to' c' id' H E; cbn in E; [injection E as <- _ _ _; exact H|].
    destruct (rel_at st a) as [r|]; [|exact (IH _ _ _ _ _ _ _ _ H E)]. destruct (truthy_opt (r3_comment r)); (eapply IH; [|exact E]); [apply Jadd|]; exact H.
  Qed.
  Lemma merge_ind l st : J st -> J (merge_relationships l st).
  Proof.
    intro H. unfold merge_relationships. destruct (merge_loop l st [] None None) as [[[st1 to] c] id] eqn:E.
    pose proof (merge_loop_ind _ _ _ _ _ _ _ _ _ H E) as H1. destruct to as [|t to]; [exact H1|].
    destruct (rev l) as [|a l']; [exact H1|]. destruct (rel_at st1 a) as [r|]; [|exact H1]. apply Jadd. apply Jset. exact H1.
  Qed.
  Lemma add_groups_ind g : forall st, J st -> J (add_groups g st).
  Proof.
    induction g as [|[k l] g IH]; intros st H; [exact H|]. cbn. destruct l as [|a [|b l]].
    - apply IH. apply merge_ind. exact H.
    - apply IH. apply Jadd. exact H.
    - apply IH. apply merge_ind. exact H.
  Qed.
  Lemma generate_ind rs ns : forall i st g st' g', J st -> generate_relationships rs ns i st g = (st', g') -> J st'.
  Proof.
    induction rs as [|r rs IH]; intros i st g st' g' H E; cbn in E; [injection E as <- _; exact H|].
    destruct (bump_relationship r ns i) as [x|]; [|exact (IH _ _ _ _ _ H E)]. eapply IH; [|exact E]. apply Jnew. exact H.
  Qed.
  Lemma relationships_ind rs ns st : J st -> J (bump_relationships rs ns st).
  Proof.
    intro H. unfold bump_relationships. destruct (generate_relationships rs ns 0 st []) as [st1 g] eqn:E.
    apply add_groups_ind. exact (generate_ind _ _ _ _ _ _ _ H E).
  Qed.
End Ind.

Lemma relationships_nodup rs ns st : NoDup (keys st) -> NoDup (keys (bump_relationships rs ns st)).
Proof.
  apply (relationships_ind (fun st => NoDup (keys st))).
  - intros s x H. exact H.
  - intros s a H. unfold keys, add_element. destruct (nth_error (b_objs s) a); [|exact H]. cbn. apply GraphFacts.nodup_set. exact H.
  - intros s a r H. exact H.
Qed.
Lemma relationships_keys rs ns st k : In k (keys st) -> In k (keys (bump_relationships rs ns st)).
Proof.
  apply (relationships_ind (fun st => In k (keys st))).
  - intros s x H. exact H.
  - intros s a H. unfold keys, add_element. destruct (nth_error (b_objs s) a); [|exact H]. cbn. apply GraphFacts.keys_set. right; exact H.
  - intros s a r H. exact H.
Qed.
Lemma relationships_objs rs ns st b e : nth_error (b_objs (bump_relationships rs ns st)) b = Some e -> List.length (b_objs st) <= b ->
  exists r, e = E3Relationship r.
Proof.
  intros H L. revert b e L H. pattern (bump_relationships rs ns st). apply relationships_ind.
  - intros s x H b e L Hb. cbn in Hb. destruct (Nat.lt_ge_cases b (List.length (b_objs s))) as [X|X].
    + rewrite nth_error_app1 in Hb by exact X. exact (H b e L Hb).
    + rewrite nth_error_app2 in Hb by exact X. destruct (b - List.length (b_objs s)) as [|n]; [injection Hb as <-; eexists; reflexivity|].
      destruct n; discriminate.
  - intros s a H b e L Hb. rewrite add_element_objs in Hb. exact (H b e L Hb).
  - intros s a r H b e L Hb. cbn in Hb. rewrite set_nth_nth in Hb. destruct (Nat.eqb b a); [|exact (H b e L Hb)].
    destruct (Nat.ltb a (List.length (b_objs s))); [injection Hb as <-; eexists; reflexivity|discriminate].
  - intros b e L Hb. assert (b < List.length (b_objs st)) by (apply nth_error_Some; congruence). lia.
Qed.
(** every id is the id of the element found under it *)
Definition OwnIds (st : bstate) : Prop := forall i e, get_element st i = Ok e -> e3_id e = i.

(** * Creators *)
Lemma bump_creators_is l ns ci doc : forall st cs ts st' cs' ts', bump_creators l ns ci st cs ts = (st', cs', ts') ->
  cs' = cs ++ map (actor_id ns) (filter (fun a => is_agent (ac_type a)) l)
  /\ ts' = ts ++ map (actor_id ns) (filter (fun a => negb (is_agent (ac_type a))) l)
  /\ Quiet doc [] st st' /\ b_cis st' = b_cis st
  /\ (forall a, In a l -> In (actor_id ns a) (keys st'))
  /\ (forall k, In k (keys st') -> In k (keys st) \/ exists a, In a l /\ k = actor_id ns a)
  /\ (forall l1 a l2, l = l1 ++ a :: l2 -> (forall b, In b l1 -> actor_id ns b <> actor_id ns a) -> WF st -> ~ In (actor_id ns a) (keys st) ->
        exists x, get_element st' (actor_id ns a) = Ok (E3Actor x) /\ ActorSays a (Some ci) x).
Proof.
  induction l as [|a l IH]; intros st cs ts st' cs' ts' E; cbn in E.
  - injection E as <- <- <-. cbn. rewrite !app_nil_r. split; [reflexivity|]. split; [reflexivity|]. split; [apply quiet_refl|].
    split; [reflexivity|]. split; [intros b []|]. split; [auto|]. intros l1 b l2 X. destruct l1; discriminate.
  - destruct (bump_actor a ns (Some ci) st) as [st1 id] eqn:Ea. destruct (bump_actor_is _ _ _ _ _ _ doc Ea) as (Eid & Q & K & C).
    pose proof (fun W F => bump_actor_new _ _ _ _ _ _ Ea W F) as New. rewrite Eid in *. clear Eid id.
    assert (Kb : forall k, In k (keys st1) -> In k (keys st) \/ k = actor_id ns a).
    { intros k Hk. unfold bump_actor in Ea. destruct (assoc _ (b_map st)); [injection Ea as <- _; auto|].
      injection Ea as <- E1. unfold keys in Hk. rewrite add_new_map in Hk. apply GraphFacts.keys_set in Hk as [Hk|Hk]; [right|left; exact Hk].
      cbn [e3_id a3_id] in Hk. congruence. }
    assert (G : exists cs1 ts1, bump_creators l ns ci st1 cs1 ts1 = (st', cs', ts') /\
       cs1 ++ map (actor_id ns) (filter (fun a => is_agent (ac_type a)) l) = cs ++ map (actor_id ns) (filter (fun a => is_agent (ac_type a)) (a :: l)) /\
       ts1 ++ map (actor_id ns) (filter (fun a => negb (is_agent (ac_type a))) l) = ts ++ map (actor_id ns) (filter (fun a => negb (is_agent (ac_type a))) (a :: l))).
    { cbn [filter]. destruct (is_agent (ac_type a)); eexists; eexists; (split; [exact E|]); cbn [negb map]; rewrite <- ?app_assoc; split; reflexivity. }
    destruct G as (cs1 & ts1 & E1 & G1 & G2). destruct (IH _ _ _ _ _ _ E1) as (H1 & H2 & H3 & H4 & H5 & H6 & H7).
    split; [congruence|]. split; [congruence|]. split; [exact (quiet_trans _ _ _ _ _ _ Q H3)|]. split; [congruence|].
    split; [|split].
    + intros b [<-|Hb]; [apply (qu_keys _ _ _ _ H3); exact K|exact (H5 b Hb)].
    + intros k Hk. destruct (H6 k Hk) as [X|(b & Hb & ->)]; [|right; exists b; split; [right; exact Hb|reflexivity]].
      destruct (Kb k X) as [Y| ->]; [left; exact Y|right; exists a; split; [left; reflexivity|reflexivity]].
    + intros l1 b l2 X Nb W F. destruct l1 as [|y l1]; cbn in X.
      * injection X as <- <-. destruct (New W F) as (x & Gx & Sx). exists x. split; [|exact Sx].
        apply (qu_keep _ _ _ _ H3); [apply (qu_wf _ _ _ _ Q W)|intros [? Y]; discriminate|exact Gx].
      * injection X as <- ->. apply (H7 l1 b l2 eq_refl); [intros c Hc; apply Nb; right; exact Hc|apply (qu_wf _ _ _ _ Q W)|].
        intro Y. destruct (Kb _ Y) as [Z|Z]; [exact (F Z)|]. apply (Nb a); [left; reflexivity|auto].
Qed.

(** * The parts of the SpdxDocument *)
Lemma external_refs_maps refs : map_result bump_external_document_ref refs = Ok (combine (refs_namespaces refs) (refs_imports refs)).
Proof.
  induction refs as [|r refs IH]; [reflexivity|]. cbn [map_result refs_namespaces refs_imports map combine]. rewrite IH.
  unfold bump_external_document_ref. rewrite bump_checksum_is. reflexivity.
Qed.
Lemma combine_fst {A B} (l : list A) : forall (l' : list B), List.length l = List.length l' -> map fst (combine l l') = l.
Proof. induction l as [|x l IH]; intros [|y l'] H; cbn in *; try discriminate; [reflexivity|]. rewrite IH; [reflexivity|lia]. Qed.
Lemma combine_snd {A B} (l : list A) : forall (l' : list B), List.length l = List.length l' -> map snd (combine l l') = l'.
Proof. induction l as [|x l IH]; intros [|y l'] H; cbn in *; try discriminate; [reflexivity|]. rewrite IH; [reflexivity|lia]. Qed.

Record Phases (d : document) (st : bstate) (doc : nat) (stA stB stR stN : bstate) (lp lf ls la : list (list extmap3 * element3)) : Prop := {
  ph_wf : WF stA;
  ph_nodup : NoDup (keys stA);
  ph_docmap : assoc (document_id d) (b_map stA) = Some doc;
  ph_doc : nth_error (b_objs stA) doc = Some (E3Document
     {| d3_id := document_id d; d3_name := ci_name (do_ci d); d3_element := []; d3_root := document_root d; d3_ci := 0;
        d3_comment := ci_doc_comment (do_ci d); d3_namespaces := refs_namespaces (ci_refs (do_ci d)); d3_imports := refs_imports (ci_refs (do_ci d)) |});
  ph_cinfo : nth_error (b_cis stA) 0 = Some (document_cinfo d);
  ph_start : forall i e, get_element stA i = Ok e -> (exists a, e = E3Actor a) \/ is_document e;
  ph_creators : forall a, In a (ci_creators (do_ci d)) -> In (actor_id (ci_namespace (do_ci d)) a) (keys stA);
  ph_first : forall l1 a l2, ci_creators (do_ci d) = l1 ++ a :: l2 ->
     (forall b, In b l1 -> actor_id (ci_namespace (do_ci d)) b <> actor_id (ci_namespace (do_ci d)) a) ->
     actor_id (ci_namespace (do_ci d)) a <> document_id d ->
     exists x, get_element stA (actor_id (ci_namespace (do_ci d)) a) = Ok (E3Actor x) /\ ActorSays a (Some 0) x;
  ph_elements : Steps doc (lp ++ lf ++ ls) stA stB;
  ph_packages : Forall2 (fun p ie => exists sti iesi, PackageStep (ci_namespace (do_ci d)) (ci_refs (do_ci d)) p ie sti /\ Steps doc iesi sti stB) (do_packages d) lp;
  ph_files : Forall2 (fun f ie => exists sti iesi, FileStep (ci_namespace (do_ci d)) (ci_refs (do_ci d)) f ie sti /\ Steps doc iesi sti stB) (do_files d) lf;
  ph_snippets : Forall2 (fun s ie => exists sti iesi, SnippetStep (ci_namespace (do_ci d)) (ci_refs (do_ci d)) s ie sti /\ Steps doc iesi sti stB) (do_snippets d) ls;
  ph_rels : stR = bump_relationships (do_relationships d) (ci_namespace (do_ci d)) stB;
  ph_annotations : Steps doc la stR stN;
  ph_notes : List.length la = List.length (do_annotations d) /\ forall j a, nth_error (do_annotations d) j = Some a ->
     exists ie sti iesi, nth_error la j = Some ie /\ AnnotationStep (ci_namespace (do_ci d)) j (document_cinfo d) a ie sti /\ Steps doc iesi sti stN;
  ph_end : st = update_document (set_elements (filter (fun i => negb (str_eqb i (document_id d))) (keys stN))) doc stN
}.

Lemma quiet_nothing doc st : Steps doc [] st st.
Proof. constructor. Qed.
Lemma forall2_impl {A B} (R R' : A -> B -> Prop) l l' : (forall x y, In x l -> R x y -> R' x y) -> Forall2 R l l' -> Forall2 R' l l'.
Proof. intros H F. induction F; constructor; [apply H; [left; reflexivity|assumption]|]. apply IHF. intros; apply H; [right|]; assumption. Qed.

(** the state after the document has been added *)
Lemma start_phase c st doc : bump_creation_info c {| b_objs := []; b_cis := []; b_map := [] |} = Ok (st, doc) ->
  exists stc D, st = with_objs stc (b_objs stc ++ [E3Document D]) /\ doc = List.length (b_objs stc) /\ WF stc /\ NoDup (keys stc)
    /\ D = {| d3_id := here (ci_namespace c) (ci_id c); d3_name := ci_name c; d3_element := []; d3_root := []; d3_ci := 0;
        d3_comment := ci_doc_comment c; d3_namespaces := refs_namespaces (ci_refs c); d3_imports := refs_imports (ci_refs c) |}
    /\ nth_error (b_cis stc) 0 = Some {| c3_created := ci_created c; c3_created_by := map (actor_id (ci_namespace c)) (filter (fun a => is_agent (ac_type a)) (ci_creators c));
         c3_created_using := map (actor_id (ci_namespace c)) (filter (fun a => negb (is_agent (ac_type a))) (ci_creators c));
         c3_data_license := $"https://spdx.org/licenses/" ++ ci_data_license c |}
    /\ (forall i e, get_element stc i = Ok e -> exists a, e = E3Actor a)
    /\ (forall a, In a (ci_creators c) -> In (actor_id (ci_namespace c) a) (keys stc))
    /\ (forall l1 a l2, ci_creators c = l1 ++ a :: l2 -> (forall b, In b l1 -> actor_id (ci_namespace c) b <> actor_id (ci_namespace c) a) ->
         exists x, get_element stc (actor_id (ci_namespace c) a) = Ok (E3Actor x) /\ ActorSays a (Some 0) x).
Proof.
  intro H. unfold bump_creation_info in H. rewrite external_refs_maps in H. cbn [bind new_cinfo with_cis b_cis b_objs b_map app List.length] in H.
  match type of H with context [bump_creators _ _ _ ?s _ _] => set (st0 := s) in H end.
  destruct (bump_creators (ci_creators c) (ci_namespace c) 0 st0 [] []) as [[st1 cs] ts] eqn:E.
  destruct (bump_creators_is _ _ _ 0 _ _ _ _ _ _ E) as (-> & -> & Q & C & K & _ & F). cbn [app] in H.
  assert (W0 : WF st0) by (intros k a X; discriminate).
  injection H as <- <-.
  match goal with |- context [with_cis st1 ?l] => set (stc := with_cis st1 l) end.
  exists stc. eexists. split; [reflexivity|]. split; [reflexivity|]. split; [exact (qu_wf _ _ _ _ Q W0)|].
  split; [apply (qu_nodup _ _ _ _ Q); constructor|]. split.
  { rewrite combine_fst, combine_snd by (unfold refs_namespaces, refs_imports; rewrite !map_length; reflexivity). reflexivity. }
  split; [unfold stc; cbn [with_cis b_cis]; rewrite C; reflexivity|]. split; [|split].
  - intros i e G.
    assert (Dec : is_document e \/ ~ is_document e) by (destruct e; [right; intros [? X]; discriminate..|left; eexists; reflexivity]).
    destruct Dec as [[dd ->]|N].
    + exfalso.
      (* documents are never added by creators *)
      assert (X : forall l st cs ts st' cs' ts', bump_creators l (ci_namespace c) 0 st cs ts = (st', cs', ts') ->
        (forall b e, nth_error (b_objs st) b = Some e -> exists a, e = E3Actor a) -> forall b e, nth_error (b_objs st') b = Some e -> exists a, e = E3Actor a).
      { clear. induction l as [|a l IH]; intros st cs ts st' cs' ts' E H; cbn in E; [injection E as <- _ _; exact H|].
        destruct (bump_actor a (ci_namespace c) (Some 0) st) as [st1 id] eqn:Ea.
        assert (H1 : forall b e, nth_error (b_objs st1) b = Some e -> exists a, e = E3Actor a).
        { unfold bump_actor in Ea. destruct (assoc _ (b_map st)); [injection Ea as <- _; exact H|]. injection Ea as <- _.
          intros b e Hb. rewrite add_new_objs in Hb. destruct (Nat.lt_ge_cases b (List.length (b_objs st))) as [X|X].
          - rewrite nth_error_app1 in Hb by exact X. exact (H b e Hb).
          - rewrite nth_error_app2 in Hb by exact X. destruct (b - List.length (b_objs st)) as [|n]; [injection Hb as <-; eexists; reflexivity|].
            destruct n; discriminate. }
        destruct (is_agent (ac_type a)); exact (IH _ _ _ _ _ _ E H1). }
      assert (G' : exists b, nth_error (b_objs st1) b = Some (E3Document dd)).
      { unfold get_element in G. cbn [stc with_cis b_map b_objs] in G. destruct (assoc i (b_map st1)) as [b|]; [|discriminate].
        exists b. destruct (nth_error (b_objs st1) b); [congruence|discriminate]. }
      assert (St0 : forall b e, nth_error (b_objs st0) b = Some e -> exists a, e = E3Actor a) by (intros [|b] e Y; discriminate).
      destruct G' as [b G']. destruct (X _ _ _ _ _ _ _ E St0 b _ G') as [a Y]. discriminate.
    + destruct (qu_back _ _ _ _ Q i e W0 N G) as [X|X]; [discriminate|exact X].
  - exact K.
  - intros l1 a l2 El N. exact (F l1 a l2 El N W0 (fun x => x)).
Qed.

Lemma steps_each_weaken {A} doc (R : A -> list extmap3 * element3 -> bstate -> Prop) (l : list A) ies st st' ies' :
  Steps doc ies' st st' ->
  Forall2 (fun x ie => exists sti iesi, R x ie sti /\ Steps doc iesi sti st) l ies ->
  Forall2 (fun x ie => exists sti iesi, R x ie sti /\ Steps doc iesi sti st') l ies.
Proof.
  intros S. apply forall2_impl. intros x ie _ (sti & iesi & H & S'). exists sti, (iesi ++ ies'). split; [exact H|].
  exact (steps_app _ _ _ _ _ _ S' S).
Qed.

Lemma bump_phases d st doc : bump_spdx_document d = Ok (st, doc) ->
  exists stA stB stR stN lp lf ls la, Phases d st doc stA stB stR stN lp lf ls la.
Proof.
  intro H. unfold bump_spdx_document in H. cbv zeta in H. apply bind_inv in H as ([st0 doc0] & H0 & H).
  destruct (start_phase _ _ _ H0) as (stc & D & -> & -> & Wc & Nc & ED & Hci & Hact & Hcr & Hfirst).
  set (ns := ci_namespace (do_ci d)) in *. set (doc0 := List.length (b_objs stc)) in *.
  match type of H with context [update_document (set_root ?l) doc0 _] => change l with (document_root d) in H end.
  set (D1 := set_root (document_root d) D) in *.
  assert (Eu : update_document (set_root (document_root d)) doc0 (with_objs stc (b_objs stc ++ [E3Document D]))
               = with_objs stc (b_objs stc ++ [E3Document D1])).
  { unfold update_document. cbn [with_objs b_objs]. unfold doc0. rewrite nth_error_snoc. unfold with_objs. cbn. f_equal.
    clear. induction (b_objs stc) as [|x l IH]; cbn; [reflexivity|]. rewrite IH. reflexivity. }
  rewrite Eu in H. clear Eu.
  assert (Ed : nth_error (b_objs (with_objs stc (b_objs stc ++ [E3Document D1]))) doc0 = Some (E3Document D1)) by apply nth_error_snoc.
  rewrite Ed in H. assert (Eid : e3_id (E3Document D1) = document_id d) by (unfold D1; rewrite ED; reflexivity).
  assert (Eci : d3_ci D1 = 0) by (unfold D1; rewrite ED; reflexivity). rewrite Eid, Eci in H.
  assert (EA : add_element (with_objs stc (b_objs stc ++ [E3Document D1])) doc0 = add_new stc (E3Document D1)) by reflexivity.
  rewrite EA in H. set (stA := add_new stc (E3Document D1)) in *.
  apply bind_inv in H as (st1 & H1 & H). apply bind_inv in H as (st2 & H2 & H). apply bind_inv in H as (st3 & H3 & H). apply bind_inv in H as (st4 & H4 & H).
  injection H as <- <-.
  destruct (each_steps doc0 _ (PackageStep ns (ci_refs (do_ci d))) _ _ _ (fun x s s' _ => package_step x ns (ci_refs (do_ci d)) doc0 s s') H1) as (lp & S1 & F1).
  destruct (each_steps doc0 _ (FileStep ns (ci_refs (do_ci d))) _ _ _ (fun x s s' _ => file_step x ns (ci_refs (do_ci d)) doc0 s s') H2) as (lf & S2 & F2).
  destruct (each_steps doc0 _ (SnippetStep ns (ci_refs (do_ci d))) _ _ _ (fun x s s' _ => snippet_step x ns (ci_refs (do_ci d)) doc0 s s') H3) as (ls & S3 & F3).
  pose proof (steps_app _ _ _ _ _ _ S1 (steps_app _ _ _ _ _ _ S2 S3)) as SB.
  assert (HcA : nth_error (b_cis stA) 0 = Some (document_cinfo d)) by (unfold stA; rewrite add_new_cis; exact Hci).
  assert (WA : WF stA) by (apply WF_add_new; exact Wc).
  assert (HcB : nth_error (b_cis st3) 0 = Some (document_cinfo d)) by exact (steps_cis _ _ _ _ _ _ SB HcA).
  destruct (bump_relationships_summary (do_relationships d) ns st3 (steps_wf _ _ _ _ SB WA)) as (P & S).
  assert (HcR : nth_error (b_cis (bump_relationships (do_relationships d) ns st3)) 0 = Some (document_cinfo d)).
  { rewrite (su_cis _ _ _ _ S). exact HcB. }
  destruct (annotations_steps _ _ _ _ _ doc0 _ _ HcR H4) as (la & SN & Ln & FN).
  exists stA, st3, (bump_relationships (do_relationships d) ns st3), st4, lp, lf, ls, la.
  constructor.
  - exact WA.
  - unfold keys, stA. rewrite add_new_map. apply GraphFacts.nodup_set. exact Nc.
  - unfold stA. rewrite add_new_map, Eid. apply assoc_dict_set_same.
  - unfold stA. rewrite add_new_objs. unfold doc0. rewrite nth_error_snoc. unfold D1. rewrite ED. reflexivity.
  - exact HcA.
  - intros i e G. unfold stA in G. rewrite get_add_new in G by exact Wc. destruct (str_eqb i (e3_id (E3Document D1))); [|left; exact (Hact i e G)].
    right. injection G as <-. eexists; reflexivity.
  - intros a Ha. unfold keys, stA. rewrite add_new_map. apply GraphFacts.keys_set. right. exact (Hcr a Ha).
  - intros l1 a l2 El N Nd. destruct (Hfirst l1 a l2 El N) as (x & Gx & Sx). exists x. split; [|exact Sx].
    unfold stA. rewrite get_add_new_other; [exact Gx|exact Wc|rewrite Eid; exact Nd].
  - exact SB.
  - apply (steps_each_weaken _ _ _ _ _ _ _ (steps_app _ _ _ _ _ _ S2 S3) F1).
  - apply (steps_each_weaken _ _ _ _ _ _ _ S3 F2).
  - exact F3.
  - reflexivity.
  - exact SN.
  - split; [exact Ln|]. exact FN.
  - reflexivity.
Qed.

(** * What the phases give *)
Lemma app_cancel (a b c : pystr) : a ++ b = a ++ c -> b = c.
Proof. apply app_inv_head. Qed.
Lemma annotation_not_relationship ns i j : annotation_id ns i <> relationship_id ns j.
Proof. unfold annotation_id, relationship_id, here. intro H. apply app_inv_head in H. apply app_inv_head in H. vm_compute in H. discriminate. Qed.
Lemma annotation_id_inj ns i j : annotation_id ns i = annotation_id ns j -> i = j.
Proof.
  unfold annotation_id, here. intro H. apply app_inv_head in H. apply app_inv_head in H. apply app_inv_head in H.
  apply str_of_N_inj in H. apply Nat2N.inj. exact H.
Qed.

Lemma Forall2_in_r {A B} (R : A -> B -> Prop) l l' y : Forall2 R l l' -> In y l' -> exists x, In x l /\ R x y.
Proof.
  induction 1 as [|a b l l' Hab F IH]; intros Hin; [destruct Hin|]. destruct Hin as [<-|Hin]; [exists a; split; [left; reflexivity|exact Hab]|].
  destruct (IH Hin) as (x & Hx & Hr). exists x. split; [right; exact Hx|exact Hr].
Qed.
Lemma Forall2_in_l {A B} (R : A -> B -> Prop) l l' x : Forall2 R l l' -> In x l -> exists y, In y l' /\ R x y.
Proof.
  induction 1 as [|a b l l' Hab F IH]; intros Hin; [destruct Hin|]. destruct Hin as [<-|Hin]; [exists b; split; [left; reflexivity|exact Hab]|].
  destruct (IH Hin) as (y & Hy & Hr). exists y. split; [right; exact Hy|exact Hr].
Qed.
Lemma not_doc_rel r : ~ is_document (E3Relationship r).
Proof. intros [? X]; discriminate. Qed.

Section Phases.
  Variables (d : document) (st : bstate) (doc : nat) (stA stB stR stN : bstate) (lp lf ls la : list (list extmap3 * element3)).
  Hypothesis H : Phases d st doc stA stB stR stN lp lf ls la.
  Let ns := ci_namespace (do_ci d).
  Let lids (l : list (list extmap3 * element3)) := map (fun ie => e3_id (snd ie)) l.

  Lemma ph_wfB : WF stB.
  Proof. exact (steps_wf _ _ _ _ (ph_elements _ _ _ _ _ _ _ _ _ _ _ H) (ph_wf _ _ _ _ _ _ _ _ _ _ _ H)). Qed.
  Lemma ph_summary : exists P, Summary stB stR (converted d) P.
  Proof. rewrite (ph_rels _ _ _ _ _ _ _ _ _ _ _ H). exact (bump_relationships_summary (do_relationships d) ns stB ph_wfB). Qed.
  Lemma ph_wfR : WF stR.
  Proof. destruct ph_summary as [P S]. exact (su_wf _ _ _ _ S). Qed.
  Lemma ph_wfN : WF stN.
  Proof. exact (steps_wf _ _ _ _ (ph_annotations _ _ _ _ _ _ _ _ _ _ _ H) ph_wfR). Qed.
  Lemma ph_wfE : WF st.
  Proof. rewrite (ph_end _ _ _ _ _ _ _ _ _ _ _ H). apply WF_update. exact ph_wfN. Qed.
  Lemma ph_keysE : keys st = keys stN.
  Proof. rewrite (ph_end _ _ _ _ _ _ _ _ _ _ _ H). unfold keys. rewrite update_document_map. reflexivity. Qed.

  Lemma la_ids ie : In ie la -> exists j a, nth_error la j = Some ie /\ nth_error (do_annotations d) j = Some a /\ e3_id (snd ie) = annotation_id ns j.
  Proof.
    intro Hin. apply In_nth_error in Hin as [j Hj]. destruct (ph_notes _ _ _ _ _ _ _ _ _ _ _ H) as [Ln F].
    destruct (nth_error (do_annotations d) j) as [a|] eqn:Ea.
    - exists j, a. split; [exact Hj|]. split; [exact Ea|]. destruct (F j a Ea) as (ie' & sti & iesi & E1 & (_ & x & E2 & E3 & _) & _).
      rewrite Hj in E1. injection E1 as ->. rewrite E2. exact E3.
    - exfalso. apply nth_error_None in Ea. assert (j < List.length la) by (apply nth_error_Some; congruence). lia.
  Qed.
  Lemma la_lids i : In i (lids la) -> exists j, i = annotation_id ns j.
  Proof. intro Hin. apply in_map_iff in Hin as (ie & <- & Hie). destruct (la_ids ie Hie) as (j & a & _ & _ & E). exists j. exact E. Qed.
  Lemma rel_ids i : In i (map r3_id (converted d)) -> exists j, i = relationship_id ns j.
  Proof. intro Hin. apply in_map_iff in Hin as (x & <- & Hx). unfold converted in Hx. destruct (converted_id _ _ _ _ Hx) as (j & _ & E). exists j. exact E. Qed.

  Lemma keep_to_end i x : ~ is_document x -> ~ made_up ns i -> get_element stB i = Ok x -> get_element st i = Ok x.
  Proof.
    intros Nx Nm G. destruct ph_summary as [P S]. rewrite (ph_end _ _ _ _ _ _ _ _ _ _ _ H). apply update_document_get; [exact Nx|].
    apply (steps_keep _ _ _ _ _ _ (ph_annotations _ _ _ _ _ _ _ _ _ _ _ H) ph_wfR Nx).
    - intro Y. destruct (la_lids _ Y) as [j ->]. apply Nm. right. exists j. reflexivity.
    - rewrite (su_other _ _ _ _ S); [exact G|]. intro Y. destruct (rel_ids _ Y) as [j ->]. apply Nm. left. exists j. reflexivity.
  Qed.
  Lemma rel_to_end i r : (forall j, i <> annotation_id ns j) -> get_element stR i = Ok (E3Relationship r) -> get_element st i = Ok (E3Relationship r).
  Proof.
    intros Ni G. rewrite (ph_end _ _ _ _ _ _ _ _ _ _ _ H). apply update_document_get; [intros [? X]; discriminate|].
    apply (steps_keep _ _ _ _ _ _ (ph_annotations _ _ _ _ _ _ _ _ _ _ _ H) ph_wfR); [intros [? X]; discriminate| |exact G].
    intro Y. destruct (la_lids _ Y) as [j ->]. exact (Ni j eq_refl).
  Qed.
  Lemma id_not_annotation x j : In x (converted d) -> r3_id x <> annotation_id ns j.
  Proof. intros Hx E. destruct (rel_ids (r3_id x) (in_map _ _ _ Hx)) as [k Ek]. rewrite Ek in E. symmetry in E. exact (annotation_not_relationship _ _ _ E). Qed.

  Lemma stB_norel i r : get_element stB i <> Ok (E3Relationship r).
  Proof.
    intro G. destruct (steps_back _ _ _ _ _ _ (ph_elements _ _ _ _ _ _ _ _ _ _ _ H) (ph_wf _ _ _ _ _ _ _ _ _ _ _ H) (not_doc_rel r) G) as [X|[[a X]|(im & X & _)]].
    - destruct (ph_start _ _ _ _ _ _ _ _ _ _ _ H _ _ X) as [[? Y]|[? Y]]; discriminate.
    - discriminate.
    - apply in_app_iff in X as [X|X]; [|apply in_app_iff in X as [X|X]].
      + destruct (Forall2_in_r _ _ _ _ (ph_packages _ _ _ _ _ _ _ _ _ _ _ H) X) as (p & _ & sti & iesi & (_ & y & E & _) & _). discriminate.
      + destruct (Forall2_in_r _ _ _ _ (ph_files _ _ _ _ _ _ _ _ _ _ _ H) X) as (p & _ & sti & iesi & (_ & y & E & _) & _). discriminate.
      + destruct (Forall2_in_r _ _ _ _ (ph_snippets _ _ _ _ _ _ _ _ _ _ _ H) X) as (p & _ & sti & iesi & (_ & y & E & _) & _). discriminate.
  Qed.
End Phases.
