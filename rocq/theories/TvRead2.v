(** The attributes of the document and those of the elements; the blocks of the elements. *)
From Verif Require Import Py PyFacts PyRe Data Oracles Basics Json Construct JsonConv JsonParse JsonSpec
  TvWriter TvLexer TvSpec TvTokSpec TvLexFacts TvLexValues TvParser TvParseFacts TvErrors TvRepeat TvReadSpec TvRead.

Section WithOracles.
Variable O : oracles.
(** ** The document's attributes *)
Definition creation (g : grp) : bool := is_in (g_tag g) creation_tags.
Definition is_id (g : grp) : bool := tag_eqb (g_tag g) T_SPDXID.
Definition starts (g : grp) : bool := is_in (g_tag g) start_tags.
Definition ci_put (g : grp) (ci : tdict) : option tdict :=
  match slot_of (g_tag g) with
  | L_CiSet n => put_once n (val_of O g) ci
  | L_CiApp n => put_more n (val_of O g) ci
  | L_Id => Some (match assoc $"spdx_id" ci with Some _ => ci | None => dict_set $"spdx_id" (VStr (tk_value (g_val g))) ci end)
  | _ => Some ci
  end.
Fixpoint ci_puts (gs : list grp) (ci : tdict) : option tdict :=
  match gs with [] => Some ci | g :: gs' => match ci_put g ci with Some ci' => ci_puts gs' ci' | None => None end end.
(** the effect of an attribute that is not the document's *)
Definition own_effect (g : grp) (st : pstate) : option pstate :=
  if is_id g then Some (with_cur (dict_set $"spdx_id" (VStr (tk_value (g_val g))) (ps_cur st)) st) else effect O g st.
Fixpoint own_effects (gs : list grp) (st : pstate) : option pstate :=
  match gs with [] => Some st | g :: gs' => match own_effect g st with Some st1 => own_effects gs' st1 | None => None end end.
Lemma creation_slot g : creation g = match slot_of (g_tag g) with L_CiSet _ | L_CiApp _ => true | _ => false end.
Proof. unfold creation. destruct (g_tag g); reflexivity. Qed.
Lemma is_id_slot g : is_id g = match slot_of (g_tag g) with L_Id => true | _ => false end.
Proof. unfold is_id. destruct (g_tag g); reflexivity. Qed.
Lemma starts_slot g : starts g = match slot_of (g_tag g) with L_Start _ _ | L_Rel => true | _ => false end.
Proof. unfold starts. destruct (g_tag g); reflexivity. Qed.

Lemma build_contains_ci i ci st : build_contains i (with_ci ci st) = with_ci ci (build_contains i st).
Proof. unfold build_contains. cbn. destruct (b_packages (ps_built st)) as [l|]; [|auto]. destruct (rev l); [auto|]. destruct (rel_in _ _); auto. Qed.
Definition map_ok {A B} (f : A -> B) (r : result A) : result B := match r with Ok a => Ok (f a) | Raise e => Raise e end.
Lemma build_ci c ci st : build_element c (with_ci ci st) = map_ok (with_ci ci) (build_element c st).
Proof.
  destruct c; cbn [build_element]; change (ps_cur (with_ci ci st)) with (ps_cur st); change (ps_built (with_ci ci st)) with (ps_built st); unfold add_element.
  - destruct (construct_file (ps_cur st)) as [f|[]]; try reflexivity. cbn [map_ok].
    change (with_built ?b (with_ci ci st)) with (with_ci ci (with_built b st)). rewrite build_contains_ci. reflexivity.
  - destruct (construct_annotation (ps_cur st)) as [f|[]]; reflexivity.
  - destruct (construct_relationship (ps_cur st)) as [f|[]]; reflexivity.
  - destruct (construct_snippet (ps_cur st)) as [f|[]]; reflexivity.
  - destruct (construct_package (ps_cur st)) as [f|[]]; reflexivity.
  - destruct (construct_extracted (ps_cur st)) as [f|[]]; reflexivity.
Qed.
Lemma flush_ci ci st : flush (with_ci ci st) = option_map (with_ci ci) (flush st).
Proof.
  unfold flush, construct_current_element. change (ps_class (with_ci ci st)) with (ps_class st). change (ps_cur_log (with_ci ci st)) with (ps_cur_log st).
  destruct (ps_class st) as [c|]; [|cbn; destruct (ps_log st); reflexivity]. rewrite build_ci.
  destruct (raise_if_named (ps_cur_log st) (clazz_name c)) as [|[]]; cbn [bind]; try reflexivity.
  - destruct (build_element c st) as [x|]; cbn [bind map_ok]; [|reflexivity]. cbn. destruct (ps_log x); reflexivity.
  - cbn. destruct (ps_log st ++ msgs); reflexivity.
Qed.
Lemma own_effect_ci g ci st : creation g = false -> own_effect g (with_ci ci st) = option_map (with_ci ci) (own_effect g st).
Proof.
  intro H. unfold own_effect. rewrite is_id_slot. rewrite creation_slot in H. unfold effect.
  destruct (slot_of (g_tag g)) as [n|n|c n|c n|c n| | |]; try discriminate H; try reflexivity.
  - change (matches_class c (with_ci ci st)) with (matches_class c st). change (ps_cur (with_ci ci st)) with (ps_cur st). destruct (matches_class c st); [|reflexivity]. destruct (put_once _ _ _); reflexivity.
  - change (matches_class c (with_ci ci st)) with (matches_class c st). change (ps_cur (with_ci ci st)) with (ps_cur st). destruct (matches_class c st); [|reflexivity]. destruct (put_more _ _ _); reflexivity.
  - rewrite flush_ci. destruct (flush st) as [st1|]; [|reflexivity]. cbn [option_map]. change (ps_cur (with_ci ci st1)) with (ps_cur st1). destruct (put_once _ _ _); reflexivity.
  - rewrite flush_ci. destruct (flush st) as [st1|]; [|reflexivity]. cbn [option_map]. change (ps_cur (with_ci ci st1)) with (ps_cur st1). destruct (rel_put _ _); reflexivity.
Qed.
Lemma own_effects_ci gs ci : forall st, forallb (fun g => negb (creation g)) gs = true -> own_effects gs (with_ci ci st) = option_map (with_ci ci) (own_effects gs st).
Proof.
  induction gs as [|g gs IH]; intros st H; [reflexivity|]. cbn [forallb] in H. apply andb_true_iff in H as [H1 H2]. apply negb_true_iff in H1.
  cbn [own_effects]. rewrite own_effect_ci by exact H1. destruct (own_effect g st); cbn [option_map]; auto.
Qed.
Lemma with_ci_same st : with_ci (ps_ci st) st = st. Proof. destruct st; reflexivity. Qed.
Lemma effect_cases g st : effect O g st =
  if creation g then option_map (fun ci => with_ci ci st) (ci_put g (ps_ci st))
  else if is_id g then match assoc $"spdx_id" (ps_ci st) with Some _ => own_effect g st | None => option_map (fun ci => with_ci ci st) (ci_put g (ps_ci st)) end
  else own_effect g st.
Proof.
  rewrite creation_slot. unfold own_effect. rewrite is_id_slot. unfold effect, ci_put. destruct (slot_of (g_tag g)) as [n|n|c n|c n|c n| | |] eqn:E; try reflexivity.
  unfold spdx_id_action. destruct (assoc $"spdx_id" (ps_ci st)); reflexivity.
Qed.
Lemma ci_put_other g ci : creation g = false -> is_id g = false -> ci_put g ci = Some ci.
Proof. rewrite creation_slot, is_id_slot. unfold ci_put. destruct (slot_of (g_tag g)); try discriminate; reflexivity. Qed.
Lemma put_once_has n v d d' k : put_once n v d = Some d' -> assoc k d <> None -> assoc k d' <> None.
Proof. unfold put_once. destruct v as [x|]; [|discriminate]. destruct (assoc n d); [discriminate|]. intro H. injection H as <-. intro K. apply (has_set k n x d K). Qed.
Lemma put_more_has n v d d' k : put_more n v d = Some d' -> assoc k d <> None -> assoc k d' <> None.
Proof. unfold put_more. destruct v as [x|]; [|discriminate]. destruct (append_val _ _) as [y|]; [|discriminate]. intro H. injection H as <-. intro K. apply (has_set k n y d K). Qed.
Lemma put_once_lacks n v d d' k : put_once n v d = Some d' -> k <> n -> assoc k d' = assoc k d.
Proof. unfold put_once. destruct v as [x|]; [|discriminate]. destruct (assoc n d); [discriminate|]. intro H. injection H as <-. intro K. apply assoc_dict_set_other. auto. Qed.
Lemma put_more_lacks n v d d' k : put_more n v d = Some d' -> k <> n -> assoc k d' = assoc k d.
Proof. unfold put_more. destruct v as [x|]; [|discriminate]. destruct (append_val _ _); [|discriminate]. intro H. injection H as <-. intro K. apply assoc_dict_set_other. auto. Qed.
Lemma ci_put_id g ci ci' : creation g = true -> ci_put g ci = Some ci' -> assoc $"spdx_id" ci' = assoc $"spdx_id" ci.
Proof.
  unfold creation, ci_put. destruct (g_tag g); try discriminate; intros _ H; cbn [slot_of] in H;
    (apply put_once_lacks with (k := $"spdx_id") in H || apply put_more_lacks with (k := $"spdx_id") in H); auto; vm_compute; discriminate.
Qed.
(** the attributes left for the elements *)
Definition rest (known : bool) (gs : list grp) : list grp := filter (fun g => negb (creation g)) (if known then gs else without_first_id gs).
Lemma rest_other known gs : forallb (fun g => negb (creation g)) (rest known gs) = true.
Proof. unfold rest. generalize (if known then gs else without_first_id gs). intro l. induction l as [|g l IH]; auto. cbn [filter]. destruct (creation g) eqn:E; cbn [negb]; auto. cbn [forallb]. rewrite E. exact IH. Qed.
Lemma effects_split gs : forall st, effects O gs st =
  match ci_puts gs (ps_ci st) with
  | Some ci => option_map (with_ci ci) (own_effects (rest (match assoc $"spdx_id" (ps_ci st) with Some _ => true | None => false end) gs) st)
  | None => None
  end.
Proof.
  induction gs as [|g gs IH]; intro st.
  - cbn [effects ci_puts]. destruct (assoc _ _); cbn; rewrite with_ci_same; reflexivity.
  - cbn [effects ci_puts]. rewrite effect_cases. destruct (creation g) eqn:C.
    + destruct (ci_put g (ps_ci st)) as [ci|] eqn:P; cbn [option_map]; [|reflexivity]. rewrite IH.
      change (ps_ci (with_ci ci st)) with ci. rewrite (ci_put_id g (ps_ci st) ci C P).
      assert (R : forall b, rest b (g :: gs) = rest b gs).
      { intros [|]; unfold rest; [cbn [filter]; rewrite C; reflexivity|]. cbn [without_first_id].
        assert (N : tag_eqb (g_tag g) T_SPDXID = false) by (clear - C; unfold creation in C; destruct (g_tag g); try discriminate C; reflexivity).
        rewrite N. cbn [filter]. rewrite C. reflexivity. }
      rewrite R. destruct (ci_puts gs ci) as [ci'|]; [|reflexivity].
      rewrite own_effects_ci by apply rest_other. destruct (own_effects _ st); reflexivity.
    + destruct (is_id g) eqn:I.
      * assert (P : ci_put g (ps_ci st) = Some (match assoc $"spdx_id" (ps_ci st) with Some _ => ps_ci st | None => dict_set $"spdx_id" (VStr (tk_value (g_val g))) (ps_ci st) end)).
        { rewrite is_id_slot in I. unfold ci_put. destruct (slot_of (g_tag g)); try discriminate I. reflexivity. }
        rewrite P. destruct (assoc $"spdx_id" (ps_ci st)) as [v|] eqn:K.
        -- unfold own_effect at 1. rewrite I. unfold rest. cbn [filter]. rewrite C. cbn [negb own_effects]. unfold own_effect at 1. rewrite I.
           rewrite IH. change (ps_ci (with_cur _ st)) with (ps_ci st). rewrite K. destruct (ci_puts gs (ps_ci st)); reflexivity.
        -- cbn [option_map]. rewrite IH. change (ps_ci (with_ci ?x st)) with x. rewrite assoc_dict_set_same.
           assert (R : rest false (g :: gs) = rest true gs) by (unfold rest; cbn [without_first_id]; unfold is_id in I; rewrite I; reflexivity).
           rewrite R. destruct (ci_puts gs _); [|reflexivity]. rewrite own_effects_ci by apply rest_other. destruct (own_effects _ st); reflexivity.
      * rewrite (ci_put_other g (ps_ci st) C I).
        assert (R : forall b, rest b (g :: gs) = g :: rest b gs).
        { intros [|]; unfold rest; [cbn [filter]; rewrite C; reflexivity|]. cbn [without_first_id]. unfold is_id in I. rewrite I. cbn [filter]. rewrite C. reflexivity. }
        rewrite R. cbn [own_effects]. destruct (own_effect g st) as [st1|] eqn:E.
        -- assert (J : ps_ci st1 = ps_ci st).
           { pose proof (own_effect_ci g (ps_ci st) st C) as X. rewrite with_ci_same in X. rewrite E in X. cbn [option_map] in X. injection X as X. rewrite X. reflexivity. }
           rewrite IH, J. destruct (ci_puts gs (ps_ci st)); reflexivity.
        -- destruct (ci_puts gs (ps_ci st)); reflexivity.
Qed.
Lemma effects_iff gs st' : effects O gs init_state = Some st' <->
  exists ci st1, ci_puts gs [] = Some ci /\ own_effects (element_attributes gs) init_state = Some st1 /\ st' = with_ci ci st1.
Proof.
  rewrite effects_split. change (ps_ci init_state) with (@nil (pystr * tval)). cbn [assoc]. change (rest false gs) with (element_attributes gs). split.
  - destruct (ci_puts gs []) as [ci|]; [|discriminate]. destruct (own_effects _ init_state) as [st1|]; [|discriminate].
    intro H. injection H as <-. eauto.
  - intros (ci & st1 & -> & -> & ->). reflexivity.
Qed.
End WithOracles.
