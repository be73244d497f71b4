(** Proofs for C70. *)
From Verif Require Import Py PyFacts Data Json Typing TypingFacts Typing3 Typing3Spec Jsonld JsonldSpec Jsonld3 Jsonld3Spec OwlSpec OwlData MeaningSpec.
From Verif Require OwlFacts Jsonld3Facts Jsonld3Bump.
Import Jsonld3Facts.

(** ** Expansion by computation *)
Fixpoint cut (s : pystr) : option (pystr * pystr) :=
  match s with
  | [] => None
  | c :: s' => if N.eqb c (ch ":") then Some ([], s') else match cut s' with Some (p, r) => Some (c :: p, r) | None => None end
  end.
Lemma cut_app p r : ~ In (ch ":") p -> cut (p ++ $":" ++ r) = Some (p, r).
Proof.
  induction p as [|c p IH]; intro N; [reflexivity|]. cbn [app cut]. destruct (N.eqb c (ch ":")) eqn:E; [apply N.eqb_eq in E; subst; exfalso; apply N; left; reflexivity|].
  rewrite IH; [reflexivity|]. intro I. apply N. right. exact I.
Qed.
Lemma cut_inv s : forall p r, cut s = Some (p, r) -> s = p ++ $":" ++ r /\ ~ In (ch ":") p.
Proof.
  induction s as [|c s IH]; intros p r H; cbn [cut] in H; [discriminate|]. destruct (N.eqb c (ch ":")) eqn:E.
  - assert (X : p = [] /\ r = s) by (split; congruence). destruct X as [-> ->]. apply N.eqb_eq in E. subst c. split; [reflexivity|intros []].
  - destruct (cut s) as [[p' r']|]; [|discriminate]. destruct (IH p' r' eq_refl) as [A B]. assert (X : p = c :: p' /\ r = r') by (split; congruence).
    destruct X as [-> ->]. split; [rewrite A; reflexivity|]. intros [X|X]; [subst c; rewrite N.eqb_refl in E; discriminate|exact (B X)].
Qed.
Section Context.
Context (context : list (pystr * json)).
Definition expand (id : pystr) : option pystr :=
  match cut id with
  | None => None
  | Some (p, r) => if startswith $"//" r then Some id else match assoc p context with Some (JStr base) => Some (base ++ r) | _ => None end
  end.
Lemma expands_is id iri : Expands context id iri <-> expand id = Some iri.
Proof.
  unfold expand. split.
  - intros [p r base N S1 A|p r N].
    + rewrite (cut_app _ _ N), S1, A. reflexivity.
    + change (p ++ $"://" ++ r) with (p ++ $":" ++ ($"//" ++ r)). rewrite (cut_app _ _ N), startswith_app. reflexivity.
  - destruct (cut id) as [[p r]|] eqn:C; [|discriminate]. apply cut_inv in C as [-> N]. destruct (startswith $"//" r) eqn:S1.
    + intro H. apply startswith_spec in S1 as [t ->]. assert (E : iri = p ++ $"://" ++ t) by (symmetry; exact (f_equal (fun o => match o with Some x => x | None => iri end) H)).
      rewrite E. exact (ex_absolute context p t N).
    + destruct (assoc p context) as [[| | | |base| |]|] eqn:A; try discriminate. intro H. assert (E : iri = base ++ r) by congruence. subst iri. constructor; assumption.
Qed.
Definition meaning (t : pystr) : option pystr :=
  match assoc t context with
  | Some (JStr id) => expand id
  | Some d => match OwlFacts.identifier d with Some id => expand id | None => None end
  | None => None
  end.
Lemma meaning_is t iri : Meaning context t iri <-> meaning t = Some iri.
Proof.
  unfold Meaning, meaning. split.
  - intros (d & id & A & [ -> |I] & E); rewrite A; apply expands_is in E; [exact E|]. destruct I as (kvs & -> & B). cbn [OwlFacts.identifier]. rewrite B. exact E.
  - destruct (assoc t context) as [d|]; [|discriminate]. intro H.
    assert (X : (exists id, d = JStr id /\ expand id = Some iri) \/ (exists id, OwlFacts.identifier d = Some id /\ expand id = Some iri)).
    { destruct d as [| | | |id| |kvs]; try discriminate; [left; eauto|]. right. destruct (OwlFacts.identifier (JObj kvs)) as [id|]; [eauto|discriminate]. }
    destruct X as [(id & -> & E)|(id & I & E)]; apply expands_is in E.
    + exists (JStr id), id. auto.
    + exists d, id. split; [reflexivity|]. split; [right; apply OwlFacts.identified_is; exact I|exact E].
Qed.
Definition word_meaning (k w : pystr) : option pystr :=
  match assoc k context with
  | Some (JObj kvs) =>
      match assoc $"@type" kvs, assoc $"@context" kvs with
      | Some (JStr ty), Some (JObj own) =>
          if str_eqb ty $"@vocab" then
            match assoc w own with
            | Some (JStr iri) => Some iri
            | Some _ => None
            | None => match assoc w context with
                      | Some _ => meaning w
                      | None => match assoc $"@vocab" own with
                                | Some (JStr v) => match expand v with Some base => Some (base ++ w) | None => None end
                                | _ => None
                                end
                      end
            end
          else None
      | _, _ => None
      end
  | _ => None
  end.
Lemma word_meaning_is k w iri : WordMeaning context k w iri <-> word_meaning k w = Some iri.
Proof.
  unfold word_meaning. split.
  - intros [kvs own i A B C D|kvs own i A B C D E|kvs own v base A B C D E F G]; rewrite A, B, C, str_eqb_refl, D.
    + reflexivity.
    + destruct (assoc w context) eqn:X; [apply meaning_is; exact E|]. destruct E as (d & id & Y & _). congruence.
    + rewrite E, F. apply expands_is in G. rewrite G. reflexivity.
  - destruct (assoc k context) as [[| | | | | |kvs]|] eqn:A; try discriminate. destruct (assoc $"@type" kvs) as [[| | | |ty| |]|] eqn:B; try discriminate.
    destruct (assoc $"@context" kvs) as [[| | | | | |own]|] eqn:C; try discriminate. destruct (str_eqb ty $"@vocab") eqn:T; [|discriminate]. apply str_eqb_eq in T. subst ty.
    destruct (assoc w own) as [x|] eqn:D.
    + destruct x as [| | | |i| |]; try discriminate. intro H. assert (E : i = iri) by congruence. subst i. exact (wm_own _ k w kvs own iri A B C D).
    + destruct (assoc w context) as [x|] eqn:E.
      * intro H. apply meaning_is in H. exact (wm_term _ k w kvs own iri A B C D H).
      * destruct (assoc $"@vocab" own) as [[| | | |v| |]|] eqn:F; try discriminate. destruct (expand v) as [base|] eqn:G; [|discriminate].
        intro H. assert (X : iri = base ++ w) by congruence. subst iri. apply expands_is in G. exact (wm_vocabulary _ k w kvs own v base A B C D E F G).
Qed.
End Context.
Lemma meaning_one context t i i' : Meaning context t i -> Meaning context t i' -> i = i'.
Proof. intros A B. apply meaning_is in A, B. congruence. Qed.
Lemma word_meaning_one context k w i i' : WordMeaning context k w i -> WordMeaning context k w i' -> i = i'.
Proof. intros A B. apply word_meaning_is in A, B. congruence. Qed.

(** ** The ontology by computation *)
Definition property_iris : list pystr :=
  flat_map (fun n => match OwlFacts.look n with OwlFacts.VProp _ _ id _ => match expand prefixes id with Some i => [i] | None => [] end | _ => [] end) owl_graph.
Definition class_iris : list pystr :=
  flat_map (fun n => match OwlFacts.look n with OwlFacts.VClass _ id => match expand prefixes id with Some i => [i] | None => [] end | _ => [] end) owl_graph.
Definition individual_iri (n : json) : option pystr :=
  match n with
  | JObj kvs => match assoc $"@id" kvs, assoc $"@type" kvs with
                | Some (JStr i), Some (JArr l) => if existsb (fun x => match x with JStr s' => str_eqb s' $"owl:NamedIndividual" | _ => false end) l then Some i else None
                | _, _ => None
                end
  | _ => None
  end.
Definition individual_iris : list pystr := flat_map (fun n => match individual_iri n with Some i => [i] | None => [] end) owl_graph.
Lemma property_found i : In i property_iris -> OwlProperty i.
Proof.
  intro H. apply in_flat_map in H as (n & I & H). destruct (OwlFacts.look n) as [| | |kind t id range|] eqn:L; try contradiction.
  destruct (expand prefixes id) as [x|] eqn:E; [|contradiction]. destruct H as [ -> |[]]. exists n, kind, t, id, range. split; [exact I|].
  split; [apply OwlFacts.property_look; exact L|apply expands_is; exact E].
Qed.
Lemma class_found i : In i class_iris -> OwlClass i.
Proof.
  intro H. apply in_flat_map in H as (n & I & H). destruct (OwlFacts.look n) as [| |t id| |] eqn:L; try contradiction.
  destruct (expand prefixes id) as [x|] eqn:E; [|contradiction]. destruct H as [ -> |[]]. exists n, t, id. split; [exact I|].
  split; [apply OwlFacts.class_look; exact L|apply expands_is; exact E].
Qed.
Lemma individual_is i : OwlIndividual i <-> In i individual_iris.
Proof.
  unfold OwlIndividual, individual_iris. rewrite in_flat_map. split.
  - intros (kvs & l & I & A & B & C). exists (JObj kvs). split; [exact I|]. unfold individual_iri. rewrite A, B.
    apply OwlFacts.arr_in in C. rewrite C. left. reflexivity.
  - intros (n & I & H). destruct (individual_iri n) as [x|] eqn:E; [|contradiction]. destruct H as [ -> |[]]. unfold individual_iri in E.
    destruct n as [| | | | | |kvs]; try discriminate. destruct (assoc $"@id" kvs) as [[| | | |s| |]|] eqn:A; try discriminate.
    destruct (assoc $"@type" kvs) as [[| | | | |l|]|] eqn:B; try discriminate. destruct (existsb _ l) eqn:C; [|discriminate]. apply OwlFacts.arr_in in C.
    exists kvs, l. split; [exact I|]. split; [congruence|]. auto.
Qed.

(** ** Tables *)
Definition keyless : list pystr := [$"@id"; $"homepage"; $"extension"].
Definition meanings (ts : list pystr) : list pystr := flat_map (fun t => match meaning context_json t with Some i => [i] | None => [] end) ts.
Lemma keys_mean : forallb (fun fk => str_in (snd fk) keyless
    || match meaning context_json (snd fk) with Some i => str_in i property_iris | None => false end) field_keys = true.
Proof. vm_compute. reflexivity. Qed.
Lemma classes_mean : forallb (fun d => match meaning context_json (d_name d) with Some i => str_in i class_iris | None => false end) classes3 = true.
Proof. vm_compute. reflexivity. Qed.
Lemma meanings_distinct : nodupb (meanings (map snd field_keys ++ map d_name classes3)) = true.
Proof. vm_compute. reflexivity. Qed.
Lemma not_meant : meaning context_json $"homepage" = None /\ meaning context_json $"extension" = None.
Proof. split; vm_compute; reflexivity. Qed.
Lemma meanings_nodup ts t t' i : NoDup (meanings ts) -> In t ts -> In t' ts -> meaning context_json t = Some i -> meaning context_json t' = Some i -> t = t'.
Proof.
  unfold meanings. induction ts as [|x ts IH]; intros N I I' M M'; [contradiction|]. cbn [flat_map] in N.
  assert (N' : NoDup (flat_map (fun t => match meaning context_json t with Some i => [i] | None => [] end) ts)).
  { destruct (meaning context_json x); [apply NoDup_cons_iff in N as [_ N]; exact N|exact N]. }
  assert (K : forall y, In y ts -> meaning context_json y = Some i -> meaning context_json x <> Some i).
  { intros y J My Mx. rewrite Mx in N. cbn [app] in N. apply NoDup_cons_iff in N as [N _]. apply N. apply in_flat_map. exists y. split; [exact J|]. rewrite My. left. reflexivity. }
  destruct I as [ -> |I], I' as [ -> |I']; [reflexivity| | |].
  - exfalso. exact (K _ I' M' M).
  - exfalso. exact (K _ I M M').
  - exact (IH N' I I' M M').
Qed.
Lemma keys_differ t t' i : In t (map snd field_keys ++ map d_name classes3) -> In t' (map snd field_keys ++ map d_name classes3) ->
  Meaning context_json t i -> Meaning context_json t' i -> t = t'.
Proof.
  intros I I' M M'. apply meaning_is in M, M'. exact (meanings_nodup _ t t' i (nodupb_ok _ meanings_distinct) I I' M M').
Qed.
Lemma key_meant f k : In (f, k) field_keys -> k = $"@id" \/ k = $"homepage" \/ k = $"extension" \/ exists i, Meaning context_json k i /\ OwlProperty i.
Proof.
  intro I. pose proof keys_mean as K. rewrite forallb_forall in K. specialize (K _ I). cbn [snd] in K. apply orb_prop in K as [K|K].
  - apply str_in_In in K. destruct K as [ <- |[ <- |[ <- |[]]]]; auto.
  - destruct (meaning context_json k) as [i|] eqn:M; [|discriminate]. right. right. right. exists i. split; [apply meaning_is; exact M|].
    apply property_found. apply str_in_In. exact K.
Qed.
Lemma class_meant d : In d classes3 -> exists i, Meaning context_json (d_name d) i /\ OwlClass i.
Proof.
  intro I. pose proof classes_mean as K. rewrite forallb_forall in K. specialize (K _ I). cbn beta in K.
  destruct (meaning context_json (d_name d)) as [i|] eqn:M; [|discriminate]. exists i. split; [apply meaning_is; exact M|]. apply class_found. apply str_in_In. exact K.
Qed.
Lemma homepage_lost i : ~ Meaning context_json $"homepage" i.
Proof. intro H. apply meaning_is in H. destruct not_meant as [A _]. congruence. Qed.
Lemma extension_lost i : ~ Meaning context_json $"extension" i.
Proof. intro H. apply meaning_is in H. destruct not_meant as [_ A]. congruence. Qed.

(** ** Objects at every depth *)
Lemma class_not_member d i o : In d classes3 -> Shown (VObj (d_name d) i) o ->
  exists entries, o = Some (object (d_name d) entries)
    /\ Forall2 (fun fv ko => In (fst fv, fst ko) field_keys /\ Shown (snd fv) (snd ko)) i entries.
Proof.
  intros I C. inversion C as [| | | | | | |c words n w Ic W E1 E2|s E1 E2|d' i' es I' F E1 E2].
  - exfalso. subst c. destruct (words_in _ _ Ic) as (X & _). pose proof class_names as K. rewrite forallb_forall in K. specialize (K d I). rewrite X in K. discriminate.
  - exfalso. pose proof class_names as K. rewrite forallb_forall in K. specialize (K d I). rewrite <- E1 in K. discriminate.
  - exists es. split; [|exact F]. rewrite E1. reflexivity.
Qed.
Lemma in_present k j (es : list (pystr * option json)) :
  In (k, j) (flat_map (fun f => match snd f with Some j => [(fst f, j)] | None => [] end) es) -> In (k, Some j) es.
Proof.
  intro H. apply in_flat_map in H as ([k' o] & I & H). cbn [snd fst] in H. destruct o as [x|]; [|contradiction]. destruct H as [H|[]]. congruence.
Qed.
Lemma forall2_in_r {A B} (R : A -> B -> Prop) l m b : Forall2 R l m -> In b m -> exists a, In a l /\ R a b.
Proof. induction 1 as [|x y l m Q F IH]; intro I; [contradiction|]. destruct I as [ -> |I]; [exists x; split; [left; reflexivity|exact Q]|]. destruct (IH I) as (a & J & Z). exists a. split; [right; exact J|exact Z]. Qed.
Lemma forall2_in_l {A B} (R : A -> B -> Prop) l m a : Forall2 R l m -> In a l -> exists b, In b m /\ R a b.
Proof. induction 1 as [|x y l m Q F IH]; intro I; [contradiction|]. destruct I as [ -> |I]; [exists y; split; [left; reflexivity|exact Q]|]. destruct (IH I) as (b & J & Z). exists b. split; [right; exact J|exact Z]. Qed.
Lemma object_source v : Sound v -> forall j o, Shown v (Some j) -> ObjectIn o j ->
  exists d i, In d classes3 /\ Inside (VObj (d_name d) i) v /\ Sound (VObj (d_name d) i) /\ Shown (VObj (d_name d) i) (Some (JObj o)).
Proof.
  induction v using pyval_all_ind; intros S0 j o H0 O.
  - inversion H0.
  - destruct b; inversion H0; subst; inversion O.
  - destruct z; inversion H0; subst; inversion O.
  - inversion S0.
  - destruct s; inversion H0; subst; inversion O.
  - inversion H0; subst. inversion O.
  - inversion S0.
  - inversion S0 as [| | | | |l' F| | | |]; subst l'. inversion H0 as [| | | | |l' os G E1 E2| | | |]; subst l'.
    destruct l as [|x l]; [discriminate|].
    assert (E : j = JArr (flat_map (fun o => match o with Some j => [j] | None => [] end) os)) by congruence. clear E2. subst j.
    inversion O as [|l0 j0 I Q|]; subst. apply in_flat_map in I as (q & I & J). destruct q as [q|]; [|contradiction]. destruct J as [ -> |[]].
    destruct (forall2_in_r _ _ _ _ G I) as (v & Iv & Sv). rewrite Forall_forall in H, F.
    destruct (H v Iv (F v Iv) _ _ Sv Q) as (d & i & A & B & C & D). exists d, i. split; [exact A|]. split; [exact (in_list _ _ _ Iv B)|]. split; assumption.
  - inversion S0.
  - inversion H0.
  - destruct (sound_object _ _ S0) as [(words & n & I & W & E)|[(s & E)|(d & ps & I & P & -> & N & F)]].
    + exfalso. rewrite E in H0. assert (X : exists w, j = JStr w).
      { inversion H0 as [| | | | | | |c' words' n' w I' W' E1 E2|s E1 E2|d i' es I' G E1 E2]; [eexists; reflexivity|].
        exfalso. destruct (words_in _ _ I) as (X & _). pose proof class_names as K. rewrite forallb_forall in K. specialize (K d I'). subst c. rewrite X in K. discriminate. }
      destruct X as [w ->]. inversion O.
    + exfalso. rewrite E in H0. assert (X : exists w, j = JStr w).
      { inversion H0 as [| | | | | | |c' words' n' w I' W' E1 E2|s' E1 E2|d i' es I' G E1 E2]; [eexists; reflexivity|].
        exfalso. pose proof class_names as K. rewrite forallb_forall in K. specialize (K d I'). rewrite E1 in K. discriminate. }
      destruct X as [w ->]. inversion O.
    + destruct (class_not_member _ _ _ I H0) as (es & E & G). assert (X : j = object (d_name d) es) by congruence. clear E. subst j. unfold object in O.
      inversion O as [E|?|kvs k j J Q E]; subst.
      * exists d, i. split; [exact I|]. split; [constructor|]. split; [exact S0|exact H0].
      * destruct J as [J|J]; [assert (X : j = JStr (d_name d)) by congruence; subst j; inversion Q|]. apply in_present in J.
        destruct (forall2_in_r _ _ _ _ G J) as ([f v] & Iv & _ & Sv). cbn [snd] in Sv. rewrite Forall_forall in H, F.
        destruct (H _ Iv (F _ Iv) _ _ Sv Q) as (d' & i' & A & B & C & D). exists d', i'. split; [exact A|]. split; [exact (in_field _ _ _ _ _ Iv B)|]. split; assumption.
Qed.
Lemma objects_meant c i j o : Sound (VObj c i) -> convert_to_json_ld (object_of (VObj c i)) = Ok j -> ObjectIn o j ->
  (exists d iri, In d classes3 /\ assoc $"@type" o = Some (JStr (d_name d)) /\ Meaning context_json (d_name d) iri /\ OwlClass iri)
  /\ forall k, In k (map fst o) -> k = $"@type" \/ k = $"@id" \/ k = $"homepage" \/ k = $"extension" \/ exists iri, Meaning context_json k iri /\ OwlProperty iri.
Proof.
  intros S0 C O. apply (proj1 (element_shown _ _ _ S0)) in C. destruct (object_source _ S0 _ _ C O) as (d & i' & I & _ & S1 & H).
  apply (proj2 (element_shown _ _ _ S1)) in H. destruct (shown_lookup _ _ _ S1 I H) as (kvs & E & _ & T & _ & K).
  assert (X : o = kvs) by congruence. subst kvs. split.
  - destruct (class_meant d I) as (iri & M & W). exists d, iri. auto.
  - intros k Ik. destruct (K k Ik) as [ -> |(f & _ & J)]; [auto|]. right. exact (key_meant _ _ J).
Qed.

(** ** Words *)
Definition unknown_in (t : list (pystr * list pystr)) (f w : pystr) : bool := existsb (fun fl => str_eqb (fst fl) f && str_in w (snd fl)) t.
Lemma unknown_is f w : UnknownWord f w <-> unknown_in unknown_words f w = true.
Proof.
  unfold UnknownWord, unknown_in. rewrite existsb_exists. split.
  - intros (l & I & J). exists (f, l). split; [exact I|]. cbn [fst snd]. rewrite str_eqb_refl. apply str_in_In. exact J.
  - intros ([f' l] & I & H). cbn [fst snd] in H. apply andb_prop in H as [A B]. apply str_eqb_eq in A. subst f'. apply str_in_In in B. eauto.
Qed.
Lemma words_mean : (fun iris => forallb (fun fe => match assoc (fst fe) field_keys, assoc (snd fe) enumeration_words with
    | Some k, Some words =>
        forallb (fun nw => match word_meaning context_json k (snd nw) with
                           | Some i => Bool.eqb (str_in i iris) (negb (unknown_in unknown_words (fst fe) (snd nw)))
                           | None => false
                           end) words
        && nodupb (flat_map (fun nw => match word_meaning context_json k (snd nw) with Some i => [i] | None => [] end) words)
    | _, _ => false
    end) enumerated_fields) individual_iris = true.
Proof. vm_compute. reflexivity. Qed.
Lemma words_once : nodupb (map fst enumeration_words) = true.
Proof. vm_compute. reflexivity. Qed.
Lemma word_entry f e k words : In (f, e) enumerated_fields -> In (f, k) field_keys -> In (e, words) enumeration_words ->
  forallb (fun nw => match word_meaning context_json k (snd nw) with
                     | Some i => Bool.eqb (str_in i individual_iris) (negb (unknown_in unknown_words f (snd nw)))
                     | None => false
                     end) words = true
  /\ NoDup (flat_map (fun nw => match word_meaning context_json k (snd nw) with Some i => [i] | None => [] end) words).
Proof.
  intros I K W. pose proof words_mean as T. cbv beta in T. rewrite forallb_forall in T. specialize (T _ I). cbn [fst snd] in T.
  rewrite (assoc_in_nodup f k _ fields_nodup_keys K), (assoc_in_nodup e words _ (nodupb_ok _ words_once) W) in T. apply andb_prop in T as [A B].
  split; [exact A|apply nodupb_ok; exact B].
Qed.
Lemma word_meant f e k words n w : In (f, e) enumerated_fields -> In (f, k) field_keys -> In (e, words) enumeration_words -> In (n, w) words ->
  exists i, WordMeaning context_json k w i /\ (OwlIndividual i <-> ~ UnknownWord f w).
Proof.
  intros I K W N. destruct (word_entry _ _ _ _ I K W) as [T _]. rewrite forallb_forall in T. specialize (T _ N). cbn [snd] in T.
  destruct (word_meaning context_json k w) as [i|] eqn:M; [|discriminate]. exists i. split; [apply word_meaning_is; exact M|].
  rewrite individual_is, unknown_is, <- str_in_In. apply Bool.eqb_prop in T. rewrite T. destruct (unknown_in unknown_words f w); cbn [negb]; split; congruence.
Qed.
Lemma words_differ f e k words n m w w' i : In (f, e) enumerated_fields -> In (f, k) field_keys -> In (e, words) enumeration_words -> In (n, w) words -> In (m, w') words ->
  WordMeaning context_json k w i -> WordMeaning context_json k w' i -> n = m.
Proof.
  intros I K W N M A B. destruct (word_entry _ _ _ _ I K W) as [_ D]. apply word_meaning_is in A, B. clear W I.
  induction words as [|[n0 w0] words IH]; [contradiction|]. cbn [flat_map snd] in D.
  assert (D' : NoDup (flat_map (fun nw : pystr * pystr => match word_meaning context_json k (snd nw) with Some i => [i] | None => [] end) words)).
  { destruct (word_meaning context_json k w0); [apply NoDup_cons_iff in D as [_ D]; exact D|exact D]. }
  assert (X : forall p q, In (p, q) words -> word_meaning context_json k q = Some i -> word_meaning context_json k w0 <> Some i).
  { intros p q J Mq M0. rewrite M0 in D. cbn [app] in D. apply NoDup_cons_iff in D as [D _]. apply D. apply in_flat_map. exists (p, q). split; [exact J|]. cbn [snd]. rewrite Mq. left. reflexivity. }
  destruct N as [N|N], M as [M|M].
  - congruence.
  - exfalso. apply (X _ _ M B). congruence.
  - exfalso. apply (X _ _ N A). congruence.
  - exact (IH N M D').
Qed.
Lemma literal_words f e k w i : In (f, e) literal_fields -> In (f, k) field_keys -> ~ WordMeaning context_json k w i.
Proof.
  intros I K H. apply word_meaning_is in H. apply (assoc_in_nodup f k _ fields_nodup_keys) in K.
  assert (T : forallb (fun fe => match assoc (fst fe) field_keys with
                                 | Some k => match assoc k context_json with
                                             | Some (JObj kvs) => match assoc $"@type" kvs with Some (JStr ty) => negb (str_eqb ty $"@vocab") | _ => false end
                                             | _ => false
                                             end
                                 | None => false
                                 end) literal_fields = true) by (vm_compute; reflexivity).
  rewrite forallb_forall in T. specialize (T _ I). cbn [fst] in T. rewrite K in T. unfold word_meaning in H.
  destruct (assoc k context_json) as [[| | | | | |kvs]|]; try discriminate. destruct (assoc $"@type" kvs) as [[| | | |ty| |]|]; try discriminate.
  destruct (str_eqb ty $"@vocab"); [discriminate|]. destruct (assoc $"@context" kvs) as [[| | | | | |own]|]; discriminate.
Qed.
(** the fields *)
Fixpoint mentions (e : pystr) (h : hint3) : bool :=
  match h with TIs c => str_eqb c e | TOr a b | TDict a b => mentions e a || mentions e b | TList a => mentions e a | _ => false end.
Lemma mentions_is e h : Mentions e h -> mentions e h = true.
Proof.
  induction h; cbn [Mentions mentions]; try contradiction; auto.
  - intros ->. apply str_eqb_refl.
  - intros [H|H]; [rewrite IHh1 by exact H; reflexivity|rewrite IHh2 by exact H; apply orb_true_r].
  - intros [H|H]; [rewrite IHh1 by exact H; reflexivity|rewrite IHh2 by exact H; apply orb_true_r].
Qed.
Lemma field_declared d f h : Field classes3 d f h -> In d classes3 -> exists d', In d' classes3 /\ In (f, h) (d_fields d').
Proof. induction 1 as [d f h I|d e f h N B I F IH]; intro J; eauto. Qed.
Definition same_pair (a b : pystr * pystr) : bool := str_eqb (fst a) (fst b) && str_eqb (snd a) (snd b).
Lemma enumerations_used : forallb (fun d => forallb (fun fh => forallb (fun e => negb (mentions e (snd fh)) || existsb (same_pair (fst fh, e)) (enumerated_fields ++ literal_fields))
  (map fst enumeration_words)) (d_fields d)) classes3 = true.
Proof. vm_compute. reflexivity. Qed.
Lemma enumerated_all d f h e words : In d classes3 -> Field classes3 d f h -> In (e, words) enumeration_words -> Mentions e h -> In (f, e) (enumerated_fields ++ literal_fields).
Proof.
  intros I F W M. destruct (field_declared _ _ _ F I) as (d' & I' & J). pose proof enumerations_used as T. rewrite forallb_forall in T. specialize (T _ I').
  rewrite forallb_forall in T. specialize (T _ J). rewrite forallb_forall in T. specialize (T e (in_map fst _ _ W)). cbn [fst snd] in T.
  rewrite (mentions_is _ _ M) in T. cbn [negb orb] in T. apply existsb_exists in T as ([a b] & Q & E). unfold same_pair in E. cbn [fst snd] in E.
  apply andb_prop in E as [E1 E2]. apply str_eqb_eq in E1, E2. subst a b. exact Q.
Qed.
(** references *)
Definition referenceb (k : pystr) : bool :=
  match assoc k context_json with Some (JObj kvs) => match assoc $"@type" kvs with Some (JStr ty) => str_eqb ty $"@id" | _ => false end | _ => false end.
Lemma reference_is k : Reference context_json k <-> referenceb k = true.
Proof.
  unfold Reference, referenceb. split.
  - intros (kvs & A & B). rewrite A, B. apply str_eqb_refl.
  - destruct (assoc k context_json) as [[| | | | | |kvs]|]; try discriminate. destruct (assoc $"@type" kvs) as [[| | | |ty| |]|] eqn:B; try discriminate.
    intro H. apply str_eqb_eq in H. subst ty. exists kvs. auto.
Qed.
Lemma references f k : In (f, k) field_keys -> (Reference context_json k <-> In f reference_fields).
Proof.
  intro I. rewrite reference_is, <- str_in_In.
  assert (T : forallb (fun fk => Bool.eqb (referenceb (snd fk)) (str_in (fst fk) reference_fields)) field_keys = true) by (vm_compute; reflexivity).
  rewrite forallb_forall in T. specialize (T _ I). cbn [fst snd] in T. apply Bool.eqb_prop in T. rewrite T. reflexivity.
Qed.
(** words of instances *)
Lemma member_shown e n o words : In (e, words) enumeration_words -> Shown (member e n) o -> exists w, o = Some (JStr w) /\ In (n, w) words.
Proof.
  intros I H. inversion H as [| | | | | | |c' words' n' w I' W' E1 E2|s E1 E2|d i' es I' G E1 E2].
  - exists w. split; [reflexivity|]. apply (assoc_in_nodup e words' _ (nodupb_ok _ words_once)) in I'. apply (assoc_in_nodup e words _ (nodupb_ok _ words_once)) in I. assert (words' = words) by congruence. subst words'. exact W'.
  - exfalso. destruct (words_in _ _ I) as (X & _). pose proof class_names as K. rewrite forallb_forall in K. specialize (K d I'). subst e. rewrite X in K. discriminate.
Qed.
Lemma word_written d i j f v e words n k : Sound (VObj (d_name d) i) -> In d classes3 -> convert_to_json_ld (object_of (VObj (d_name d) i)) = Ok j ->
  In (f, v) i -> Holds v e n -> In (e, words) enumeration_words -> In (f, e) enumerated_fields -> In (f, k) field_keys ->
  exists kvs x w iri, j = JObj kvs /\ assoc k kvs = Some x /\ Word x w /\ In (n, w) words /\ WordMeaning context_json k w iri /\ (OwlIndividual iri <-> ~ UnknownWord f w).
Proof.
  intros S0 I C J H W E K. destruct (shown_lookup _ _ _ S0 I C) as (kvs & -> & _ & _ & L & _). specialize (L f k v J K).
  assert (X : exists x w, assoc k kvs = Some x /\ Word x w /\ In (n, w) words).
  { destruct H as [ -> |(l & -> & M)].
    - destruct (member_shown _ _ _ _ W L) as (w & Q & N). exists (JStr w), w. split; [exact Q|]. split; [left; reflexivity|exact N].
    - inversion L as [| | | | |l' os G E1 E2| | | |]. subst l'. destruct (forall2_in_l _ _ _ _ G M) as (o & Io & So).
      destruct (member_shown _ _ _ _ W So) as (w & -> & N). destruct l as [|y l]; [contradiction|]. eexists. exists w. split; [reflexivity|]. split; [|exact N].
      right. eexists. split; [reflexivity|]. apply in_flat_map. exists (Some (JStr w)). split; [exact Io|left; reflexivity]. }
  destruct X as (x & w & A & B & N). destruct (word_meant _ _ _ _ _ _ E K W N) as (iri & M & O). exists kvs, x, w, iri. auto 10.
Qed.
Lemma homepage_written d i j s : In d classes3 -> Sound (VObj (d_name d) i) -> convert_to_json_ld (object_of (VObj (d_name d) i)) = Ok j -> s <> [] -> In ($"homepage", VStr s) i ->
  exists kvs, j = JObj kvs /\ assoc $"homepage" kvs = Some (JStr s).
Proof.
  intros I S0 C N J. destruct (shown_lookup _ _ _ S0 I C) as (kvs & -> & _ & _ & L & _). exists kvs. split; [reflexivity|].
  assert (K : In ($"homepage", $"homepage") field_keys) by (apply assoc_In; vm_compute; reflexivity). specialize (L _ _ _ J K). inversion L. destruct s; [contradiction|reflexivity].
Qed.

(** ** Documents from SPDX 2 *)
Lemma converted_meant d st doc js j o : Bump.bump_spdx_document d = Ok (st, doc) -> convert_payload_to_json_ld st = Ok js -> In j js -> ObjectIn o j ->
  (exists d iri, In d classes3 /\ assoc $"@type" o = Some (JStr (d_name d)) /\ Meaning context_json (d_name d) iri /\ OwlClass iri)
  /\ forall k, In k (map fst o) -> k = $"@type" \/ k = $"@id" \/ k = $"homepage" \/ k = $"extension" \/ exists iri, Meaning context_json k iri /\ OwlProperty iri.
Proof.
  intros B C I O. destruct (Jsonld3Bump.bumped_payload _ _ _ B) as (vs & S0 & _ & E). rewrite E in C.
  apply (proj1 (elements_shown _ _ S0)) in C. destruct (forall2_in_r _ _ _ _ C I) as (v & J & H). rewrite Forall_forall in S0.
  destruct (S0 v J) as (S1 & c & i & ->). apply (proj2 (element_shown _ _ _ S1)) in H. exact (objects_meant _ _ _ _ S1 H O).
Qed.

(** ** Cases *)
Definition package_fields : instance := Eval vm_compute in
  match new3 classes3 (fun _ => {| ch_list := 0; ch_dict := None |}) $"Package"
          [($"spdx_id", VStr $"https://e.org/p"); ($"name", VStr $"p"); ($"homepage", VStr $"https://e.org")] with Ok (VObj _ i) => i | _ => [] end.
Definition sbom_fields : instance := Eval vm_compute in
  match new3 classes3 (fun _ => {| ch_list := 0; ch_dict := None |}) $"Sbom"
          [($"spdx_id", VStr $"https://e.org/s"); ($"element", VList [VStr $"https://e.org/p"]); ($"root_element", VList [VStr $"https://e.org/p"]);
           ($"sbom_type", VList [member $"SBOMType" $"SOURCE"; member $"SBOMType" $"DEPLOYED"])] with Ok (VObj _ i) => i | _ => [] end.
Definition sbom_sample : pyval := VObj $"Sbom" sbom_fields.
Lemma ok_exists {A} (r : result A) : is_ok r = true -> exists a, r = Ok a.
Proof. destruct r; [eauto|discriminate]. Qed.
Lemma homepage_case :
  (forall iri, ~ Meaning context_json $"homepage" iri)
  /\ (forall d i j s, In d classes3 -> Sound (VObj (d_name d) i) -> convert_to_json_ld (object_of (VObj (d_name d) i)) = Ok j -> s <> [] ->
      In ($"homepage", VStr s) i -> exists kvs, j = JObj kvs /\ assoc $"homepage" kvs = Some (JStr s))
  /\ exists d i j s, In d classes3 /\ Sound (VObj (d_name d) i) /\ convert_to_json_ld (object_of (VObj (d_name d) i)) = Ok j /\ s <> [] /\ In ($"homepage", VStr s) i.
Proof.
  split; [exact homepage_lost|]. split; [exact homepage_written|].
  assert (K : is_ok (convert_to_json_ld (object_of (VObj $"Package" package_fields))) = true) by (vm_compute; reflexivity).
  destruct (ok_exists _ K) as [j J]. exists D_Package, package_fields, j, $"https://e.org". split; [do 4 right; left; reflexivity|].
  split; [apply soundb_ok; vm_compute; reflexivity|]. split; [exact J|]. split; [discriminate|]. apply assoc_In. vm_compute. reflexivity.
Qed.
Lemma not_individual i : str_in i individual_iris = false -> ~ OwlIndividual i.
Proof. intros H X. apply individual_is in X. apply str_in_false in H. contradiction. Qed.
Lemma is_individual i : str_in i individual_iris = true -> OwlIndividual i.
Proof. intro H. apply individual_is. apply str_in_In. exact H. Qed.
Lemma build_case :
  WordMeaning context_json $"scope" $"build" $"https://spdx.org/rdf/Build/" /\ WordMeaning context_json $"sbomType" $"build" $"https://spdx.org/rdf/Build/"
  /\ ~ OwlIndividual $"https://spdx.org/rdf/Build/"
  /\ OwlIndividual $"https://spdx.org/rdf/Core/LifecycleScopeType/build" /\ OwlIndividual $"https://spdx.org/rdf/Software/SBOMType/build".
Proof.
  split; [apply word_meaning_is; vm_compute; reflexivity|]. split; [apply word_meaning_is; vm_compute; reflexivity|].
  split; [apply not_individual; vm_compute; reflexivity|]. split; apply is_individual; vm_compute; reflexivity.
Qed.
Lemma sha3_case :
  WordMeaning context_json $"algorithm" $"sha3256" $"https://spdx.org/rdf/Core/HashAlgorithm/sha3256"
  /\ ~ OwlIndividual $"https://spdx.org/rdf/Core/HashAlgorithm/sha3256" /\ OwlIndividual $"https://spdx.org/rdf/Core/HashAlgorithm/sha3_256".
Proof.
  split; [apply word_meaning_is; vm_compute; reflexivity|]. split; [apply not_individual|apply is_individual]; vm_compute; reflexivity.
Qed.
Lemma sbom_case :
  Sound sbom_sample /\ is_ok (convert_to_json_ld (object_of sbom_sample)) = true
  /\ (exists i v, sbom_sample = VObj $"Sbom" i /\ In ($"sbom_type", v) i /\ Holds v $"SBOMType" $"DEPLOYED")
  /\ WordMeaning context_json $"sbomType" $"deployed" $"https://spdx.org/rdf/Software/SBOMType/deployed" /\ OwlIndividual $"https://spdx.org/rdf/Software/SBOMType/deployed".
Proof.
  split; [apply soundb_ok; vm_compute; reflexivity|]. split; [vm_compute; reflexivity|]. split.
  - exists sbom_fields, (VList [member $"SBOMType" $"SOURCE"; member $"SBOMType" $"DEPLOYED"]). split; [reflexivity|]. split; [apply assoc_In; vm_compute; reflexivity|].
    right. eexists. split; [reflexivity|]. right. left. reflexivity.
  - split; [apply word_meaning_is; vm_compute; reflexivity|apply is_individual; vm_compute; reflexivity].
Qed.
