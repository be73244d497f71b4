(** The XML form of documents. *)
From Verif Require Import Py Data Oracles Basics DocUtils Json Construct JsonConv JsonParse Loading LoadingSpec PyFacts BasicsSpec JsonSpec JsonFacts JsonRound JsonDoc JsonShape XmlSpec.
From Verif Require LoadingFacts TvSpecialFacts JsonRead2.

(** ** Texts *)
Fixpoint texts (j : json) : json :=
  match j with
  | JBool b => JStr (if b then $"true" else $"false")
  | JInt z => JStr (str_of_Z z)
  | JArr l => JArr (map texts l)
  | JObj kvs => JObj (map (fun kv => (fst kv, texts (snd kv))) kvs)
  | _ => j
  end.
(** what the converters produce: lists under the list fields, and there only *)
Inductive Shaped : json -> Prop :=
| Sh_str : forall s, Shaped (JStr s)
| Sh_bool : forall b, Shaped (JBool b)
| Sh_int : forall z, Shaped (JInt z)
| Sh_obj : forall kvs, (forall k v, In (k, v) kvs -> Slot (str_in k LIST_LIKE_FIELDS) v) -> Shaped (JObj kvs)
with Slot : bool -> json -> Prop :=
| Sl_list : forall l, l <> [] -> (forall x, In x l -> Shaped x) -> Slot true (JArr l)
| Sl_one : forall v, Shaped v -> Slot false v.
Definition full (j : json) : Prop := (forall s, Within (JStr s) j -> s <> [] /\ Trimmed s) /\ ~ Within (JObj []) j.

Scheme XmlImage_ind' := Minimality for XmlImage Sort Prop
with XmlMembers_ind' := Minimality for XmlMembers Sort Prop
with XmlItems_ind' := Minimality for XmlItems Sort Prop.

Lemma full_item l x : full (JArr l) -> In x l -> full x.
Proof. intros [A B] I. split; [intros s W; apply A|intro W; apply B]; econstructor; eassumption. Qed.
Lemma full_member kvs k x : full (JObj kvs) -> In (k, x) kvs -> full x.
Proof. intros [A B] I. split; [intros s W; apply A|intro W; apply B]; econstructor; eassumption. Qed.
Lemma str_of_Z_nonempty z : str_of_Z z <> [].
Proof. unfold str_of_Z. destruct (z <? 0)%Z; [discriminate|apply str_of_N_nonempty]. Qed.
Definition entry (kv : pystr * json) : pystr * json :=
  (fst kv, if str_in (fst kv) LIST_LIKE_FIELDS && negb (is_list (snd kv))
           then if jtruthy (snd kv) then JArr [fix_list_like_fields (snd kv)] else JArr []
           else fix_list_like_fields (snd kv)).
Lemma fix_obj kvs : fix_list_like_fields (JObj kvs) = JObj (map entry kvs).
Proof. reflexivity. Qed.
Lemma slot_inv b v : Slot b v -> (exists l, v = JArr l /\ b = true /\ l <> [] /\ forall x, In x l -> Shaped x) \/ (b = false /\ Shaped v).
Proof. intro H. inversion H; subst; eauto 6. Qed.
Lemma image_texts j v : XmlImage j v -> Shaped j -> full j -> fix_list_like_fields v = texts j /\ jtruthy v = true /\ is_list v = false.
Proof.
  intro H. induction H using XmlImage_ind' with
    (P0 := fun kvs kvs' => (forall k v, In (k, v) kvs -> Slot (str_in k LIST_LIKE_FIELDS) v) -> (forall k v, In (k, v) kvs -> full v) ->
             map entry kvs' = map (fun kv => (fst kv, texts (snd kv))) kvs)
    (P1 := fun l l' => (forall x, In x l -> Shaped x) -> (forall x, In x l -> full x) -> map fix_list_like_fields l' = map texts l).
  - intro S0. inversion S0.
  - intros _ _. repeat split.
  - intros _ _. repeat split.
  - intros _ _. cbn. repeat split. destruct (str_of_Z z) eqn:E; [destruct (str_of_Z_nonempty z E)|reflexivity].
  - intros _ [F _]. destruct (F s (W_here _)) as [F1 F2]. rewrite (strip_id s F2). cbn. repeat split. destruct s; [congruence|reflexivity].
  - intros _ [F _]. destruct (F s (W_here _)) as [F1 F2]. rewrite (strip_id s F2) in H. congruence.
  - intros S0 F. inversion S0 as [| | |? K]; subst. rewrite fix_obj, IHXmlImage; [|exact K|intros k v I; exact (full_member _ _ _ F I)].
    repeat split. cbn. destruct kvs'; [congruence|reflexivity].
  - intros S0 F. inversion S0 as [| | |? K]; subst. exfalso. specialize (IHXmlImage K (fun k v I => full_member _ _ _ F I)).
    destruct kvs; [|discriminate]. apply F. constructor.
  - reflexivity.
  - intros K F. cbn [map]. rewrite IHXmlImage0; [|intros; apply K; right; assumption|intros k0 v0 I; apply (F k0 v0); right; exact I]. f_equal.
    destruct (slot_inv _ _ (K k v (or_introl eq_refl))) as [(l & -> & _)|(K0 & H1)]; unfold entry; cbn [fst snd].
    + inversion H.
    + rewrite K0. destruct (IHXmlImage H1 (F k v (or_introl eq_refl))) as (-> & _ & _). reflexivity.
  - intros K F. destruct (slot_inv _ _ (K k (JArr []) (or_introl eq_refl))) as [(l & E & _ & H1 & _)|(_ & H1)]; [congruence|inversion H1].
  - intros K F. cbn [map]. rewrite IHXmlImage0; [|intros; apply K; right; assumption|intros k0 v0 I; apply (F k0 v0); right; exact I]. f_equal.
    destruct (slot_inv _ _ (K k (JArr [x]) (or_introl eq_refl))) as [(l & E & K0 & G1 & G2)|(_ & G1)]; [|inversion G1]. injection E as <-. unfold entry. cbn [fst snd]. rewrite K0.
    assert (Fx : full x) by (eapply full_item; [exact (F k _ (or_introl eq_refl))|left; reflexivity]).
    destruct (IHXmlImage (G2 x (or_introl eq_refl)) Fx) as (-> & -> & ->). reflexivity.
  - intros K F. cbn [map]. rewrite IHXmlImage0; [|intros; apply K; right; assumption|intros k0 v0 I; apply (F k0 v0); right; exact I]. f_equal.
    destruct (slot_inv _ _ (K k (JArr l) (or_introl eq_refl))) as [(l1 & E & K0 & G1 & G2)|(_ & G1)]; [|inversion G1]. injection E as <-. unfold entry. cbn [fst snd is_list negb]. rewrite andb_false_r.
    cbn [fix_list_like_fields texts]. rewrite IHXmlImage; [reflexivity|exact G2|]. intros x I. eapply full_item; [exact (F k _ (or_introl eq_refl))|exact I].
  - reflexivity.
  - intros K F. cbn [map]. rewrite IHXmlImage0; [|intros; apply K; right; assumption|intros; apply F; right; assumption]. f_equal.
    apply IHXmlImage; [apply K|apply F]; left; reflexivity.
Qed.

(** ** What the converters produce *)
Lemma dict_set_entry {A} k (v : A) l x : In x (dict_set k v l) -> x = (k, v) \/ In x l.
Proof.
  induction l as [|[k' v'] l IH]; cbn; [intros [<-|[]]; auto|]. destruct (str_eqb k k') eqn:E; cbn; intros [<-|H]; auto.
  - apply str_eqb_eq in E. subst. auto.
  - destruct (IH H); auto.
Qed.
Lemma convert_all (P : pystr -> json -> Prop) name ps j : convert name ps = Ok j ->
  Forall (fun p => forall v, snd p = Ok (Some v) -> P (name (fst p)) v) ps -> exists kvs, j = JObj kvs /\ forall k v, In (k, v) kvs -> P k v.
Proof.
  unfold convert. intros H F. destruct (convert_loop name ps []) as [kvs|e] eqn:E; [|discriminate]. cbn in H. injection H as <-.
  exists kvs. split; [reflexivity|].
  assert (G : forall acc, (forall k v, In (k, v) acc -> P k v) -> forall kvs, convert_loop name ps acc = Ok kvs -> forall k v, In (k, v) kvs -> P k v).
  { clear E. induction F as [|[p r] ps H1 _ IH]; cbn [convert_loop]; intros acc C kvs' E; [injection E as <-; auto|].
    destruct r as [[v|]|e]; cbn [bind] in E; [|eauto|discriminate]. cbn in H1. eapply IH; [|exact E].
    intros k x I. apply dict_set_entry in I as [I|I]; [injection I as -> ->; auto|eauto]. }
  apply (G []); [intros ? ? []|exact E].
Qed.
Definition good (j : json) : Prop := Shaped j /\ texts j = j.
Definition fits (k : pystr) (v : json) : Prop := Slot (str_in k LIST_LIKE_FIELDS) v /\ texts v = v.
Lemma good_convert name ps j : convert name ps = Ok j -> Forall (fun p => forall v, snd p = Ok (Some v) -> fits (name (fst p)) v) ps -> good j.
Proof.
  intros H F. apply (convert_all fits) in H as (kvs & -> & G); [|exact F]. split; [constructor; intros k v I; apply (G k v I)|].
  cbn [texts]. f_equal. rewrite <- (map_id kvs) at 2. apply map_ext_in. intros [k v] I. cbn. destruct (G k v I) as [_ ->]. reflexivity.
Qed.
Lemma fits_str k s : str_in k LIST_LIKE_FIELDS = false -> fits k (JStr s).
Proof. intro H. split; [rewrite H; constructor; constructor|reflexivity]. Qed.
Lemma fits_good k v : str_in k LIST_LIKE_FIELDS = false -> good v -> fits k v.
Proof. intros H [A B]. split; [rewrite H; constructor; exact A|exact B]. Qed.
Lemma fits_goods k l : str_in k LIST_LIKE_FIELDS = true -> l <> [] -> Forall good l -> fits k (JArr l).
Proof.
  intros H N F. rewrite Forall_forall in F. split; [rewrite H; constructor; [exact N|intros x I; apply (F x I)]|]. cbn [texts]. f_equal. rewrite <- (map_id l) at 2. apply map_ext_in.
  intros x I. apply (F x I).
Qed.
Lemma fits_strs k l v : str_in k LIST_LIKE_FIELDS = true -> or_none (strs l) = Some v -> fits k v.
Proof.
  intros H E. destruct l as [|x l]; [discriminate|]. cbn [or_none strs map] in E. injection E as <-. apply fits_goods; [exact H|discriminate|].
  apply Forall_forall. intros y I. destruct I as [<-|I]; [split; [constructor|reflexivity]|]. apply in_map_iff in I as (? & <- & _). split; [constructor|reflexivity].
Qed.
Lemma list_goods {A} (f : A -> result json) l v (Q : json -> Prop) : (forall a j, In a l -> f a = Ok j -> Q j) -> convert_list f l = Ok (Some v) ->
  exists js, v = JArr js /\ js <> [] /\ Forall Q js.
Proof.
  intros H E. apply convert_list_inv in E as (js & E & F). assert (G : Forall Q js).
  { revert H. clear -F. induction F as [|a x l js E _ IH]; intro H; constructor; [eapply H; [left; reflexivity|exact E]|apply IH; intros; eapply H; [right|]; eassumption]. }
  destruct js as [|j js]; [discriminate|]. cbn in E. injection E as ->. exists (j :: js). split; [reflexivity|]. split; [discriminate|exact G].
Qed.
Lemma fits_list {A} (f : A -> result json) k l v : str_in k LIST_LIKE_FIELDS = true -> (forall a j, f a = Ok j -> good j) -> convert_list f l = Ok (Some v) -> fits k v.
Proof. intros H G E. apply (list_goods _ _ _ good) in E as (js & -> & N & F); [apply fits_goods; assumption|]. intros a j _. apply G. Qed.
Lemma fits_opt {A} (f : A -> result json) k o v : str_in k LIST_LIKE_FIELDS = false -> (forall a j, f a = Ok j -> good j) -> convert_opt f o = Ok (Some v) -> fits k v.
Proof.
  intros H G E. apply fits_good; [exact H|]. destruct o as [x|]; cbn in E; [|discriminate]. destruct (f x) eqn:Ex; [|discriminate]. cbn in E. injection E as <-. eauto.
Qed.
Ltac fit_prop :=
  intros v E; cbn [fst snd] in *; unfold the_str, opt_str, opt_date in E;
  repeat match type of E with
  | context [match ?x with Some _ => _ | None => _ end] => destruct x; cbn [option_map] in E
  | bind ?r _ = _ => destruct r eqn:?; cbn [bind] in E
  end; try discriminate;
  first [ injection E as <-; apply fits_str; vm_compute; reflexivity
        | injection E as E; eapply fits_strs; [vm_compute; reflexivity|exact E]
        | eapply fits_list; [vm_compute; reflexivity| |exact E]; eauto
        | eapply fits_opt; [vm_compute; reflexivity| |exact E]; eauto
        | injection E as <-; apply fits_good; [vm_compute; reflexivity|eauto] ].
Ltac fit_props H := eapply good_convert; [exact H|]; repeat (apply Forall_cons; [fit_prop|]); apply Forall_nil.
Lemma good_annotation a j : convert_annotation a = Ok j -> good j.
Proof. intro H. rewrite convert_annotation_eq in H. unfold annotation_props in H. fit_props H. Qed.
Lemma good_checksum a j : convert_checksum a = Ok j -> good j.
Proof. intro H. rewrite convert_checksum_eq in H. unfold checksum_props in H. fit_props H. Qed.
Lemma good_extracted a j : convert_extracted a = Ok j -> good j.
Proof. intro H. rewrite convert_extracted_eq in H. unfold extracted_props in H. fit_props H. Qed.
Lemma good_creation_info a j : convert_creation_info a = Ok j -> good j.
Proof. intro H. rewrite convert_creation_info_eq in H. unfold creation_info_props in H. fit_props H. Qed.
Lemma good_external_package_ref a j : convert_external_package_ref a = Ok j -> good j.
Proof. intro H. rewrite convert_external_package_ref_eq in H. unfold external_package_ref_props in H. fit_props H. Qed.
Lemma good_verif_code a j : convert_verif_code a = Ok j -> good j.
Proof. intro H. rewrite convert_verif_code_eq in H. unfold verif_code_props in H. fit_props H. Qed.
Lemma good_relationship a j : convert_relationship a = Ok j -> good j.
Proof. intro H. rewrite convert_relationship_eq in H. unfold relationship_props in H. fit_props H. Qed.
Local Hint Resolve good_annotation good_checksum good_extracted good_creation_info good_external_package_ref good_verif_code good_relationship : core.
Lemma good_external_document_ref a j : convert_external_document_ref a = Ok j -> good j.
Proof. intro H. rewrite convert_external_document_ref_eq in H. unfold external_document_ref_props in H. fit_props H. Qed.
Local Hint Resolve good_external_document_ref : core.
Lemma good_file O d a j : convert_file O d a = Ok j -> good j.
Proof. intro H. rewrite convert_file_eq in H. unfold file_props in H. fit_props H. Qed.
Local Hint Resolve good_file : core.

(** ** Reading the texts *)
Lemma assoc_texts k kvs : assoc k (map (fun kv => (fst kv, texts (snd kv))) kvs) = option_map texts (assoc k kvs).
Proof. induction kvs as [|[k' v] l IH]; [reflexivity|]. cbn. destruct (str_eqb k k'); [reflexivity|exact IH]. Qed.
Lemma get_texts k dflt kvs : texts dflt = dflt -> (forall v, In (k, v) kvs -> texts v = v) -> jget_default k dflt (texts (JObj kvs)) = jget_default k dflt (JObj kvs).
Proof.
  intros D H. unfold jget_default. cbn [texts]. rewrite assoc_texts. destruct (assoc k kvs) as [v|] eqn:E; cbn [option_map]; [|reflexivity]. f_equal. apply H.
  apply assoc_In. exact E.
Qed.
Lemma jget_texts k kvs : (forall v, In (k, v) kvs -> texts v = v) -> jget k (texts (JObj kvs)) = jget k (JObj kvs).
Proof. apply get_texts. reflexivity. Qed.

Definition package_slot (k : pystr) (v : json) : Prop :=
  Slot (str_in k LIST_LIKE_FIELDS) v /\ (k <> $"filesAnalyzed" -> texts v = v) /\ (k = $"filesAnalyzed" -> exists b, v = JBool b).
Definition package_form (j : json) : Prop := exists kvs, j = JObj kvs /\ forall k v, In (k, v) kvs -> package_slot k v.
Ltac differs := let H := fresh in intro H; vm_compute in H; discriminate H.
Lemma package_formed O d p j : convert_package O d p = Ok j -> package_form j.
Proof.
  intro H. rewrite convert_package_eq in H. unfold package_props in H. eapply convert_all; [exact H|].
  repeat (apply Forall_cons; [first
    [ intros v E; cbn [fst snd] in *; injection E as <-; split; [constructor; constructor|split; [intro N; exfalso; apply N; vm_compute; reflexivity|intros _; eexists; reflexivity]]
    | match goal with |- forall v, snd ?p = _ -> package_slot ?k _ => 
        assert (Q : forall v, snd p = Ok (Some v) -> fits k v) by fit_prop;
        let v := fresh in let E := fresh in intros v E; destruct (Q v E) as [Q1 Q2]; split; [exact Q1|split; [intros _; exact Q2|differs]] end ]|]).
  apply Forall_nil.
Qed.
Definition snippet_slot (s : snippet) (k : pystr) (v : json) : Prop :=
  Slot (str_in k LIST_LIKE_FIELDS) v /\ (k <> $"ranges" -> texts v = v) /\ (k = $"ranges" -> v = convert_ranges s).
Definition snippet_form (s : snippet) (j : json) : Prop := exists kvs, j = JObj kvs /\ (forall k v, In (k, v) kvs -> snippet_slot s k v) /\ assoc $"ranges" kvs = Some (convert_ranges s).
Lemma ranges_slot s : Slot (str_in (json_property_name_id $"RANGES") LIST_LIKE_FIELDS) (convert_ranges s).
Proof.
  assert (P : forall z q, q = $"offset" \/ q = $"lineNumber" -> Shaped (pointer (sn_file s) z q)).
  { intros z q Q. constructor. intros k v [E|[E|[]]]; injection E as <- <-.
    - replace (str_in $"reference" LIST_LIKE_FIELDS) with false by (vm_compute; reflexivity). constructor. constructor.
    - destruct Q as [-> | ->]; [replace (str_in $"offset" LIST_LIKE_FIELDS) with false by (vm_compute; reflexivity)|replace (str_in $"lineNumber" LIST_LIKE_FIELDS) with false by (vm_compute; reflexivity)]; constructor; constructor. }
  assert (R : forall r q, q = $"offset" \/ q = $"lineNumber" -> Shaped (convert_range_to_dict r (sn_file s) q)).
  { intros r q Q. constructor. intros k v [E|[E|[]]]; injection E as <- <-;
      [replace (str_in $"startPointer" LIST_LIKE_FIELDS) with false by (vm_compute; reflexivity)|replace (str_in $"endPointer" LIST_LIKE_FIELDS) with false by (vm_compute; reflexivity)];
      constructor; apply P; exact Q. }
  replace (str_in (json_property_name_id $"RANGES") LIST_LIKE_FIELDS) with true by (vm_compute; reflexivity).
  constructor; [discriminate|]. intros x [<-|I]; [apply R; auto|]. destruct (sn_lines s) as [r|]; [|destruct I]. destruct I as [<-|[]]. apply R. auto.
Qed.
Lemma snippet_formed O d s j : convert_snippet O d s = Ok j -> snippet_form s j.
Proof.
  intro H. rewrite convert_snippet_eq in H.
  destruct (convert_value _ _ _ $"RANGES" $"ranges" (Ok (Some (convert_ranges s))) H) as (kvs & o & -> & E1 & E2); [lazy; reflexivity|row|vm_compute; reflexivity|].
  exists kvs. split; [reflexivity|]. split; [|rewrite E2; injection E1 as <-; reflexivity]. clear E1 E2.
  unfold snippet_props in H. apply (convert_all (snippet_slot s)) in H as (kvs' & E & G); [injection E as <-; exact G|].
  repeat (apply Forall_cons; [first
    [ intros v E; cbn [fst snd] in *; injection E as <-; split; [apply ranges_slot|split; [intro N; exfalso; apply N; vm_compute; reflexivity|intros _; reflexivity]]
    | match goal with |- forall v, snd ?p = _ -> snippet_slot _ ?k _ => 
        assert (Q : forall v, snd p = Ok (Some v) -> fits k v) by fit_prop;
        let v := fresh in let E := fresh in intros v E; destruct (Q v E) as [Q1 Q2]; split; [exact Q1|split; [intros _; exact Q2|differs]] end ]|]).
  apply Forall_nil.
Qed.

Lemma bind_congr {A B} (r r' : result A) (f f' : A -> result B) : r = r' -> (forall a, f a = f' a) -> bind r f = bind r' f'.
Proof. intros <- H. destruct r; cbn; auto. Qed.
Lemma bind_two {A B} (r r' : result A) (f f' : A -> result B) a a' : r = Ok a -> r' = Ok a' -> f a = f' a' -> bind r f = bind r' f'.
Proof. intros -> -> H. exact H. Qed.

Lemma package_get k dflt kvs : (forall k v, In (k, v) kvs -> package_slot k v) -> texts dflt = dflt -> k <> $"filesAnalyzed" ->
  jget_default k dflt (texts (JObj kvs)) = jget_default k dflt (JObj kvs).
Proof. intros H D N. apply get_texts; [exact D|]. intros v I. apply (H k v I). exact N. Qed.
Lemma package_texts O j : package_form j -> parse_package O (texts j) = parse_package O j.
Proof.
  intros (kvs & -> & H). assert (F : exists v' v, jget_default $"filesAnalyzed" JNull (texts (JObj kvs)) = Ok v' /\ jget_default $"filesAnalyzed" JNull (JObj kvs) = Ok v
    /\ files_analyzed_value v' = files_analyzed_value v).
  { cbn [texts jget_default]. rewrite assoc_texts. destruct (assoc $"filesAnalyzed" kvs) as [v|] eqn:E; cbn [option_map]; [|do 2 eexists; repeat split].
    apply assoc_In in E. destruct (H _ _ E) as (_ & _ & [b ->]); [reflexivity|]. do 2 eexists. split; [reflexivity|]. split; [reflexivity|]. destruct b; vm_compute; reflexivity. }
  destruct F as (v' & v & F1 & F2 & F3). unfold parse_package. apply f_equal with (f := fun r => match r with Ok r => r | Raise e => ([], Raise e) end).
  unfold parse_package_raw, jget.
  repeat first [ match goal with |- bind ?r _ = _ => match type of F1 with r = _ => apply (bind_two _ _ _ _ _ _ F1 F2) end end
               | apply bind_congr; [first [reflexivity | apply package_get; [exact H|reflexivity|differs]]|let x := fresh "x" in intro x; match type of x with prod _ _ => destruct x | _ => idtac end] ].
  rewrite F3. reflexivity.
Qed.
Lemma bound_text z : (0 <= z)%Z -> convert_bound (JStr (str_of_Z z)) = Ok (JInt z).
Proof.
  intro H. rewrite (TvSpecialFacts.str_of_Z_nonneg z H). unfold convert_bound. rewrite (JsonRead2.dec_isdigit _ _ (dec_val_str_of_N _)), dec_val_str_of_N. rewrite Z2N.id by exact H. reflexivity.
Qed.
Definition text_range (r : Z * Z) : json * json := (JStr (str_of_Z (fst r)), JStr (str_of_Z (snd r))).
Definition int_range (r : Z * Z) : json * json := (JInt (fst r), JInt (snd r)).
Lemma ranges_texts s : parse_field (texts (convert_ranges s)) parse_ranges = Ok ([], Some {| rg_byte := Some (text_range (sn_bytes s)); rg_line := option_map text_range (sn_lines s) |}).
Proof. unfold convert_ranges. destruct (sn_lines s); lazy; reflexivity. Qed.
Lemma ranges_ints s : parse_field (convert_ranges s) parse_ranges = Ok ([], Some {| rg_byte := Some (int_range (sn_bytes s)); rg_line := option_map int_range (sn_lines s) |}).
Proof. unfold convert_ranges. destruct (sn_lines s); lazy; reflexivity. Qed.
Lemma snippet_get s k dflt kvs : (forall k v, In (k, v) kvs -> snippet_slot s k v) -> texts dflt = dflt -> k <> $"ranges" ->
  jget_default k dflt (texts (JObj kvs)) = jget_default k dflt (JObj kvs).
Proof. intros H D N. apply get_texts; [exact D|]. intros v I. apply (H k v I). exact N. Qed.
Definition natural (r : Z * Z) : Prop := (0 <= fst r /\ 0 <= snd r)%Z.
Lemma range_text r : natural r -> convert_range_from_str (Some (text_range r)) = convert_range_from_str (Some (int_range r)).
Proof. intros [A B]. unfold text_range, int_range. cbn [convert_range_from_str]. rewrite !bound_text by assumption. reflexivity. Qed.
Lemma snippet_texts O s j : snippet_form s j -> natural (sn_bytes s) -> IfSome natural (sn_lines s) -> parse_snippet O (texts j) = parse_snippet O j.
Proof.
  intros (kvs & -> & H & R) N1 N2.
  assert (F1 : jget_default $"ranges" (JArr []) (texts (JObj kvs)) = Ok (texts (convert_ranges s))) by (cbn [texts jget_default]; rewrite assoc_texts, R; reflexivity).
  assert (F2 : jget_default $"ranges" (JArr []) (JObj kvs) = Ok (convert_ranges s)) by (cbn [jget_default]; rewrite R; reflexivity).
  assert (F5 : convert_range_from_str (option_map text_range (sn_lines s)) = convert_range_from_str (option_map int_range (sn_lines s)))
    by (destruct (sn_lines s); [apply range_text; exact N2|reflexivity]).
  unfold parse_snippet, jget.
  repeat first [ match goal with |- bind ?r _ = _ => match type of F1 with r = _ => apply (bind_two _ _ _ _ _ _ F1 F2) end end
               | match goal with |- bind (parse_field _ parse_ranges) _ = _ => apply (bind_two _ _ _ _ _ _ (ranges_texts s) (ranges_ints s)) end; cbn [rg_byte rg_line]
               | apply bind_congr; [first [reflexivity | exact (range_text _ N1) | exact F5 | apply (snippet_get s); [exact H|reflexivity|differs]]|let x := fresh "x" in intro x; match type of x with prod _ _ => destruct x | _ => idtac end] ].
  reflexivity.
Qed.

(** ** Documents *)
Definition document_slot (O : oracles) (d : document) (k : pystr) (v : json) : Prop :=
  Slot (str_in k LIST_LIKE_FIELDS) v
  /\ (k <> $"packages" -> k <> $"snippets" -> texts v = v)
  /\ (k = $"packages" -> exists js, v = JArr js /\ Forall package_form js)
  /\ (k = $"snippets" -> exists js, v = JArr js /\ Forall (fun j => exists s, In s (do_snippets d) /\ snippet_form s j) js).
Lemma package_shaped j : package_form j -> Shaped j.
Proof. intros (kvs & -> & H). constructor. intros k v I. apply (H k v I). Qed.
Lemma snippet_shaped s j : snippet_form s j -> Shaped j.
Proof. intros (kvs & -> & H & _). constructor. intros k v I. apply (H k v I). Qed.
Lemma slot_goods k js : str_in k LIST_LIKE_FIELDS = true -> js <> [] -> Forall Shaped js -> Slot (str_in k LIST_LIKE_FIELDS) (JArr js).
Proof. intros -> N F. constructor; [exact N|]. rewrite Forall_forall in F. exact F. Qed.
Lemma document_formed O d j : convert_document O d = Ok j -> exists kvs, j = JObj kvs /\ forall k v, In (k, v) kvs -> document_slot O d k v.
Proof.
  intro H. rewrite convert_document_eq in H. unfold document_props in H. eapply convert_all; [exact H|].
  repeat (apply Forall_cons; [first
    [ match goal with |- forall v, snd ($"PACKAGES", _) = _ -> _ => idtac end;
      intros v E; cbn [fst snd] in *; apply (list_goods _ _ _ package_form) in E as (js & -> & N & F); [|intros a x _ K; eapply package_formed; exact K];
      split; [apply slot_goods; [vm_compute; reflexivity|exact N|eapply Forall_impl; [|exact F]; apply package_shaped]|];
      split; [intros K; exfalso; apply K; vm_compute; reflexivity|split; [intros _; eauto|differs]]
    | match goal with |- forall v, snd ($"SNIPPETS", _) = _ -> _ => idtac end;
      intros v E; cbn [fst snd] in *;
      apply (list_goods _ _ _ (fun j => exists s, In s (do_snippets d) /\ snippet_form s j)) in E as (js & -> & N & F); [|intros a x I K; exists a; split; [exact I|eapply snippet_formed; exact K]];
      split; [apply slot_goods; [vm_compute; reflexivity|exact N|eapply Forall_impl; [|exact F]; intros ? (? & _ & K); eapply snippet_shaped; exact K]|];
      split; [intros _ K; exfalso; apply K; vm_compute; reflexivity|split; [differs|intros _; eauto]]
    | match goal with |- forall v, snd ?p = _ -> document_slot _ _ ?k _ => 
        assert (Q : forall v, snd p = Ok (Some v) -> fits k v) by fit_prop;
        let v := fresh in let E := fresh in intros v E; destruct (Q v E) as [Q1 Q2]; split; [exact Q1|split; [intros _ _; exact Q2|split; differs]] end ]|]).
  apply Forall_nil.
Qed.
Section Texts.
Variable O : oracles.
Variable d : document.
Variable kvs : list (pystr * json).
Hypothesis slots : forall k v, In (k, v) kvs -> document_slot O d k v.
Hypothesis ranges_ok : forall s, In s (do_snippets d) -> natural (sn_bytes s) /\ IfSome natural (sn_lines s).
Let j := JObj kvs.
Lemma document_get k dflt : texts dflt = dflt -> k <> $"packages" -> k <> $"snippets" -> jget_default k dflt (texts j) = jget_default k dflt j.
Proof. intros D N1 N2. apply get_texts; [exact D|]. intros v I. apply (slots k v I); assumption. Qed.
(** the packages (the snippets), as read with a default *)
Definition packages_of (dflt : json) : json := match assoc $"packages" kvs with Some v => v | None => dflt end.
Definition snippets_of (dflt : json) : json := match assoc $"snippets" kvs with Some v => v | None => dflt end.
Lemma packages_get dflt : texts dflt = dflt -> jget_default $"packages" dflt (texts j) = Ok (texts (packages_of dflt)) /\ jget_default $"packages" dflt j = Ok (packages_of dflt).
Proof. intro D. unfold j, packages_of. cbn [texts jget_default]. rewrite assoc_texts. destruct (assoc $"packages" kvs); cbn [option_map]; [|rewrite D]; auto. Qed.
Lemma snippets_get dflt : texts dflt = dflt -> jget_default $"snippets" dflt (texts j) = Ok (texts (snippets_of dflt)) /\ jget_default $"snippets" dflt j = Ok (snippets_of dflt).
Proof. intro D. unfold j, snippets_of. cbn [texts jget_default]. rewrite assoc_texts. destruct (assoc $"snippets" kvs); cbn [option_map]; [|rewrite D]; auto. Qed.
Lemma packages_cases dflt : packages_of dflt = dflt \/ exists js, packages_of dflt = JArr js /\ Forall package_form js.
Proof.
  unfold packages_of. destruct (assoc $"packages" kvs) as [v|] eqn:E; [|auto]. right. apply assoc_In in E. destruct (slots _ _ E) as (_ & _ & K & _). apply K. reflexivity.
Qed.
Lemma snippets_cases dflt : snippets_of dflt = dflt \/ exists js, snippets_of dflt = JArr js /\ Forall (fun j => exists s, In s (do_snippets d) /\ snippet_form s j) js.
Proof.
  unfold snippets_of. destruct (assoc $"snippets" kvs) as [v|] eqn:E; [|auto]. right. apply assoc_In in E. destruct (slots _ _ E) as (_ & _ & _ & K). apply K. reflexivity.
Qed.
Lemma truthy_texts l : jtruthy (JArr (map texts l)) = jtruthy (JArr l).
Proof. destruct l; reflexivity. Qed.
Ltac steps := repeat (apply bind_congr; [first [reflexivity | apply document_get; [reflexivity|differs|differs]]|let x := fresh "x" in intro x; match type of x with prod _ _ => destruct x | _ => idtac end]).
Lemma creation_info_texts : parse_creation_info (texts j) = parse_creation_info j.
Proof.
  unfold parse_creation_info, jget. steps. destruct x3; [reflexivity|..]; steps; reflexivity.
Qed.
Lemma parse_elements_texts {A} (f : json -> list pystr * result A) l : Forall (fun x => f (texts x) = f x) l -> parse_elements f (map texts l) = parse_elements f l.
Proof. induction 1 as [|x l H _ IH]; [reflexivity|]. cbn [parse_elements map]. rewrite H, IH. reflexivity. Qed.
Lemma annotations_texts l : Forall (fun x => jget $"SPDXID" (texts x) = jget $"SPDXID" x /\ jget_default $"annotations" (JArr []) (texts x) = jget_default $"annotations" (JArr []) x) l ->
  annotations_loop (map texts l) = annotations_loop l.
Proof. induction 1 as [|x l [H1 H2] _ IH]; [reflexivity|]. cbn [annotations_loop map]. rewrite H1, H2, IH. reflexivity. Qed.
Lemma has_files_texts e l : Forall (fun x => jget $"SPDXID" (texts x) = jget $"SPDXID" x /\ jget_default $"hasFiles" (JArr []) (texts x) = jget_default $"hasFiles" (JArr []) x) l ->
  has_files_loop e (map texts l) = has_files_loop e l.
Proof. induction 1 as [|x l [H1 H2] _ IH]; [reflexivity|]. cbn [has_files_loop map]. rewrite H1, H2, IH. reflexivity. Qed.
Lemma package_annotations_texts : parse_annotations_from_object (texts (packages_of (JArr []))) = parse_annotations_from_object (packages_of (JArr [])).
Proof.
  destruct (packages_cases (JArr [])) as [-> |(js & -> & F)]; [reflexivity|]. unfold parse_annotations_from_object. cbn [texts jiter bind]. apply annotations_texts.
  eapply Forall_impl; [|exact F]. intros x (kv & -> & K). split; apply package_get; first [exact K|reflexivity|differs].
Qed.
Lemma snippet_annotations_texts : parse_annotations_from_object (texts (snippets_of (JArr []))) = parse_annotations_from_object (snippets_of (JArr [])).
Proof.
  destruct (snippets_cases (JArr [])) as [-> |(js & -> & F)]; [reflexivity|]. unfold parse_annotations_from_object. cbn [texts jiter bind]. apply annotations_texts.
  eapply Forall_impl; [|exact F]. intros x (s & _ & kv & -> & K & _). split; apply (snippet_get s); first [exact K|reflexivity|differs].
Qed.
Ltac lookups := match goal with
  | |- bind (jget_default $"packages" ?dflt (texts j)) _ = _ => apply (bind_two _ _ _ _ _ _ (proj1 (packages_get dflt eq_refl)) (proj2 (packages_get dflt eq_refl)))
  | |- bind (jget_default $"snippets" ?dflt (texts j)) _ = _ => apply (bind_two _ _ _ _ _ _ (proj1 (snippets_get dflt eq_refl)) (proj2 (snippets_get dflt eq_refl)))
  end.
Lemma all_annotations_texts : parse_all_annotations (texts j) = parse_all_annotations j.
Proof.
  unfold parse_all_annotations. apply bind_congr.
  { apply (annotations_texts [j]). constructor; [|constructor]. split; apply document_get; first [reflexivity|differs]. }
  intros [l1 a1]. unfold jget.
  repeat first [ lookups
               | apply bind_congr; [first [reflexivity | exact package_annotations_texts | exact snippet_annotations_texts | apply document_get; [reflexivity|differs|differs]]
                                   |let x := fresh "x" in intro x; match type of x with prod _ _ => destruct x | _ => idtac end] ].
  reflexivity.
Qed.
Lemma has_files_field e : parse_field (texts (packages_of (JArr []))) (parse_has_files e) = parse_field (packages_of (JArr [])) (parse_has_files e).
Proof.
  destruct (packages_cases (JArr [])) as [-> |(js & -> & F)]; [reflexivity|]. unfold parse_field. cbn [texts]. rewrite truthy_texts. destruct (negb (jtruthy (JArr js))); [reflexivity|].
  unfold parse_has_files. cbn [jiter bind]. rewrite has_files_texts; [reflexivity|].
  eapply Forall_impl; [|exact F]. intros x (kv & -> & K). split; apply package_get; first [exact K|reflexivity|differs].
Qed.
Lemma all_relationships_texts : parse_all_relationships (texts j) = parse_all_relationships j.
Proof.
  unfold parse_all_relationships, jget.
  repeat first [ lookups
               | apply bind_congr; [first [reflexivity | apply has_files_field | apply document_get; [reflexivity|differs|differs]]
                                   |let x := fresh "x" in intro x; match type of x with prod _ _ => destruct x | _ => idtac end] ].
  reflexivity.
Qed.
Lemma packages_texts : top_field true (texts (packages_of JNull)) (parse_list_of_elements_log (parse_package O)) = top_field true (packages_of JNull) (parse_list_of_elements_log (parse_package O)).
Proof.
  destruct (packages_cases JNull) as [-> |(js & -> & F)]; [reflexivity|]. unfold top_field. cbn [texts]. rewrite truthy_texts. destruct (true && negb (jtruthy (JArr js))); [reflexivity|].
  unfold parse_list_of_elements_log. cbn [jiter bind]. rewrite parse_elements_texts; [reflexivity|]. eapply Forall_impl; [|exact F]. intros x K. apply package_texts. exact K.
Qed.
Lemma snippets_texts : top_field true (texts (snippets_of JNull)) (parse_list_of_elements (parse_snippet O)) = top_field true (snippets_of JNull) (parse_list_of_elements (parse_snippet O)).
Proof.
  destruct (snippets_cases JNull) as [-> |(js & -> & F)]; [reflexivity|]. unfold top_field. cbn [texts]. rewrite truthy_texts. destruct (true && negb (jtruthy (JArr js))); [reflexivity|].
  unfold parse_list_of_elements, parse_list_of_elements_log. cbn [jiter bind]. rewrite parse_elements_texts; [reflexivity|]. eapply Forall_impl; [|exact F]. intros x (s & I & K).
  destruct (ranges_ok s I). unfold quiet. rewrite (snippet_texts O s) by assumption. reflexivity.
Qed.
Lemma top_texts {A} b (f : json -> result A) : f (texts j) = f j -> top_field b (texts j) f = top_field b j f.
Proof. intro H. unfold top_field. rewrite H. replace (jtruthy (texts j)) with (jtruthy j); [reflexivity|]. unfold j. cbn. destruct kvs; reflexivity. Qed.
Theorem parse_texts : parse_dict O (texts j) = parse_dict O j.
Proof.
  unfold parse_dict, jget.
  repeat first [ lookups
               | apply bind_congr; [first [reflexivity | exact packages_texts | exact snippets_texts | apply top_texts, creation_info_texts | apply top_texts, all_annotations_texts
                                          | apply top_texts, all_relationships_texts | apply document_get; [reflexivity|differs|differs]]
                                   |let x := fresh "x" in intro x; match type of x with prod _ _ => destruct x | _ => idtac end] ].
  reflexivity.
Qed.
End Texts.

Theorem xml_round_trip O d : XmlDocument O d ->
  exists j, convert_document O d = Ok j
    /\ forall v, XmlImage (JObj [($"Document", j)]) v ->
       exists anns, parse_xml O v = Ok (with_annotations d anns) /\ SameAnnotations (do_annotations d) anns.
Proof.
  intros [HJ HT HO HR]. destruct (json_round_trip O d HJ) as (j & anns & Ej & Ep & HA). exists j. split; [exact Ej|]. intros v HX. exists anns. split; [|exact HA].
  destruct (document_formed O d j Ej) as (kvs & -> & slots).
  assert (Sh : Shaped (JObj kvs)) by (constructor; intros k x I; apply (slots k x I)).
  assert (Fu : full (JObj kvs)) by (split; [intros s; apply HT; exact Ej|apply HO; exact Ej]).
  destruct (image_texts _ _ HX) as (E1 & _ & _).
  { constructor. intros k x [E|[]]. injection E as <- <-. replace (str_in $"Document" LIST_LIKE_FIELDS) with false by (vm_compute; reflexivity). constructor. exact Sh. }
  { split.
    - intros s W. inversion W as [|?|? k x I W']; subst. destruct I as [E|[]]. injection E as <- <-. apply Fu. exact W'.
    - intro W. inversion W as [|?|? k x I W']; subst. destruct I as [E|[]]. injection E as <- <-. apply Fu. exact W'. }
  unfold parse_xml. rewrite E1. cbn [texts map fst snd jget jget_default assoc]. rewrite str_eqb_refl. cbn [bind].
  change (JObj (map (fun kv => (fst kv, texts (snd kv))) kvs)) with (texts (JObj kvs)).
  replace (jtruthy (texts (JObj kvs))) with true.
  - cbn [negb]. rewrite (parse_texts O d kvs slots); [exact Ep|]. intros s I. rewrite Forall_forall in HR. destruct (HR s I) as (A & B & C). split; [split; assumption|].
    exact C.
  - destruct kvs; [|reflexivity]. destruct (proj2 Fu (W_here _)).
Qed.

(** ** What the converters produce has an image *)
Fixpoint image (j : json) : json :=
  match j with
  | JNull | JFloat _ | JArr _ => JNull
  | JBool b => JStr (if b then $"true" else $"false")
  | JInt z => JStr (str_of_Z z)
  | JStr s => match strip s with [] => JNull | t => JStr t end
  | JObj kvs =>
      match flat_map (fun kv => match snd kv with
                                | JArr l => match map image l with [] => [] | [x] => [(fst kv, x)] | l' => [(fst kv, JArr l')] end
                                | _ => [(fst kv, image (snd kv))]
                                end) kvs with
      | [] => JNull
      | m => JObj m
      end
  end.
Lemma image_both j : (Shaped j -> XmlImage j (image j)) /\ match j with JArr l => (forall x, In x l -> Shaped x) -> XmlItems l (map image l) | _ => True end.
Proof.
  induction j as [|b|z|r|s|l IH|kvs IH] using LoadingFacts.json_rect'; (split; [|exact I]) || split.
  - intro H. inversion H.
  - intros _. destruct b; constructor.
  - intros _. constructor.
  - intro H. inversion H.
  - intros _. cbn [image]. destruct (strip s) as [|c t] eqn:E; [apply X_blank; exact E|rewrite <- E; apply X_text; rewrite E; discriminate].
  - intro H. inversion H.
  - intro H. induction IH as [|x l [A _] _ IHl]; cbn [map]; constructor; [apply A; apply H; left; reflexivity|]. apply IHl. intros y I. apply H. right. exact I.
  - intro H. inversion H as [| | |? K]; subst. cbn [image].
    match goal with |- XmlImage _ match ?m with _ => _ end => assert (M : XmlMembers kvs m) end.
    { clear H. induction IH as [|[k v] l [A B] _ IHl]; [constructor|]. assert (R := IHl ltac:(intros k0 v0 I; apply (K k0 v0); right; exact I)).
      cbn [flat_map snd fst] in *. destruct (slot_inv _ _ (K k v (or_introl eq_refl))) as [(m & -> & _ & N & G)|(_ & G)].
      - destruct m as [|x [|y m]]; [congruence| |]; specialize (B G).
        + cbn [map app]. inversion B; subst. apply XM_one; assumption.
        + cbn [map app]. apply XM_many; [cbn; lia|exact B|exact R].
      - destruct v; try (apply XM_value; [exact (A G)|exact R]). inversion G. }
    match goal with |- XmlImage _ match ?m with _ => _ end => destruct m end; [apply X_empty; exact M|apply X_object; [exact M|discriminate]].
Qed.
Theorem image_of O d j : convert_document O d = Ok j -> XmlImage (JObj [($"Document", j)]) (image (JObj [($"Document", j)])).
Proof.
  intro H. destruct (document_formed O d j H) as (kvs & -> & slots). apply image_both. constructor. intros k x [E|[]]. injection E as <- <-.
  replace (str_in $"Document" LIST_LIKE_FIELDS) with false by (vm_compute; reflexivity). constructor. constructor. intros k y I. apply (slots k y I).
Qed.
Definition trimmedb (s : pystr) : bool :=
  match s with [] => false | c :: _ => negb (is_space c) end && match rev s with [] => false | c :: _ => negb (is_space c) end.
Lemma trimmedb_spec s : trimmedb s = true -> s <> [] /\ Trimmed s.
Proof.
  unfold trimmedb. intro H. apply andb_prop in H as [A B]. split; [destruct s; congruence|]. split.
  - intros c t ->. apply negb_true_iff. exact A.
  - intros c t ->. rewrite rev_app_distr in B. cbn in B. apply negb_true_iff. exact B.
Qed.
Fixpoint fullb (j : json) : bool :=
  match j with
  | JStr s => trimmedb s
  | JArr l => forallb fullb l
  | JObj kvs => truthy_list kvs && forallb (fun kv => fullb (snd kv)) kvs
  | _ => true
  end.
Lemma fullb_spec j : fullb j = true -> full j.
Proof.
  intro H. split.
  - intros s W. revert H. induction W as [|l x I _ IH|kvs k x I _ IH]; cbn [fullb]; intro H; [apply trimmedb_spec; exact H| |].
    + rewrite forallb_forall in H. apply IH. apply H. exact I.
    + apply andb_prop in H as [_ H]. rewrite forallb_forall in H. apply IH. exact (H (k, x) I).
  - intro W. revert H. induction W as [|l x I _ IH|kvs k x I _ IH]; cbn [fullb]; intro H; [discriminate| |].
    + rewrite forallb_forall in H. apply IH. apply H. exact I.
    + apply andb_prop in H as [_ H]. rewrite forallb_forall in H. apply IH. exact (H (k, x) I).
Qed.
