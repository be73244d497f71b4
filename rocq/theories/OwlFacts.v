(** Proofs for C69. *)
From Verif Require Import Py PyFacts Json Owl OwlSpec.

(** ** Names *)
Definition last_name (id : pystr) : pystr := last (split_on (ch ":") id) [].
Lemma split_name id : exists l t, split_on (ch ":") id = l ++ [t].
Proof. destruct (exists_last (split_on_nonempty (ch ":") id)) as (l & t & E). exists l, t. exact E. Qed.
Lemma join_last l t : l <> [] -> join [ch ":"] (l ++ [t]) = join [ch ":"] l ++ $":" ++ t.
Proof.
  induction l as [|a [|b l] IH]; intro H; [contradiction|reflexivity|].
  change (join [ch ":"] ((a :: b :: l) ++ [t])) with (a ++ [ch ":"] ++ join [ch ":"] ((b :: l) ++ [t])). rewrite IH by discriminate.
  change (join [ch ":"] (a :: b :: l)) with (a ++ [ch ":"] ++ join [ch ":"] (b :: l)). rewrite <- !app_assoc. reflexivity.
Qed.
Lemma split_last p t : ~ In (ch ":") t -> last (split_on (ch ":") (p ++ $":" ++ t)) [] = t.
Proof.
  intro H. destruct (split_name p) as (l & x & E).
  assert (J : p ++ $":" ++ t = join [ch ":"] (split_on (ch ":") p ++ [t])).
  { rewrite join_last by apply split_on_nonempty. rewrite join_split. reflexivity. }
  rewrite J, split_join.
  - apply last_last.
  - intro X. apply app_eq_nil in X as [_ X]. discriminate.
  - apply Forall_app. split; [apply split_on_parts|constructor; auto].
Qed.
Lemma named_is t id : Named t id <-> last_name id = t.
Proof.
  unfold Named, last_name. split.
  - intros [N [ -> |[p ->]]]; [rewrite (split_on_nochar _ _ N); reflexivity|apply split_last; exact N].
  - intro E. destruct (split_name id) as (l & x & S). rewrite S, last_last in E. subst x.
    assert (P := split_on_parts (ch ":") id). rewrite S in P. apply Forall_app in P as [_ P]. inversion P as [|? ? N _]; subst. split; [exact N|].
    assert (J := join_split (ch ":") id). rewrite S in J. destruct l as [|a l]; [left; symmetry; exact J|]. right.
    exists (join [ch ":"] (a :: l)). rewrite <- J at 1. apply join_last. discriminate.
Qed.

(** ** Nodes *)
Inductive view :=
| VIgn | VRep (ty : json) | VClass (t id : pystr) | VProp (kind t id : pystr) (range : json) | VBad.
Definition look_class (kvs : list (pystr * json)) : view :=
  match assoc $"@id" kvs with Some (JStr id) => VClass (last_name id) id | _ => VBad end.
Definition look_property (kind : pystr) (kvs : list (pystr * json)) : view :=
  match assoc $"@id" kvs, assoc $"rdfs:range" kvs with
  | Some (JStr id), Some (JObj r) => match assoc $"@id" r with Some range => VProp kind (last_name id) id range | None => VBad end
  | _, _ => VBad
  end.
Definition look_type (kvs : list (pystr * json)) (ty : json) : view :=
  if negb (jtruthy ty) then VIgn else
  match jin $"owl:NamedIndividual" ty with
  | Raise _ => VBad
  | Ok true => VIgn
  | Ok false =>
      match ty with
      | JStr s => if str_in s [$"owl:DatatypeProperty"; $"owl:ObjectProperty"] then look_property s kvs
                  else if str_eqb s $"owl:Class" then look_class kvs else VRep ty
      | JArr _ => look_class kvs
      | _ => VRep ty
      end
  end.
Definition look (n : json) : view :=
  match n with
  | JObj kvs => match assoc $"@type" kvs with None => VIgn | Some ty => look_type kvs ty end
  | _ => VBad
  end.

Lemma look_class_view kvs : match look_class kvs with VClass t id => assoc $"@id" kvs = Some (JStr id) /\ Named t id | VBad => True | _ => False end.
Proof. unfold look_class. destruct (assoc $"@id" kvs) as [[]|]; try exact Logic.I. split; [reflexivity|]. apply named_is. reflexivity. Qed.
Lemma look_class_is kvs t id : assoc $"@id" kvs = Some (JStr id) -> Named t id -> look_class kvs = VClass t id.
Proof. intros A N. unfold look_class. rewrite A. apply named_is in N. rewrite N. reflexivity. Qed.

Lemma arr_in s l : existsb (fun x => match x with JStr s' => str_eqb s' s | _ => false end) l = true <-> In (JStr s) l.
Proof.
  rewrite existsb_exists. split.
  - intros (x & I & E). destruct x; try discriminate. apply str_eqb_eq in E. subst. exact I.
  - intro I. exists (JStr s). split; [exact I|apply str_eqb_refl].
Qed.
Lemma obj_in {A} s (l : list (pystr * A)) : match assoc s l with Some _ => true | None => false end = true <-> In s (map fst l).
Proof.
  destruct (assoc s l) eqn:E; split; intro H; try reflexivity; try discriminate.
  - apply (in_map fst _ (s, a)). apply assoc_In. exact E.
  - apply assoc_None in E. contradiction.
Qed.

Lemma ignored_look n : Ignored n <-> look n = VIgn.
Proof.
  unfold Ignored, look. split.
  - intros (kvs & -> & H). destruct (assoc $"@type" kvs) as [ty|]; [|reflexivity]. unfold look_type.
    destruct ty as [|[]|[| |]|r|s|l|l]; try reflexivity; try (exfalso; exact H).
    + destruct H as [ -> | -> ]; reflexivity.
    + destruct s as [|c s]; [reflexivity|]. change (negb (jtruthy (JStr (c :: s)))) with false. cbn [jin].
      destruct (contains $"owl:NamedIndividual" (c :: s)) eqn:C; [reflexivity|]. apply contains_spec in H. congruence.
    + destruct l as [|c s]; [reflexivity|]. change (negb (jtruthy (JArr (c :: s)))) with false. cbn [jin].
      apply arr_in in H. rewrite H. reflexivity.
    + destruct l as [|c s]; [reflexivity|]. change (negb (jtruthy (JObj (c :: s)))) with false. cbn [jin].
      apply obj_in in H. rewrite H. reflexivity.
  - destruct n as [| | | | | |kvs]; try discriminate. destruct (assoc $"@type" kvs) as [ty|] eqn:A; [|intros _; exists kvs; rewrite A; auto].
    unfold look_type. intro H. exists kvs. split; [reflexivity|]. rewrite A.
    assert (LC : look_class kvs <> VIgn) by (unfold look_class; destruct (assoc $"@id" kvs) as [[]|]; discriminate).
    assert (LP : forall k, look_property k kvs <> VIgn).
    { intro k. unfold look_property. destruct (assoc $"@id" kvs) as [[]|], (assoc $"rdfs:range" kvs) as [[]|]; try discriminate. destruct (assoc $"@id" kvs0); discriminate. }
    destruct ty as [|[]|[| |]|r|s|l|l]; try exact Logic.I; try discriminate.
    + cbn [jtruthy] in H. destruct (str_in r [$"0.0"; $"-0.0"]) eqn:Z.
      * apply str_in_In in Z. destruct Z as [ <- |[ <- |[]]]; auto.
      * cbn [negb jin] in H. discriminate.
    + destruct s as [|c s]; [exact Logic.I|]. change (negb (jtruthy (JStr (c :: s)))) with false in H. cbn [jin] in H.
      destruct (contains $"owl:NamedIndividual" (c :: s)) eqn:C; [apply contains_spec; exact C|].
      destruct (str_in (c :: s) _); [exfalso; exact (LP _ H)|]. destruct (str_eqb (c :: s) _); [exfalso; exact (LC H)|discriminate].
    + destruct l as [|c s]; [exact Logic.I|]. change (negb (jtruthy (JArr (c :: s)))) with false in H. cbn [jin] in H.
      destruct (existsb _ (c :: s)) eqn:C; [apply arr_in; exact C|]. exfalso; exact (LC H).
    + destruct l as [|c s]; [exact Logic.I|]. change (negb (jtruthy (JObj (c :: s)))) with false in H. cbn [jin] in H.
      destruct (match assoc $"owl:NamedIndividual" (c :: s) with Some _ => true | None => false end) eqn:C; [apply obj_in; exact C|discriminate].
Qed.

Lemma text_type kvs s : s <> [] -> ~ (exists a b, s = a ++ $"owl:NamedIndividual" ++ b) ->
  look_type kvs (JStr s) = if str_in s [$"owl:DatatypeProperty"; $"owl:ObjectProperty"] then look_property s kvs
                           else if str_eqb s $"owl:Class" then look_class kvs else VRep (JStr s).
Proof.
  intros N C. destruct s as [|c s]; [contradiction|]. unfold look_type. change (negb (jtruthy (JStr (c :: s)))) with false. cbn [jin].
  destruct (contains $"owl:NamedIndividual" (c :: s)) eqn:E; [|reflexivity]. apply contains_spec in E. contradiction.
Qed.
Lemma reported_look n ty : Reported n ty <-> look n = VRep ty.
Proof.
  split.
  - intros [kvs s -> A -> N T C|kvs l -> A -> N C]; unfold look; rewrite A.
    + rewrite text_type by assumption.
      destruct (str_in s [$"owl:DatatypeProperty"; $"owl:ObjectProperty"]) eqn:P.
      { exfalso. apply T. apply str_in_In in P. destruct P as [ <- |[ <- |[]]]; [left; reflexivity|right; left; reflexivity]. }
      destruct (str_eqb s $"owl:Class") eqn:P2; [|reflexivity]. exfalso. apply T. apply str_eqb_eq in P2. subst s. right. right. left. reflexivity.
    + unfold look_type. destruct l as [|c l]; [contradiction|]. change (negb (jtruthy (JObj (c :: l)))) with false. cbn [jin].
      destruct (match assoc $"owl:NamedIndividual" (c :: l) with Some _ => true | None => false end) eqn:E; [|reflexivity]. apply obj_in in E. contradiction.
  - unfold look. destruct n as [| | | | | |kvs]; try discriminate. destruct (assoc $"@type" kvs) as [ty'|] eqn:A; [|discriminate].
    assert (LC : look_class kvs <> VRep ty) by (unfold look_class; destruct (assoc $"@id" kvs) as [[]|]; discriminate).
    assert (LP : forall k, look_property k kvs <> VRep ty).
    { intro k. unfold look_property. destruct (assoc $"@id" kvs) as [[]|], (assoc $"rdfs:range" kvs) as [[]|]; try discriminate. destruct (assoc $"@id" kvs0); discriminate. }
    intro H. destruct ty' as [|[]|[| |]|r|s|l|l]; try discriminate.
    + exfalso. unfold look_type in H. destruct (negb (jtruthy (JFloat r))); [discriminate|]. cbn [jin] in H. discriminate.
    + destruct s as [|c s]; [discriminate|]. unfold look_type in H. change (negb (jtruthy (JStr (c :: s)))) with false in H. cbn [jin] in H.
      destruct (contains $"owl:NamedIndividual" (c :: s)) eqn:C; [discriminate|].
      destruct (str_in (c :: s) _) eqn:P; [exfalso; exact (LP _ H)|]. destruct (str_eqb (c :: s) _) eqn:P2; [exfalso; exact (LC H)|].
      assert (E : ty = JStr (c :: s)) by congruence. apply (rp_text _ _ kvs (c :: s)); [reflexivity|congruence|exact E|discriminate| |].
      * intro I. apply str_in_false in P. apply str_eqb_neq in P2. destruct I as [I|[I|[I|[]]]].
        -- apply P. left. exact I.
        -- apply P. right. left. exact I.
        -- apply P2. symmetry. exact I.
      * intro X. apply contains_spec in X. congruence.
    + destruct l as [|c s]; [discriminate|]. unfold look_type in H. change (negb (jtruthy (JArr (c :: s)))) with false in H. cbn [jin] in H.
      destruct (existsb _ (c :: s)) eqn:C; [discriminate|]. exfalso; exact (LC H).
    + destruct l as [|c s]; [discriminate|]. unfold look_type in H. change (negb (jtruthy (JObj (c :: s)))) with false in H. cbn [jin] in H.
      destruct (match assoc $"owl:NamedIndividual" (c :: s) with Some _ => true | None => false end) eqn:C; [discriminate|].
      assert (E : ty = JObj (c :: s)) by congruence. apply (rp_object _ _ kvs (c :: s)); [reflexivity|congruence|exact E|discriminate|].
      intro X. apply obj_in in X. congruence.
Qed.
Lemma class_look n t id : ClassNode n t id <-> look n = VClass t id.
Proof.
  split.
  - intros [kvs ty -> A [ -> |(l & -> & N & I)] B D]; unfold look; rewrite A.
    + apply look_class_is; assumption.
    + unfold look_type. destruct l as [|c l]; [contradiction|]. change (negb (jtruthy (JArr (c :: l)))) with false. cbn [jin].
      destruct (existsb _ (c :: l)) eqn:E; [apply arr_in in E; contradiction|]. apply look_class_is; assumption.
  - unfold look. destruct n as [| | | | | |kvs]; try discriminate. destruct (assoc $"@type" kvs) as [ty'|] eqn:A; [|discriminate].
    assert (LP : forall k, look_property k kvs <> VClass t id).
    { intro k. unfold look_property. destruct (assoc $"@id" kvs) as [[]|], (assoc $"rdfs:range" kvs) as [[]|]; try discriminate. destruct (assoc $"@id" kvs0); discriminate. }
    assert (LC := look_class_view kvs).
    intro H. destruct ty' as [|[]|[| |]|r|s|l|l]; try discriminate.
    + exfalso. unfold look_type in H. destruct (negb (jtruthy (JFloat r))); [discriminate|]. cbn [jin] in H. discriminate.
    + destruct s as [|c s]; [discriminate|]. unfold look_type in H. change (negb (jtruthy (JStr (c :: s)))) with false in H. cbn [jin] in H.
      destruct (contains $"owl:NamedIndividual" (c :: s)) eqn:C; [discriminate|].
      destruct (str_in (c :: s) _) eqn:P; [exfalso; exact (LP _ H)|]. destruct (str_eqb (c :: s) _) eqn:P2; [|discriminate].
      rewrite H in LC. destruct LC as [L1 L2]. apply str_eqb_eq in P2. apply (cn _ _ _ kvs (JStr (c :: s))); auto. left. f_equal. exact P2.
    + destruct l as [|c s]; [discriminate|]. unfold look_type in H. change (negb (jtruthy (JArr (c :: s)))) with false in H. cbn [jin] in H.
      destruct (existsb _ (c :: s)) eqn:C; [discriminate|]. rewrite H in LC. destruct LC as [L1 L2]. apply (cn _ _ _ kvs (JArr (c :: s))); auto.
      right. exists (c :: s). split; [reflexivity|]. split; [discriminate|]. intro X. apply arr_in in X. congruence.
    + exfalso. destruct l as [|c s]; [discriminate|]. unfold look_type in H. change (negb (jtruthy (JObj (c :: s)))) with false in H. cbn [jin] in H.
      destruct (match assoc $"owl:NamedIndividual" (c :: s) with Some _ => true | None => false end); discriminate.
Qed.
Lemma property_look n kind t id range : PropertyNode n kind t id range <-> look n = VProp kind t id range.
Proof.
  split.
  - intros [kvs r -> A K B D R E]. unfold look. rewrite A. unfold look_type. apply named_is in D.
    destruct K as [ -> | -> ]; [change (negb (jtruthy (JStr $"owl:DatatypeProperty"))) with false|change (negb (jtruthy (JStr $"owl:ObjectProperty"))) with false];
      [change (jin $"owl:NamedIndividual" (JStr $"owl:DatatypeProperty")) with (Ok false)|change (jin $"owl:NamedIndividual" (JStr $"owl:ObjectProperty")) with (Ok false)];
      lazy iota; [change (str_in $"owl:DatatypeProperty" _) with true|change (str_in $"owl:ObjectProperty" _) with true];
      lazy iota; unfold look_property; rewrite B, R, E, D; reflexivity.
  - unfold look. destruct n as [| | | | | |kvs]; try discriminate. destruct (assoc $"@type" kvs) as [ty'|] eqn:A; [|discriminate].
    assert (LC : look_class kvs <> VProp kind t id range) by (unfold look_class; destruct (assoc $"@id" kvs) as [[]|]; discriminate).
    intro H. destruct ty' as [|[]|[| |]|r|s|l|l]; try discriminate.
    + exfalso. unfold look_type in H. destruct (negb (jtruthy (JFloat r))); [discriminate|]. cbn [jin] in H. discriminate.
    + destruct s as [|c s]; [discriminate|]. unfold look_type in H. change (negb (jtruthy (JStr (c :: s)))) with false in H. cbn [jin] in H.
      destruct (contains $"owl:NamedIndividual" (c :: s)) eqn:C; [discriminate|].
      destruct (str_in (c :: s) _) eqn:P; [|destruct (str_eqb (c :: s) _); [exfalso; exact (LC H)|discriminate]].
      unfold look_property in H. destruct (assoc $"@id" kvs) as [[| | | |i| |]|] eqn:B; try discriminate.
      destruct (assoc $"rdfs:range" kvs) as [[| | | | | |r]|] eqn:R; try discriminate. destruct (assoc $"@id" r) as [g|] eqn:G; [|discriminate].
      assert (E : kind = c :: s /\ t = last_name i /\ id = i /\ range = g) by (repeat split; congruence). destruct E as (-> & -> & -> & ->).
      apply (pn _ _ _ _ _ kvs r); auto; [|apply named_is; reflexivity]. apply str_in_In in P. destruct P as [P|[P|[]]]; auto.
    + exfalso. destruct l as [|c s]; [discriminate|]. unfold look_type in H. change (negb (jtruthy (JArr (c :: s)))) with false in H. cbn [jin] in H.
      destruct (existsb _ (c :: s)) eqn:C; [discriminate|]. exact (LC H).
    + exfalso. destruct l as [|c s]; [discriminate|]. unfold look_type in H. change (negb (jtruthy (JObj (c :: s)))) with false in H. cbn [jin] in H.
      destruct (match assoc $"owl:NamedIndividual" (c :: s) with Some _ => true | None => false end); discriminate.
Qed.

(** ** Definitions of properties *)
Definition describe (kind t id : pystr) (range : json) : option json :=
  if str_in t PROPERTIES_WITH_ENUM_RANGE then
    if str_eqb t $"profile" then Some (JObj [($"@id", JStr id); ($"@type", JStr $"@vocab"); ($"@context", profile_context)])
    else match range with
         | JStr r => Some (JObj [($"@id", JStr id); ($"@type", JStr $"@vocab"); ($"@context", JObj [($"@vocab", JStr (r ++ $"/"))])])
         | _ => None
         end
  else if str_eqb kind $"owl:ObjectProperty" && is_one_of range REFERENCE_PROPERTY_TYPES then Some (JObj [($"@id", JStr id); ($"@type", JStr $"@id")])
  else Some (JObj [($"@id", JStr id); ($"@type", range)]).
Lemma reference_range range : is_one_of range REFERENCE_PROPERTY_TYPES = true <-> range = JStr $"core:Element" \/ range = JStr $"core:Agent".
Proof.
  split.
  - destruct range; try discriminate. cbn [is_one_of]. intro H. apply str_in_In in H. destruct H as [ <- |[ <- |[]]]; auto.
  - intros [ -> | -> ]; reflexivity.
Qed.
Lemma describes_is kind t id range d : Describes kind t id range d <-> describe kind t id range = Some d.
Proof.
  unfold describe. split.
  - intros [ -> |r I N -> |N -> R|N R].
    + reflexivity.
    + apply str_in_In in I. change enumerated with PROPERTIES_WITH_ENUM_RANGE in I. rewrite I. apply str_eqb_neq in N. rewrite N. reflexivity.
    + apply str_in_false in N. change enumerated with PROPERTIES_WITH_ENUM_RANGE in N. rewrite N. apply reference_range in R. rewrite R. reflexivity.
    + apply str_in_false in N. change enumerated with PROPERTIES_WITH_ENUM_RANGE in N. rewrite N.
      destruct (str_eqb kind $"owl:ObjectProperty" && is_one_of range REFERENCE_PROPERTY_TYPES) eqn:E; [|reflexivity]. exfalso. apply R.
      apply andb_prop in E as [E1 E2]. apply str_eqb_eq in E1. apply reference_range in E2. auto.
  - destruct (str_in t PROPERTIES_WITH_ENUM_RANGE) eqn:I.
    + apply str_in_In in I. destruct (str_eqb t $"profile") eqn:P.
      * apply str_eqb_eq in P. intro H. assert (E : d = JObj [($"@id", JStr id); ($"@type", JStr $"@vocab"); ($"@context", profile_context)]) by congruence.
        subst d t. exact (ds_profile kind $"profile" id range eq_refl).
      * apply str_eqb_neq in P. destruct range as [| | | |r| |]; try discriminate. intro H.
        assert (E : d = JObj [($"@id", JStr id); ($"@type", JStr $"@vocab"); ($"@context", JObj [($"@vocab", JStr (r ++ $"/"))])]) by congruence.
        subst d. apply ds_enumerated; auto.
    + apply str_in_false in I. destruct (str_eqb kind $"owl:ObjectProperty" && is_one_of range REFERENCE_PROPERTY_TYPES) eqn:E; intro H.
      * apply andb_prop in E as [E1 E2]. apply str_eqb_eq in E1. apply reference_range in E2.
        assert (E : d = JObj [($"@id", JStr id); ($"@type", JStr $"@id")]) by congruence. subst d. apply ds_reference; auto.
      * assert (E' : d = JObj [($"@id", JStr id); ($"@type", range)]) by congruence. subst d. apply ds_other; [exact I|].
        intros [K R]. apply reference_range in R. subst kind. rewrite R in E. discriminate.
Qed.

(** ** One node *)
Definition identifier (d : json) : option pystr :=
  match d with JObj kvs => match assoc $"@id" kvs with Some (JStr s) => Some s | _ => None end | _ => None end.
Lemma identified_is d id : Identified d id <-> identifier d = Some id.
Proof.
  unfold Identified, identifier. split.
  - intros (kvs & -> & ->). reflexivity.
  - destruct d as [| | | | | |kvs]; try discriminate. destruct (assoc $"@id" kvs) as [[| | | |s| |]|] eqn:A; try discriminate. intro H. exists kvs.
    split; [reflexivity|]. rewrite A. congruence.
Qed.
Definition coreb (d : json) : bool := match identifier d with Some s => startswith $"core" s | None => false end.
Lemma core_is d : Core d <-> coreb d = true.
Proof.
  unfold Core, coreb. split.
  - intros [r I]. apply identified_is in I. rewrite I. apply startswith_app.
  - destruct (identifier d) as [s|] eqn:I; [|discriminate]. intro H. apply startswith_spec in H as [r ->]. exists r. apply identified_is. exact I.
Qed.
(** the property named t may be set, must not be set, or cannot be looked up *)
Inductive lookup := Free | Taken | Broken.
Definition look_up (t : pystr) (kvs : list (pystr * json)) : lookup :=
  match assoc t kvs with
  | None => Free
  | Some w => match identifier w with Some s => if startswith $"core" s then Taken else Free | None => Broken end
  end.
Definition step (v : view) (kvs : list (pystr * json)) (u : list json) : option (list (pystr * json) * list json) :=
  match v with
  | VIgn => Some (kvs, u)
  | VRep ty => Some (kvs, ty :: u)
  | VClass t id => Some (dict_set t (JStr id) kvs, u)
  | VProp kind t id range =>
      match look_up t kvs with
      | Taken => Some (kvs, u)
      | Broken => None
      | Free => match describe kind t id range with Some d => Some (dict_set t d kvs, u) | None => None end
      end
  | VBad => None
  end.
Definition agrees {A} (r : result (json * A)) (o : option (list (pystr * json) * A)) : Prop :=
  match o with Some (kvs, u) => r = Ok (JObj kvs, u) | None => exists e, r = Raise e end.

Lemma core_lookup t kvs : match look_up t kvs with
  | Free => core_defined t (JObj kvs) = Ok false | Taken => core_defined t (JObj kvs) = Ok true | Broken => exists e, core_defined t (JObj kvs) = Raise e end.
Proof.
  unfold look_up, core_defined. cbn [jin bind jitem]. destruct (assoc t kvs) as [w|]; [|reflexivity]. cbn [bind].
  unfold identifier. destruct w as [| | | | | |l]; try (cbn [jitem bind]; eexists; reflexivity). cbn [jitem].
  destruct (assoc $"@id" l) as [[| | | |s| |]|]; cbn [bind]; try (eexists; reflexivity). destruct (startswith $"core" s); reflexivity.
Qed.
Lemma describe_definition kind kvs id range t : kind = $"owl:DatatypeProperty" \/ kind = $"owl:ObjectProperty" -> assoc $"@id" kvs = Some (JStr id) ->
  match describe kind t id range with Some d => property_definition (JStr kind) (JObj kvs) range t = Ok d
                                    | None => exists e, property_definition (JStr kind) (JObj kvs) range t = Raise e end.
Proof.
  intros K A. unfold describe, property_definition. cbn [jitem]. rewrite A. cbn [bind]. destruct (str_in t PROPERTIES_WITH_ENUM_RANGE).
  - destruct (str_eqb t $"profile"); [reflexivity|]. destruct range; try (eexists; reflexivity).
  - assert (Q : is_one_of (JStr kind) [$"owl:ObjectProperty"] = str_eqb kind $"owl:ObjectProperty") by (destruct K as [ -> | -> ]; reflexivity). rewrite Q.
    destruct (str_eqb kind $"owl:ObjectProperty" && is_one_of range REFERENCE_PROPERTY_TYPES); reflexivity.
Qed.
Lemma class_step kvs0 kvs u : agrees (do name <- term_name (JObj kvs0); do i <- jitem $"@id" (JObj kvs0); do c <- set_term name i (JObj kvs); Ok (c, u))
  (step (look_class kvs0) kvs u).
Proof.
  unfold term_name, look_class. cbn [jitem]. destruct (assoc $"@id" kvs0) as [[| | | |s| |]|]; cbn [bind]; try (eexists; reflexivity).
Qed.
Lemma property_step kind kvs0 kvs u : kind = $"owl:DatatypeProperty" \/ kind = $"owl:ObjectProperty" ->
  agrees (do name <- term_name (JObj kvs0);
          do range <- jitem $"rdfs:range" (JObj kvs0);
          do type_id <- jitem $"@id" range;
          do core <- core_defined name (JObj kvs);
          if core then Ok (JObj kvs, u) else
          do d <- property_definition (JStr kind) (JObj kvs0) type_id name;
          do context' <- set_term name d (JObj kvs);
          Ok (context', u)) (step (look_property kind kvs0) kvs u).
Proof.
  intro K. unfold term_name, look_property. cbn [jitem]. destruct (assoc $"@id" kvs0) as [i|] eqn:A; [|eexists; reflexivity]. cbn [bind].
  destruct i as [| | | |id| |]; try (eexists; reflexivity). cbn [bind]. destruct (assoc $"rdfs:range" kvs0) as [g|]; [|eexists; reflexivity]. cbn [bind].
  destruct g as [| | | | | |r]; try (eexists; reflexivity). cbn [jitem]. destruct (assoc $"@id" r) as [range|]; [|eexists; reflexivity]. cbn [bind].
  fold (last_name id). cbn [step]. assert (C := core_lookup (last_name id) kvs). destruct (look_up (last_name id) kvs).
  - rewrite C. cbn [bind]. assert (D := describe_definition kind kvs0 id range (last_name id) K A).
    destruct (describe kind (last_name id) id range) as [d|].
    + rewrite D. reflexivity.
    + destruct D as [e D]. rewrite D. eexists; reflexivity.
  - rewrite C. reflexivity.
  - destruct C as [e C]. rewrite C. eexists; reflexivity.
Qed.
Lemma node_step n kvs u : agrees (owl_node n (JObj kvs, u)) (step (look n) kvs u).
Proof.
  unfold owl_node, look. destruct n as [| | | | | |kvs0]; try (eexists; reflexivity). unfold jget. cbn [jget_default].
  destruct (assoc $"@type" kvs0) as [ty|] eqn:A; [|reflexivity]. cbn [bind]. unfold look_type. destruct (negb (jtruthy ty)) eqn:T; [reflexivity|].
  destruct (jin $"owl:NamedIndividual" ty) as [[]|e] eqn:I; cbn [bind]; [reflexivity| |eexists; reflexivity].
  destruct ty as [| | | |s|l|l]; try discriminate.
  - cbn [is_one_of]. destruct (str_in s [$"owl:DatatypeProperty"; $"owl:ObjectProperty"]) eqn:P.
    + apply property_step. apply str_in_In in P. destruct P as [P|[P|[]]]; auto.
    + assert (Q : str_in s [$"owl:Class"] = str_eqb s $"owl:Class") by (unfold str_in; cbn [existsb]; apply orb_false_r). rewrite Q.
      destruct (str_eqb s $"owl:Class"); [apply class_step|reflexivity].
  - cbn [is_one_of]. apply class_step.
  - reflexivity.
Qed.
Fixpoint steps (nodes : list json) (kvs : list (pystr * json)) (u : list json) : option (list (pystr * json) * list json) :=
  match nodes with
  | [] => Some (kvs, u)
  | n :: nodes' => match step (look n) kvs u with Some (kvs', u') => steps nodes' kvs' u' | None => None end
  end.
Lemma nodes_steps nodes : forall kvs u, agrees (owl_nodes nodes (JObj kvs, u)) (steps nodes kvs u).
Proof.
  induction nodes as [|n nodes IH]; intros kvs u; [reflexivity|]. cbn [owl_nodes steps]. assert (S1 := node_step n kvs u).
  destruct (step (look n) kvs u) as [[kvs' u']|].
  - cbn [agrees] in S1. rewrite S1. cbn [bind]. apply IH.
  - destruct S1 as [e S1]. rewrite S1. eexists; reflexivity.
Qed.

(** ** Candidates *)
Definition offer (n : json) : option (pystr * json) :=
  match look n with
  | VClass t id => Some (t, JStr id)
  | VProp kind t id range => match describe kind t id range with Some d => Some (t, d) | None => None end
  | _ => None
  end.
Lemma offers_is t n d : Offers t n d <-> offer n = Some (t, d).
Proof.
  unfold Offers, offer. split.
  - intros [(kind & id & range & P & D)|(id & C & ->)].
    + apply property_look in P. apply describes_is in D. rewrite P, D. reflexivity.
    + apply class_look in C. rewrite C. reflexivity.
  - destruct (look n) as [|ty|t' id|kind t' id range|] eqn:L; try discriminate.
    + intro H. assert (E : t' = t /\ d = JStr id) by (split; congruence). destruct E as [-> ->]. right. exists id. split; [apply class_look; exact L|reflexivity].
    + destruct (describe kind t' id range) as [d'|] eqn:D; [|discriminate]. intro H. assert (E : t' = t /\ d' = d) by (split; congruence).
      destruct E as [-> ->]. left. exists kind, id, range. split; [apply property_look; exact L|apply describes_is; exact D].
Qed.
Definition offered (t : pystr) (nodes : list json) : list json :=
  flat_map (fun n => match offer n with Some (t', d) => if str_eqb t' t then [d] else [] | None => [] end) nodes.
Lemma offered_collected t nodes : Collected (Offers t) nodes (offered t nodes).
Proof.
  induction nodes as [|n nodes IH]; [constructor|]. unfold offered. cbn [flat_map]. fold (offered t nodes). destruct (offer n) as [[t' d]|] eqn:F.
  - destruct (str_eqb t' t) eqn:E.
    + apply str_eqb_eq in E. subst t'. cbn [app]. apply cl_take; [apply offers_is; exact F|exact IH].
    + apply cl_skip; [|exact IH]. intros d' H. apply offers_is in H. apply str_eqb_neq in E. congruence.
  - apply cl_skip; [|exact IH]. intros d' H. apply offers_is in H. congruence.
Qed.
Lemma collected_unique (R : json -> json -> Prop) (F : forall n d d', R n d -> R n d' -> d = d') nodes ds : Collected R nodes ds ->
  forall ds', Collected R nodes ds' -> ds = ds'.
Proof.
  induction 1 as [|n ns d ds Q C IH|n ns ds Q C IH]; intros ds' H.
  - inversion H. reflexivity.
  - inversion H as [|? ? d' ds1 Q1 C1|? ? ds1 Q1 C1]; subst.
    + f_equal; [exact (F _ _ _ Q Q1)|apply IH; exact C1].
    + exfalso. exact (Q1 _ Q).
  - inversion H as [|? ? d' ds1 Q1 C1|? ? ds1 Q1 C1]; subst.
    + exfalso. exact (Q _ Q1).
    + apply IH. exact C1.
Qed.
Lemma offers_one t n d d' : Offers t n d -> Offers t n d' -> d = d'.
Proof. intros A B. apply offers_is in A, B. congruence. Qed.
Definition candidates (context : list (pystr * json)) (nodes : list json) (t : pystr) : list json :=
  match assoc t context with Some d => d :: offered t nodes | None => offered t nodes end.
Lemma candidates_is context nodes t cs : Candidates context nodes t cs <-> cs = candidates context nodes t.
Proof.
  unfold Candidates, candidates. split.
  - intros (ds & C & ->). rewrite (collected_unique _ (offers_one t) _ _ C _ (offered_collected t nodes)). reflexivity.
  - intros ->. exists (offered t nodes). split; [apply offered_collected|reflexivity].
Qed.
Lemma offered_app t a b : offered t (a ++ b) = offered t a ++ offered t b.
Proof. apply flat_map_app. Qed.
Lemma candidates_snoc context nodes n t : candidates context (nodes ++ [n]) t = candidates context nodes t ++ offered t [n].
Proof. unfold candidates. rewrite offered_app. destruct (assoc t context); reflexivity. Qed.

(** ** The winner *)
Lemma identified_not_plain d i : identifier d = Some i -> ~ Plain d.
Proof. intros H [s ->]. discriminate. Qed.
Lemma core_identified d : Core d -> exists i, identifier d = Some i.
Proof. intros [r H]. apply identified_is in H. eauto. Qed.
Lemma describe_identified kind t id range d : describe kind t id range = Some d -> identifier d = Some id.
Proof.
  unfold describe. destruct (str_in t PROPERTIES_WITH_ENUM_RANGE).
  - destruct (str_eqb t $"profile"); [intro H; assert (E : d = JObj [($"@id", JStr id); ($"@type", JStr $"@vocab"); ($"@context", profile_context)]) by congruence; subst d; reflexivity|].
    destruct range as [| | | |r| |]; try discriminate. intro H.
    assert (E : d = JObj [($"@id", JStr id); ($"@type", JStr $"@vocab"); ($"@context", JObj [($"@vocab", JStr (r ++ $"/"))])]) by congruence. subst d. reflexivity.
  - destruct (str_eqb kind $"owl:ObjectProperty" && is_one_of range REFERENCE_PROPERTY_TYPES); intro H.
    + assert (E : d = JObj [($"@id", JStr id); ($"@type", JStr $"@id")]) by congruence. subst d. reflexivity.
    + assert (E : d = JObj [($"@id", JStr id); ($"@type", range)]) by congruence. subst d. reflexivity.
Qed.
Lemma wins_nonempty cs w : Wins cs w -> cs <> [].
Proof. intros [ | | | ]; try discriminate; destruct l; discriminate. Qed.
Lemma wins_replaced cs w i d : Wins cs w -> identifier w = Some i -> ~ Core w -> ~ Plain d -> Wins (cs ++ [d]) d.
Proof.
  intros W I N P. assert (F : Forall (fun e => ~ Core e /\ ~ Plain e) cs).
  { destruct W as [w|l id|l w m C _ _|l w F].
    - constructor; [|constructor]. split; [exact N|exact (identified_not_plain _ _ I)].
    - discriminate.
    - contradiction.
    - exact F. }
  destruct (coreb d) eqn:C.
  - apply (w_core cs d []); [apply core_is; exact C|exact F|constructor].
  - apply w_last. apply Forall_app. split; [exact F|]. constructor; [|constructor]. split; [|exact P]. intro X. apply core_is in X. congruence.
Qed.
Lemma wins_stays cs w d : Wins cs w -> Core w -> ~ Plain d -> Wins (cs ++ [d]) w.
Proof.
  intros W C P. destruct W as [w|l id|l w m _ F G|l w F].
  - apply (w_core [] w [d]); [exact C|constructor|]. constructor; [exact P|constructor].
  - destruct (core_identified _ C) as [i H]. discriminate.
  - rewrite <- app_assoc. apply (w_core l w (m ++ [d])); [exact C|exact F|]. apply Forall_app. split; [exact G|]. constructor; [exact P|constructor].
  - apply Forall_app in F as [_ F]. inversion F as [|? ? [X _] _]; subst. contradiction.
Qed.
Definition pick (x : json) (d : option json) : json := match x with JStr s => JStr s | y => match d with Some e => e | None => y end end.
Definition winner (cs : list json) : json := pick (last cs JNull) (find coreb cs).
Lemma find_none l : Forall (fun e => ~ Core e /\ ~ Plain e) l -> find coreb l = None.
Proof.
  induction 1 as [|x l [X _] _ IH]; [reflexivity|]. cbn [find]. destruct (coreb x) eqn:C; [|exact IH]. apply core_is in C. contradiction.
Qed.
Lemma find_app l m : find coreb l = None -> find coreb (l ++ m) = find coreb m.
Proof. induction l as [|x l IH]; [reflexivity|]. cbn [find app]. destruct (coreb x); [discriminate|exact IH]. Qed.
Lemma not_plain_last (x : json) d : ~ Plain x -> pick x d = match d with Some e => e | None => x end.
Proof. intro P. destruct x; try reflexivity. exfalso. apply P. eexists; reflexivity. Qed.
Lemma wins_winner cs w : Wins cs w -> winner cs = w.
Proof.
  intro W. unfold winner. destruct W as [w|l id|l w m C F G|l w F].
  - cbn [last find]. destruct w; try reflexivity. destruct (coreb (JObj kvs)); reflexivity.
  - rewrite last_last. reflexivity.
  - rewrite not_plain_last.
    + rewrite find_app by (apply find_none; exact F). cbn [find]. apply core_is in C. rewrite C. reflexivity.
    + destruct m as [|x m _] using rev_ind.
      * rewrite last_last. destruct (core_identified _ C) as [i H]. exact (identified_not_plain _ _ H).
      * rewrite app_comm_cons, app_assoc, last_last. apply Forall_app in G as [_ G]. inversion G; assumption.
  - rewrite last_last, not_plain_last.
    + rewrite find_none by exact F. reflexivity.
    + apply Forall_app in F as [_ F]. inversion F as [|? ? [_ X] _]; assumption.
Qed.
Lemma wins_one cs w w' : Wins cs w -> Wins cs w' -> w = w'.
Proof. intros A B. rewrite <- (wins_winner _ _ A). apply wins_winner. exact B. Qed.

(** ** The invariant *)
Definition Settled (context : list (pystr * json)) (nodes : list json) (kvs : list (pystr * json)) : Prop :=
  forall t, match assoc t kvs with
            | None => candidates context nodes t = []
            | Some w => Wins (candidates context nodes t) w
            end.
Lemma settled_start context : Settled context [] context.
Proof. intro t. unfold candidates. destruct (assoc t context); [apply w_only|reflexivity]. Qed.
Lemma settled_step context nodes kvs n u kvs' u' : Settled context nodes kvs -> step (look n) kvs u = Some (kvs', u') -> Settled context (nodes ++ [n]) kvs'.
Proof.
  intros S1 H t. specialize (S1 t). rewrite candidates_snoc. unfold offered. cbn [flat_map]. rewrite app_nil_r. unfold offer.
  destruct (look n) as [|ty|t' id|kind t' id range|]; cbn [step] in H; try discriminate.
  - assert (E : kvs' = kvs) by congruence. subst kvs'. rewrite app_nil_r. exact S1.
  - assert (E : kvs' = kvs) by congruence. subst kvs'. rewrite app_nil_r. exact S1.
  - assert (E : kvs' = dict_set t' (JStr id) kvs) by congruence. subst kvs'. destruct (str_eqb t' t) eqn:T.
    + apply str_eqb_eq in T. subst t'. rewrite assoc_dict_set_same. apply w_class.
    + apply str_eqb_neq in T. rewrite assoc_dict_set_other by congruence. rewrite app_nil_r. exact S1.
  - unfold look_up in H. destruct (str_eqb t' t) eqn:T.
    + apply str_eqb_eq in T. subst t'. destruct (assoc t kvs) as [w|] eqn:A.
      * destruct (identifier w) as [i|] eqn:I; [|discriminate]. destruct (startswith $"core" i) eqn:C.
        -- assert (E : kvs' = kvs) by congruence. subst kvs'. rewrite A. assert (C' : Core w) by (apply core_is; unfold coreb; rewrite I; exact C).
           destruct (describe kind t id range) as [d|] eqn:D; [|rewrite app_nil_r; exact S1].
           rewrite str_eqb_refl. apply wins_stays; [exact S1|exact C'|exact (identified_not_plain _ _ (describe_identified _ _ _ _ _ D))].
        -- destruct (describe kind t id range) as [d|] eqn:D; [|discriminate].
           assert (E : kvs' = dict_set t d kvs) by congruence. subst kvs'. rewrite assoc_dict_set_same.
           rewrite str_eqb_refl. apply (wins_replaced _ w i); [exact S1|exact I| |exact (identified_not_plain _ _ (describe_identified _ _ _ _ _ D))].
           intro X. apply core_is in X. unfold coreb in X. rewrite I in X. congruence.
      * destruct (describe kind t id range) as [d|] eqn:D; [|discriminate]. assert (E : kvs' = dict_set t d kvs) by congruence. subst kvs'.
        rewrite assoc_dict_set_same, S1, str_eqb_refl. apply w_only.
    + assert (X : assoc t kvs' = assoc t kvs).
      { apply str_eqb_neq in T. destruct (match assoc t' kvs with Some w => match identifier w with Some s => if startswith $"core" s then Taken else Free | None => Broken end | None => Free end).
        - destruct (describe kind t' id range) as [d|]; [|discriminate]. assert (E : kvs' = dict_set t' d kvs) by congruence. subst kvs'.
          apply assoc_dict_set_other. congruence.
        - assert (E : kvs' = kvs) by congruence. subst kvs'. reflexivity.
        - discriminate. }
      rewrite X.
      destruct (describe kind t' id range) as [d|]; [rewrite T|]; rewrite app_nil_r; exact S1.
Qed.
Lemma settled_steps context nodes : forall before kvs u kvs' u', Settled context before kvs -> steps nodes kvs u = Some (kvs', u') ->
  Settled context (before ++ nodes) kvs'.
Proof.
  induction nodes as [|n nodes IH]; intros before kvs u kvs' u' S1 H; cbn [steps] in H.
  - assert (E : kvs' = kvs) by congruence. subst kvs'. rewrite app_nil_r. exact S1.
  - destruct (step (look n) kvs u) as [[k1 u1]|] eqn:Q; [|discriminate]. replace (before ++ n :: nodes) with ((before ++ [n]) ++ nodes) by (rewrite <- app_assoc; reflexivity).
    apply (IH _ k1 u1 kvs' u'); [exact (settled_step _ _ _ _ _ _ _ S1 Q)|exact H].
Qed.

(** ** The whole ontology *)
Definition reversed {A B} (o : option (A * list B)) : option (A * list B) := match o with Some (a, u) => Some (a, rev u) | None => None end.
Lemma ontology_steps owl context nodes : Ontology owl context nodes ->
  agrees (convert_spdx_owl_to_jsonld_context owl) (reversed (steps nodes context [])).
Proof.
  intros (kvs & -> & A & B). unfold convert_spdx_owl_to_jsonld_context. cbn [jitem]. rewrite A, B. cbn [bind jiter].
  assert (S1 := nodes_steps nodes context []). destruct (steps nodes context []) as [[k u]|]; cbn [agrees reversed] in S1 |- *.
  - rewrite S1. reflexivity.
  - destruct S1 as [e S1]. rewrite S1. eexists; reflexivity.
Qed.
Lemma ontology_ok owl context nodes r : Ontology owl context nodes -> convert_spdx_owl_to_jsonld_context owl = Ok r ->
  exists kvs u, steps nodes context [] = Some (kvs, u) /\ r = (JObj kvs, rev u).
Proof.
  intros T H. assert (S1 := ontology_steps _ _ _ T). destruct (steps nodes context []) as [[k u]|]; cbn [agrees reversed] in S1.
  - exists k, u. split; [reflexivity|congruence].
  - destruct S1 as [e S1]. congruence.
Qed.
Lemma definitions owl context nodes r : Ontology owl context nodes -> convert_spdx_owl_to_jsonld_context owl = Ok r ->
  exists kvs, fst r = JObj kvs /\ forall t d, assoc t kvs = Some d <-> exists cs, Candidates context nodes t cs /\ Wins cs d.
Proof.
  intros T H. destruct (ontology_ok _ _ _ _ T H) as (kvs & u & E & ->). exists kvs. split; [reflexivity|]. intros t d.
  assert (F := settled_steps context nodes [] context [] kvs u (settled_start context) E t). cbn [app] in F. split.
  - intro A. rewrite A in F. exists (candidates context nodes t). split; [apply candidates_is; reflexivity|exact F].
  - intros (cs & C & W). apply candidates_is in C. subst cs. destruct (assoc t kvs) as [w|].
    + f_equal. exact (wins_one _ _ _ F W).
    + exfalso. exact (wins_nonempty _ _ W F).
Qed.
(** terms *)
Lemma dict_set_keys {A} k (v : A) l : map fst (dict_set k v l) = if str_in k (map fst l) then map fst l else map fst l ++ [k].
Proof.
  induction l as [|[a b] l IH]; [reflexivity|]. cbn [dict_set map fst]. unfold str_in. cbn [existsb]. destruct (str_eqb k a) eqn:E; [reflexivity|].
  cbn [map fst orb]. fold (str_in k (map fst l)). rewrite IH. destruct (str_in k (map fst l)); reflexivity.
Qed.
Definition grows (a b : list pystr) : Prop := (NoDup a -> NoDup b) /\ exists new, b = a ++ new.
Lemma grows_refl a : grows a a.
Proof. split; [auto|]. exists []. rewrite app_nil_r. reflexivity. Qed.
Lemma grows_trans a b c : grows a b -> grows b c -> grows a c.
Proof. intros [N (x & ->)] [M (y & ->)]. split; [auto|]. exists (x ++ y). rewrite app_assoc. reflexivity. Qed.
Lemma grows_set {A} k (v : A) l : grows (map fst l) (map fst (dict_set k v l)).
Proof.
  rewrite dict_set_keys. destruct (str_in k (map fst l)) eqn:E; [apply grows_refl|]. split; [|eexists; reflexivity].
  intro N. apply str_in_false in E. apply NoDup_rev in N. rewrite <- (rev_involutive (map fst l ++ [k])). apply NoDup_rev. rewrite rev_app_distr. cbn [rev app].
  constructor; [|exact N]. rewrite <- in_rev. exact E.
Qed.
Lemma step_grows v kvs u kvs' u' : step v kvs u = Some (kvs', u') -> grows (map fst kvs) (map fst kvs').
Proof.
  destruct v as [|ty|t id|kind t id range|]; cbn [step]; try discriminate.
  - intro H. assert (E : kvs' = kvs) by congruence. subst. apply grows_refl.
  - intro H. assert (E : kvs' = kvs) by congruence. subst. apply grows_refl.
  - intro H. assert (E : kvs' = dict_set t (JStr id) kvs) by congruence. subst. apply grows_set.
  - destruct (look_up t kvs); [| |discriminate].
    + destruct (describe kind t id range) as [d|]; [|discriminate]. intro H. assert (E : kvs' = dict_set t d kvs) by congruence. subst. apply grows_set.
    + intro H. assert (E : kvs' = kvs) by congruence. subst. apply grows_refl.
Qed.
Lemma steps_grow nodes : forall kvs u kvs' u', steps nodes kvs u = Some (kvs', u') -> grows (map fst kvs) (map fst kvs').
Proof.
  induction nodes as [|n nodes IH]; intros kvs u kvs' u' H; cbn [steps] in H.
  - assert (E : kvs' = kvs) by congruence. subst. apply grows_refl.
  - destruct (step (look n) kvs u) as [[k1 u1]|] eqn:Q; [|discriminate]. exact (grows_trans _ _ _ (step_grows _ _ _ _ _ Q) (IH _ _ _ _ H)).
Qed.
Lemma terms owl context nodes r : Ontology owl context nodes -> NoDup (map fst context) -> convert_spdx_owl_to_jsonld_context owl = Ok r ->
  exists kvs new, fst r = JObj kvs /\ map fst kvs = map fst context ++ new /\ NoDup (map fst kvs)
    /\ forall t, In t new <-> ~ In t (map fst context) /\ exists n d, In n nodes /\ Offers t n d.
Proof.
  intros T N H. destruct (definitions _ _ _ _ T H) as (kvs & R & D). destruct (ontology_ok _ _ _ _ T H) as (kvs' & u & E & ->).
  cbn [fst] in R. assert (kvs' = kvs) by congruence. subst kvs'. destruct (steps_grow _ _ _ _ _ E) as [G (new & W)].
  exists kvs, new. split; [reflexivity|]. split; [exact W|]. split; [exact (G N)|]. specialize (G N). intro t.
  assert (X : In t (map fst kvs) <-> exists d, assoc t kvs = Some d).
  { split.
    - intro I. destruct (assoc t kvs) as [d|] eqn:A; [eauto|]. apply assoc_None in A. contradiction.
    - intros [d A]. apply (in_map fst _ (t, d)). apply assoc_In. exact A. }
  assert (Y : (exists d, assoc t kvs = Some d) <-> candidates context nodes t <> []).
  { split.
    - intros [d A]. apply D in A as (cs & C & V). apply candidates_is in C. subst cs. exact (wins_nonempty _ _ V).
    - intro Z. assert (F := settled_steps context nodes [] context [] kvs u (settled_start context) E t). cbn [app] in F.
      destruct (assoc t kvs) as [w|]; [eauto|]. contradiction. }
  assert (V : offered t nodes <> [] <-> exists n d, In n nodes /\ Offers t n d).
  { clear. unfold offered. split.
    - induction nodes as [|n nodes IH]; [contradiction|]. cbn [flat_map]. destruct (offer n) as [[t' d]|] eqn:F.
      + destruct (str_eqb t' t) eqn:Q.
        * intros _. apply str_eqb_eq in Q. subst t'. exists n, d. split; [left; reflexivity|]. apply offers_is. exact F.
        * intro Z. destruct (IH Z) as (m & d' & I & O). exists m, d'. split; [right; exact I|exact O].
      + intro Z. destruct (IH Z) as (m & d' & I & O). exists m, d'. split; [right; exact I|exact O].
    - intros (n & d & I & O) Z. apply offers_is in O.
      assert (B : In d (flat_map (fun n => match offer n with Some (t', d) => if str_eqb t' t then [d] else [] | None => [] end) nodes)).
      { apply in_flat_map. exists n. split; [exact I|]. rewrite O, str_eqb_refl. left. reflexivity. }
      rewrite Z in B. contradiction. }
  rewrite <- V. unfold candidates in Y. split.
  - intro I. assert (Z : ~ In t (map fst context)).
    { rewrite W in G. intro J. apply (in_split) in J as (a & b & J). rewrite J in G. rewrite <- app_assoc in G. apply NoDup_remove_2 in G. apply G.
      apply in_or_app. right. apply in_or_app. right. exact I. }
    split; [exact Z|]. apply assoc_None in Z. rewrite Z in Y. apply Y. apply X. rewrite W. apply in_or_app. right. exact I.
  - intros [Z O]. assert (J : In t (map fst kvs)). { apply X. apply Y. apply assoc_None in Z. rewrite Z. exact O. }
    rewrite W in J. apply in_app_or in J as [J|J]; [contradiction|exact J].
Qed.
(** reports *)
Lemma reports nodes : forall kvs u kvs' u', steps nodes kvs u = Some (kvs', u') -> exists v, u' = rev v ++ u /\ Collected Reported nodes v.
Proof.
  induction nodes as [|n nodes IH]; intros kvs u kvs' u' H; cbn [steps] in H.
  - exists []. split; [cbn; congruence|constructor].
  - destruct (step (look n) kvs u) as [[k1 u1]|] eqn:Q; [|discriminate]. destruct (IH _ _ _ _ H) as (v & -> & C).
    assert (Z : (exists ty, look n = VRep ty /\ u1 = ty :: u) \/ ((forall ty, look n <> VRep ty) /\ u1 = u)).
    { destruct (look n) as [|ty|t id|kind t id range|]; cbn [step] in Q; try discriminate.
      - right. split; [discriminate|congruence].
      - left. exists ty. split; [reflexivity|congruence].
      - right. split; [discriminate|congruence].
      - right. split; [discriminate|]. destruct (look_up t kvs); [| |discriminate]; [destruct (describe kind t id range); [|discriminate]|]; congruence. }
    destruct Z as [(ty & L & ->)|[L ->]].
    + exists (ty :: v). split; [cbn [rev]; rewrite <- app_assoc; reflexivity|]. apply cl_take; [apply reported_look; exact L|exact C].
    + exists v. split; [reflexivity|]. apply cl_skip; [|exact C]. intros d X. apply reported_look in X. exact (L _ X).
Qed.
Lemma reported owl context nodes r : Ontology owl context nodes -> convert_spdx_owl_to_jsonld_context owl = Ok r -> Collected Reported nodes (snd r).
Proof.
  intros T H. destruct (ontology_ok _ _ _ _ T H) as (kvs & u & E & ->). destruct (reports _ _ _ _ _ E) as (v & -> & C).
  cbn [snd]. rewrite app_nil_r, rev_involutive. exact C.
Qed.
(** success *)
Lemma usable_step context before n kvs u : Settled context before kvs -> (Usable context before n <-> exists r, step (look n) kvs u = Some r).
Proof.
  intro S1. split.
  - intros [G|ty G|t id G|kind t id range d P D C|kind t id range cs w i P C W J Q].
    + apply ignored_look in G. rewrite G. eexists; reflexivity.
    + apply reported_look in G. rewrite G. eexists; reflexivity.
    + apply class_look in G. rewrite G. eexists; reflexivity.
    + apply property_look in P. apply describes_is in D. apply candidates_is in C. rewrite P. cbn [step]. unfold look_up.
      specialize (S1 t). destruct (assoc t kvs) as [w|].
      * rewrite <- C in S1. exfalso. exact (wins_nonempty _ _ S1 eq_refl).
      * rewrite D. eexists; reflexivity.
    + apply property_look in P. apply candidates_is in C. apply identified_is in J. rewrite P. cbn [step]. unfold look_up.
      specialize (S1 t). rewrite <- C in S1. destruct (assoc t kvs) as [w'|].
      * rewrite (wins_one _ _ _ S1 W), J. destruct (startswith $"core" i) eqn:K; [eexists; reflexivity|].
        destruct Q as [Q|[d Q]]; [apply core_is in Q; unfold coreb in Q; rewrite J in Q; congruence|]. apply describes_is in Q. rewrite Q. eexists; reflexivity.
      * exfalso. exact (wins_nonempty _ _ W S1).
  - intros [r H]. destruct (look n) as [|ty|t id|kind t id range|] eqn:L; cbn [step] in H; try discriminate.
    + apply us_ignored. apply ignored_look. exact L.
    + apply (us_reported _ _ _ ty). apply reported_look. exact L.
    + apply (us_class _ _ _ t id). apply class_look. exact L.
    + apply property_look in L. unfold look_up in H. specialize (S1 t). destruct (assoc t kvs) as [w|].
      * destruct (identifier w) as [i|] eqn:J; [|discriminate]. apply identified_is in J.
        apply (us_known _ _ _ kind t id range (candidates context before t) w i); [exact L|apply candidates_is; reflexivity|exact S1|exact J|].
        destruct (startswith $"core" i) eqn:K.
        -- left. apply core_is. unfold coreb. apply identified_is in J. rewrite J. exact K.
        -- right. destruct (describe kind t id range) as [d|] eqn:D; [|discriminate]. exists d. apply describes_is. exact D.
      * destruct (describe kind t id range) as [d|] eqn:D; [|discriminate].
        apply (us_new _ _ _ kind t id range d); [exact L|apply describes_is; exact D|apply candidates_is; symmetry; exact S1].
Qed.
Lemma usable_steps context nodes : forall before kvs u, Settled context before kvs ->
  ((exists r, steps nodes kvs u = Some r) <-> forall a n b, nodes = a ++ n :: b -> Usable context (before ++ a) n).
Proof.
  induction nodes as [|n nodes IH]; intros before kvs u S1; cbn [steps].
  - split; [|intros _; eexists; reflexivity]. intros _ a n b E. destruct a; discriminate.
  - split.
    + intros [r H] a m b E. destruct (step (look n) kvs u) as [[k1 u1]|] eqn:Q; [|discriminate]. destruct a as [|x a].
      * cbn [app] in E. assert (m = n) by congruence. subst m. rewrite app_nil_r. apply (usable_step _ _ _ kvs u S1). eauto.
      * cbn [app] in E. assert (x = n /\ nodes = a ++ m :: b) as [-> E'] by (split; congruence).
        replace (before ++ n :: a) with ((before ++ [n]) ++ a) by (rewrite <- app_assoc; reflexivity).
        assert (S2 := settled_step _ _ _ _ _ _ _ S1 Q). destruct (IH _ _ u1 S2) as [F _]. exact (F (ex_intro _ r H) a m b E').
    + intro U. assert (U0 := U [] n nodes eq_refl). rewrite app_nil_r in U0. apply (usable_step _ _ _ kvs u S1) in U0 as [[k1 u1] Q]. rewrite Q.
      assert (S2 := settled_step _ _ _ _ _ _ _ S1 Q). apply (IH _ _ u1 S2). intros a m b E. rewrite <- app_assoc. cbn [app]. apply (U (n :: a) m b). rewrite E. reflexivity.
Qed.
Lemma succeeds owl context nodes : Ontology owl context nodes ->
  ((exists r, convert_spdx_owl_to_jsonld_context owl = Ok r) <-> forall before n after, nodes = before ++ n :: after -> Usable context before n).
Proof.
  intro T. assert (S1 := ontology_steps _ _ _ T). rewrite <- (usable_steps context nodes [] context [] (settled_start context)).
  destruct (steps nodes context []) as [[k u]|]; cbn [agrees reversed] in S1.
  - split; intros _; eexists; [reflexivity|exact S1].
  - destruct S1 as [e S1]. rewrite S1. split; intros [r X]; discriminate.
Qed.
