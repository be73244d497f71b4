(** Proofs for C67. *)
From Verif Require Import Py PyFacts Data Oracles Basics Json JsonFacts DocUtils Payload Typing TypingFacts Typing3 Typing3Spec Typing3Facts Typing3More
  Jsonld JsonldSpec JsonldFacts Jsonld3 Jsonld3Spec.
From Verif Require JsonldBump.

(** ** Induction over values *)
Section Induction.
  Variable P : pyval -> Prop.
  Hypothesis none : P VNone.
  Hypothesis bool_ : forall b, P (VBool b).
  Hypothesis int : forall z, P (VInt z).
  Hypothesis float : forall s, P (VFloat s).
  Hypothesis str : forall s, P (VStr s).
  Hypothesis date : forall d, P (VDatetime d).
  Hypothesis lic : forall e, P (VLicense e).
  Hypothesis lst : forall l, Forall P l -> P (VList l).
  Hypothesis tup : forall l, P (VTuple l).
  Hypothesis dict : forall l, P (VDict l).
  Hypothesis obj : forall c i, Forall (fun p => P (snd p)) i -> P (VObj c i).
  Fixpoint pyval_all_ind (v : pyval) : P v :=
    match v with
    | VNone => none | VBool b => bool_ b | VInt z => int z | VFloat s => float s | VStr s => str s | VDatetime d => date d | VLicense e => lic e
    | VTuple l => tup l | VDict l => dict l
    | VList l => lst l ((fix all l : Forall P l := match l with [] => Forall_nil P | x :: r => Forall_cons x (pyval_all_ind x) (all r) end) l)
    | VObj c i =>
        obj c i ((fix all l : Forall (fun p => P (snd p)) l :=
                    match l with [] => Forall_nil _ | p :: r => Forall_cons p (pyval_all_ind (snd p)) (all r) end) i)
    end.
End Induction.

(** ** The tables *)
Lemma keys_right : forallb (fun fk => str_eqb (json_ld_key ($"_" ++ fst fk)) (snd fk)) field_keys = true.
Proof. vm_compute. reflexivity. Qed.
Lemma key_of f k : In (f, k) field_keys -> json_ld_key ($"_" ++ f) = k.
Proof. intro I. pose proof keys_right as K. rewrite forallb_forall in K. apply str_eqb_eq. exact (K (f, k) I). Qed.
Lemma keys_nodup : NoDup (map snd field_keys).
Proof. apply JsonFacts.nodupb_spec. vm_compute. reflexivity. Qed.
Lemma fields_nodup_keys : NoDup (map fst field_keys).
Proof. apply JsonFacts.nodupb_spec. vm_compute. reflexivity. Qed.
Lemma no_type_key k : In k (map snd field_keys) -> k <> $"@type".
Proof.
  intros I E. assert (B : str_in $"@type" (map snd field_keys) = false) by (vm_compute; reflexivity). subst k. apply str_in_In in I. congruence.
Qed.
Lemma nodup_snd {A B} (l : list (A * B)) : NoDup (map snd l) -> forall a a' b, In (a, b) l -> In (a', b) l -> a = a'.
Proof.
  induction l as [|[x y] l IH]; cbn; [tauto|]. intros N a a' b H H'. apply NoDup_cons_iff in N as [N1 N2].
  destruct H as [H|H]; destruct H' as [H'|H'].
  - congruence.
  - exfalso. apply N1. assert (y = b) by congruence. subst. apply (in_map snd) in H'. exact H'.
  - exfalso. apply N1. assert (y = b) by congruence. subst. apply (in_map snd) in H. exact H.
  - eauto.
Qed.
Lemma key_field f g k : In (f, k) field_keys -> In (g, k) field_keys -> f = g.
Proof. apply nodup_snd. exact keys_nodup. Qed.
(** every field of every class has a key *)
Lemma keys_complete : forallb (fun d => forallb (fun f => str_in f (map fst field_keys)) (map fst (fields_of classes3 (depth classes3) d))) classes3 = true.
Proof. vm_compute. reflexivity. Qed.
(** classes are neither enumerations nor versions *)
Lemma class_names : forallb (fun d => negb (str_in (d_name d) (map fst enumerations3)) && negb (str_eqb (d_name d) $"Version")) classes3 = true.
Proof. vm_compute. reflexivity. Qed.
Lemma class_object d i : In d classes3 -> object_of (VObj (d_name d) i) = XObj (d_name d) (map (fun fv => ($"_" ++ fst fv, object_of (snd fv))) i).
Proof.
  intro I. pose proof class_names as K. rewrite forallb_forall in K. specialize (K d I). apply andb_prop in K as [K1 K2]. cbn [object_of].
  destruct (str_in (d_name d) (map fst enumerations3)); [discriminate|]. destruct (str_eqb (d_name d) $"Version"); [discriminate|]. reflexivity.
Qed.
Lemma words_are : forallb (fun cw => str_in (fst cw) (map fst enumerations3)
    && forallb (fun nw => str_eqb (snake_to_camel (fst nw)) (snd nw)) (snd cw) && JsonFacts.nodupb (map snd (snd cw)) && JsonFacts.nodupb (map fst (snd cw))) enumeration_words = true.
Proof. vm_compute. reflexivity. Qed.
Lemma words_in c words : In (c, words) enumeration_words -> str_in c (map fst enumerations3) = true
  /\ (forall n w, In (n, w) words -> snake_to_camel n = w) /\ NoDup (map snd words) /\ NoDup (map fst words).
Proof.
  intro I. pose proof words_are as K. rewrite forallb_forall in K. specialize (K _ I). cbn [fst snd] in K.
  apply andb_prop in K as [K K4]. apply andb_prop in K as [K K3]. apply andb_prop in K as [K1 K2].
  split; [exact K1|]. split; [|split; apply JsonFacts.nodupb_spec; assumption].
  intros n w J. rewrite forallb_forall in K2. apply str_eqb_eq. exact (K2 (n, w) J).
Qed.
Lemma member_word c words n m w : In (c, words) enumeration_words -> In (n, w) words -> In (m, w) words -> n = m.
Proof. intros I. destruct (words_in _ _ I) as (_ & _ & N & _). apply nodup_snd. exact N. Qed.
Lemma member_object c words n : In (c, words) enumeration_words -> object_of (member c n) = XEnum n.
Proof. intro I. destruct (words_in _ _ I) as (E & _). unfold member. cbn [object_of]. rewrite E. reflexivity. Qed.
Lemma version_object s : object_of (version s) = XVersion s.
Proof.
  unfold version. cbn [object_of]. assert (B : str_in $"Version" (map fst enumerations3) = false) by (vm_compute; reflexivity). rewrite B. reflexivity.
Qed.
(** the table of words has all members of all enumerations *)
Lemma words_all : map (fun cw => (fst cw, map fst (snd cw))) enumeration_words = enumerations3.
Proof. vm_compute. reflexivity. Qed.

(** ** Names of fields *)
Lemma dict_set_names {A} k (v : A) l : map fst (dict_set k v l) = if str_in k (map fst l) then map fst l else map fst l ++ [k].
Proof.
  induction l as [|[k' v'] l IH]; [reflexivity|]. cbn [dict_set map fst str_in existsb]. unfold str_in in *. cbn [existsb].
  destruct (str_eqb k k') eqn:E; [reflexivity|]. cbn [map fst]. rewrite IH. destruct (existsb (str_eqb k) (map fst l)); reflexivity.
Qed.
Lemma filter_ext_in {A} (f g : A -> bool) l : (forall a, In a l -> f a = g a) -> filter f l = filter g l.
Proof. induction l as [|a l IH]; intro H; [reflexivity|]. cbn. rewrite (H a) by (left; reflexivity). rewrite IH by (intros; apply H; right; assumption). reflexivity. Qed.
Lemma str_in_app k l m : str_in k (l ++ m) = str_in k l || str_in k m.
Proof. unfold str_in. apply existsb_app. Qed.
Lemma fold_names own : forall inh, NoDup (map fst own) ->
  map fst (fold_left (fun l (fh : pystr * hint3) => dict_set (fst fh) (snd fh) l) own inh)
  = map fst inh ++ filter (fun f => negb (str_in f (map fst inh))) (map fst own).
Proof.
  induction own as [|[k h] own IH]; intros inh N; [cbn; rewrite app_nil_r; reflexivity|]. cbn [map fst] in N. apply NoDup_cons_iff in N as [N1 N2].
  cbn [fold_left fst snd map filter]. rewrite IH by exact N2. rewrite dict_set_names. destruct (str_in k (map fst inh)) eqn:E; cbn [negb]; [reflexivity|].
  rewrite <- app_assoc. cbn [app]. f_equal. f_equal. apply filter_ext_in. intros a I. rewrite str_in_app. destruct (str_in a (map fst inh)); [reflexivity|].
  cbn [orb]. unfold str_in. cbn [existsb]. destruct (str_eqb a k) eqn:K; [|reflexivity]. apply str_eqb_eq in K. subst. contradiction.
Qed.
Lemma names_of n : forall d, In d classes3 -> chain classes3 n d = true -> FieldNames d (map fst (fields_of classes3 n d)).
Proof.
  assert (R : forall l : list pystr, filter (fun f => negb (str_in f [])) l = l).
  { induction l as [|x l IH]; [reflexivity|]. cbn in *. rewrite IH. reflexivity. }
  induction n as [|n IH]; intros d I C; cbn [fields_of chain] in *; rewrite fold_names by (apply (own_nodup classes3 wf_classes3); exact I).
  - destruct (d_base d) eqn:B; [discriminate|]. cbn [map app]. rewrite R. constructor. exact B.
  - destruct (d_base d) as [b|] eqn:B.
    + destruct (decl_of classes3 b) as [e|] eqn:E; [|discriminate]. destruct (decl_some classes3 _ _ E) as [Ie <-]. apply (fn_sub d e); auto.
    + cbn [map app]. rewrite R. constructor. exact B.
Qed.
Lemma names_unique d l : In d classes3 -> FieldNames d l -> forall l', FieldNames d l' -> l = l'.
Proof.
  intros I F. induction F as [d B|d e l B Ie F IH]; intros l' F'; inversion F' as [d' B' X Y|d' e' l0 B' Ie' F0 X Y]; subst; try congruence.
  assert (E : e = e').
  { pose proof (decl_in classes3 names3 _ Ie) as D. pose proof (decl_in classes3 names3 _ Ie') as D'. assert (d_name e = d_name e') by congruence. congruence. }
  subst e'. rewrite (IH Ie _ F0). reflexivity.
Qed.
Lemma names_are d l : In d classes3 -> FieldNames d l -> l = map fst (fields_of classes3 (depth classes3) d).
Proof. intros I F. apply (names_unique d); auto. apply names_of; [exact I|]. apply (chain_any classes3 wf_classes3 (d_name d)). apply (decl_in classes3 names3). exact I. Qed.
Lemma names_nodup d l : In d classes3 -> FieldNames d l -> NoDup l.
Proof. intros I F. rewrite (names_are d l I F). apply fields_nodup. Qed.
Lemma names_keys d l f : In d classes3 -> FieldNames d l -> In f l -> exists k, In (f, k) field_keys.
Proof.
  intros I F J. rewrite (names_are d l I F) in J. pose proof keys_complete as K. rewrite forallb_forall in K. specialize (K d I).
  rewrite forallb_forall in K. specialize (K f J). apply str_in_In in K. apply in_map_iff in K as ([f' k] & E & K). cbn in E. subst. eauto.
Qed.

(** ** What is shown is written *)
Lemma items_shown l os : Forall2 (fun v o => JsonldFacts.Field (object_of v) o) l os ->
  items (map object_of l) = Ok (flat_map (fun o => match o with Some j => [j] | None => [] end) os).
Proof.
  induction 1 as [|v o l os [[T E]|[T (j & C & E)]] F IH]; [reflexivity| |]; cbn [map items flat_map]; rewrite T, IH; subst o.
  - reflexivity.
  - rewrite C. reflexivity.
Qed.
Lemma fields_shown i : forall entries, Forall2 (fun fv (ko : pystr * option json) => In (fst fv, fst ko) field_keys /\ JsonldFacts.Field (object_of (snd fv)) (snd ko)) i entries ->
  JsonldFacts.Fields (map (fun fv => ($"_" ++ fst fv, object_of (snd fv))) i) entries.
Proof.
  intros es F. induction F as [|[f v] [k o] i es [K X] F IH]; [constructor|]. cbn [map fst snd] in *. constructor; [apply key_of; exact K|exact X|exact IH].
Qed.
Lemma keys_distinct (R : pyval -> option json -> Prop) i entries : NoDup (map fst i) ->
  Forall2 (fun fv (ko : pystr * option json) => In (fst fv, fst ko) field_keys /\ R (snd fv) (snd ko)) i entries -> NoDup ($"@type" :: map fst entries).
Proof.
  intros N F. assert (K : forall k, In k (map fst entries) -> exists f, In f (map fst i) /\ In (f, k) field_keys).
  { clear N. induction F as [|[f v] [k o] i es [K X] F IH]; cbn; [tauto|]. intros k' [<-|I]; [eauto|]. destruct (IH k' I) as (f' & A & B). eauto. }
  constructor.
  - intro I. destruct (K _ I) as (f & _ & J). apply (in_map snd) in J. exact (no_type_key _ J eq_refl).
  - clear K. induction F as [|[f v] [k o] i es [K X] F IH]; [constructor|]. cbn [map fst] in *. apply NoDup_cons_iff in N as [N1 N2]. constructor; [|auto].
    intro I. apply N1. clear -I K F. induction F as [|[f' v'] [k' o'] i es [K' X'] F IH]; [destruct I|]. cbn [map fst] in *. destruct I as [->|I].
    + left. exact (key_field _ _ _ K' K).
    + right. auto.
Qed.
Lemma forall2_and_l {A B} (P : A -> Prop) (R Q : A -> B -> Prop) l m : Forall P l -> Forall2 R l m -> (forall a b, P a -> R a b -> Q a b) -> Forall2 Q l m.
Proof. intros F G H. induction G; [constructor|]. inversion F; subst. constructor; auto. Qed.
Lemma shown_field v : Sound v -> forall o, Shown v o -> JsonldFacts.Field (object_of v) o.
Proof.
  induction v using pyval_all_ind; intros S0 o H0.
  - inversion H0; subst. apply field_none.
  - inversion H0; subst. destruct b; [right; split; [reflexivity|eexists; split; reflexivity]|left; split; reflexivity].
  - inversion H0; subst. apply field_number.
  - inversion S0.
  - inversion H0; subst. apply field_text.
  - inversion H0; subst. right. split; [reflexivity|]. eexists. split; [|reflexivity]. cbn. rewrite H1. reflexivity.
  - inversion S0.
  - inversion S0 as [| | | | |l' F| | | |]; subst l'. inversion H0 as [| | | | |l' os G| | | |]; subst l'. clear S0 H0.
    assert (X : Forall2 (fun v o => JsonldFacts.Field (object_of v) o) l os).
    { apply (forall2_and_l (fun v => (Sound v -> forall o, Shown v o -> JsonldFacts.Field (object_of v) o) /\ Sound v) Shown); [|exact G|intros a b [A B] C; auto].
      clear -H F. induction H; inversion F; subst; constructor; auto. }
    cbn [object_of]. destruct l as [|v l]; [left; split; reflexivity|]. right. split; [reflexivity|]. eexists. split; [|reflexivity].
    rewrite convert_list, (items_shown _ _ X). reflexivity.
  - inversion S0.
  - inversion H0; subst. left. split; reflexivity.
  - inversion H0 as [| | | | | | |c' words n w I W|s|d i' es I G]; subst.
    + right. pose proof (member_object _ _ n I) as E. unfold member in *. rewrite E. split; [reflexivity|]. eexists. split; [|reflexivity]. cbn.
      destruct (words_in _ _ I) as (_ & X & _). rewrite (X _ _ W). reflexivity.
    + right. pose proof (version_object s) as E. unfold version in *. rewrite E. split; [reflexivity|]. eexists. split; reflexivity.
    + rewrite (class_object _ _ I). right. split; [reflexivity|]. eexists. split; [|reflexivity].
      assert (Y : NoDup (map fst i) /\ Forall (fun fv => Sound (snd fv)) i).
      { inversion S0 as [| | | | | | |c' words n I' W E|s E|d' ps i' I' P N T F E]; subst.
        - exfalso. destruct (words_in _ _ I') as (X & _). pose proof class_names as K. rewrite forallb_forall in K. specialize (K d I).
          rewrite X in K. discriminate.
        - exfalso. pose proof class_names as K. rewrite forallb_forall in K. specialize (K d I). match goal with E : _ = d_name d |- _ => rewrite <- E in K end. discriminate.
        - split; [|exact F]. exact (names_nodup _ _ I' N). }
      destruct Y as [N F]. apply object_fields.
      * apply fields_shown.
        apply (forall2_and_l (fun fv : pystr * pyval => (Sound (snd fv) -> forall o, Shown (snd fv) o -> JsonldFacts.Field (object_of (snd fv)) o) /\ Sound (snd fv)) _ _ _ _) with (2 := G);
          [clear -H F; induction H; inversion F; subst; constructor; auto|]. intros a b [A B] [C D]. split; [exact C|]. auto.
      * exact (keys_distinct Shown _ _ N G).
Qed.

(** ** All or nothing *)
Lemma sound_object c i : Sound (VObj c i) ->
  (exists words n, In (c, words) enumeration_words /\ In n (map fst words) /\ VObj c i = member c n)
  \/ (exists s, VObj c i = version s)
  \/ (exists d ps, In d classes3 /\ d_init d = Some ps /\ c = d_name d /\ FieldNames d (map fst i) /\ Forall (fun fv => Sound (snd fv)) i).
Proof.
  intro S0. inversion S0 as [| | | | | | |c' words n I' W E|s E|d' ps i' I' P N T F E]; subst.
  - left. exists words, n. auto.
  - right. left. exists s. reflexivity.
  - right. right. exists d', ps. auto.
Qed.
Lemma forall_or {A B} (R : A -> B -> Prop) (Q : A -> Prop) l : Forall (fun a => (exists b, R a b) \/ Q a) l -> (exists m, Forall2 R l m) \/ Exists Q l.
Proof.
  induction 1 as [|a l [[b H]|H] F IH]; [left; exists []; constructor| |].
  - destruct IH as [[m M]|E]; [left; exists (b :: m); constructor; assumption|right; apply Exists_cons_tl; exact E].
  - right. apply Exists_cons_hd. exact H.
Qed.
Lemma shown_or v : Sound v -> (exists o, Shown v o) \/ (exists x, Inside x v /\ Unwritable x).
Proof.
  induction v using pyval_all_ind; intro S0; try (inversion S0; fail).
  - left. eexists. constructor.
  - left. eexists. constructor.
  - left. eexists. constructor.
  - left. eexists. constructor.
  - destruct (datetime_to_iso_string d) as [s|e] eqn:E; [left; eexists; constructor; exact E|]. right. exists (VDatetime d). split; [constructor|].
    cbn. intros [s X]. congruence.
  - inversion S0 as [| | | | |l' F| | | |]; subst l'.
    destruct (forall_or Shown (fun v => exists x, Inside x v /\ Unwritable x) l) as [[os O]|X].
    + clear S0. induction H; inversion F; subst; constructor; auto.
    + left. eexists. constructor. exact O.
    + right. apply Exists_exists in X as (v & I & x & J & U). exists x. split; [exact (in_list x l v I J)|exact U].
  - destruct l; [left; eexists; constructor|]. right. eexists. split; [constructor|exact Logic.I].
  - destruct (sound_object _ _ S0) as [(words & n & I & W & E)|[(s & E)|(d & ps & I & P & -> & N & F)]].
    + rewrite E. apply in_map_iff in W as ([n' w] & E' & W). cbn in E'. subst n'. left. eexists. exact (sh_member c words n w I W).
    + rewrite E. left. eexists. constructor.
    + destruct (forall_or (fun fv (ko : pystr * option json) => In (fst fv, fst ko) field_keys /\ Shown (snd fv) (snd ko))
                  (fun fv : pystr * pyval => exists x, Inside x (snd fv) /\ Unwritable x) i) as [[es O]|X].
      * assert (K : forall fv, In fv i -> exists k, In (fst fv, k) field_keys) by (intros fv J; apply (names_keys d _ _ I N), in_map; exact J).
        clear S0 N. induction H as [|[f v] i X H IH]; [constructor|]. inversion F; subst. constructor; [|apply IH; [assumption|intros; apply K; right; assumption]].
        cbn [fst snd] in *. destruct (K (f, v) (or_introl eq_refl)) as [k J]. cbn in J. destruct (X ltac:(assumption)) as [[o O]|U]; [left; exists (k, o); auto|right; exact U].
      * left. eexists. exact (sh_object d i es I O).
      * right. apply Exists_exists in X as ([f v] & J & x & J' & U). exists x. split; [exact (in_field x _ i f v J J')|exact U].
Qed.
Lemma items_raises l x e : In x l -> xtruthy x = true -> convert_to_json_ld x = Raise e -> exists e', items l = Raise e'.
Proof.
  induction l as [|y l IH]; cbn [In items]; [tauto|]. intros [I|I] T C.
  - subst y. rewrite T, C. cbn. eauto.
  - destruct (IH I T C) as [e' E]. destruct (xtruthy y); [|eauto]. destruct (convert_to_json_ld y); cbn; [|eauto]. rewrite E. cbn. eauto.
Qed.
Lemma unwritable_raises x v : Inside x v -> Sound v -> Unwritable x -> xtruthy (object_of v) = true /\ exists e, convert_to_json_ld (object_of v) = Raise e.
Proof.
  induction 1 as [|l v I J IH|c i f v I J IH]; intros S0 U.
  - destruct x; try (exfalso; exact U).
    + split; [reflexivity|]. cbn [object_of]. cbn. destruct (datetime_to_iso_string d) as [s|e] eqn:E; [|cbn; eauto]. exfalso. apply U. exists s. exact E.
    + destruct kvs as [|kv l]; [destruct U|]. split; [reflexivity|]. cbn. eauto.
  - inversion S0 as [| | | | |l' F| | | |]; subst l'. rewrite Forall_forall in F. destruct (IH (F v I) U) as [T [e E]]. split.
    + destruct l; [destruct I|reflexivity].
    + cbn [object_of]. rewrite convert_list. destruct (items_raises (map object_of l) (object_of v) e (in_map object_of l v I) T E) as [e' X].
      destruct (map object_of l) eqn:M; [destruct l; [destruct I|discriminate]|]. rewrite X. cbn. eauto.
  - destruct (sound_object _ _ S0) as [(words & n & I' & W & E)|[(s & E)|(d & ps & I' & P & -> & N & F)]].
    + exfalso. unfold member in E. injection E as ->. destruct I as [I|[]]. assert (v = VStr n) by congruence. subst v. inversion J; subst. exact U.
    + exfalso. unfold version in E. injection E as -> ->. destruct I as [I|[]]. assert (v = VStr s) by congruence. subst v. inversion J; subst. exact U.
    + rewrite Forall_forall in F. destruct (IH (F _ I) U) as [T [e E]]. rewrite (class_object _ _ I'). split; [reflexivity|].
      apply (object_raises (d_name d) _ ($"_" ++ f) (object_of v) e); [|exact T|exact E]. apply in_map_iff. exists (f, v). auto.
Qed.

(** an element is written exactly as it is shown *)
Lemma element_shown c i j : Sound (VObj c i) -> (convert_to_json_ld (object_of (VObj c i)) = Ok j <-> Shown (VObj c i) (Some j)).
Proof.
  intro S0. split.
  - intro C. destruct (shown_or _ S0) as [[o O]|(x & J & U)].
    + destruct (shown_field _ S0 _ O) as [[T E]|[T (j' & C' & E)]].
      * exfalso. cbn [object_of] in T. destruct (str_in c _); [discriminate T|]. destruct (str_eqb c _); discriminate T.
      * assert (j' = j) by congruence. subst. exact O.
    + destruct (unwritable_raises _ _ J S0 U) as [_ [e E]]. congruence.
  - intro O. destruct (shown_field _ S0 _ O) as [[T E]|[T (j' & C' & E)]]; [discriminate E|]. congruence.
Qed.
Lemma element_written c i : Sound (VObj c i) ->
  ((exists j, convert_to_json_ld (object_of (VObj c i)) = Ok j) <-> forall x, Inside x (VObj c i) -> ~ Unwritable x).
Proof.
  intro S0. split.
  - intros [j C] x J U. destruct (unwritable_raises _ _ J S0 U) as [_ [e E]]. congruence.
  - intro H. destruct (shown_or _ S0) as [[o O]|(x & J & U)]; [|exfalso; exact (H x J U)].
    destruct (shown_field _ S0 _ O) as [[T E]|[T (j' & C' & E)]]; [|eauto].
    exfalso. cbn [object_of] in T. destruct (str_in c _); [discriminate T|]. destruct (str_eqb c _); discriminate T.
Qed.
Definition vars_error : exn := EType $"vars() argument must have __dict__ attribute".
(** what goes wrong *)
Lemma raise_cause v e : Sound v -> convert_to_json_ld (object_of v) = Raise e ->
  exists x, Inside x v /\ ((exists kv l, x = VDict (kv :: l) /\ exists m, e = EType m) \/ exists d, x = VDatetime d /\ datetime_to_iso_string d = Raise e).
Proof.
  revert e. induction v using pyval_all_ind; intros err S0 C; try (inversion S0; fail).
  - discriminate C.
  - destruct b; discriminate C.
  - cbn in C. destruct z; discriminate C.
  - cbn in C. destruct s; discriminate C.
  - exists (VDatetime d). split; [constructor|]. right. exists d. split; [reflexivity|]. cbn in C. destruct (datetime_to_iso_string d); [discriminate C|]. cbn in C. congruence.
  - inversion S0 as [| | | | |l' F| | | |]; subst l'. cbn [object_of] in C. rewrite convert_list in C.
    assert (X : items (map object_of l) = Raise err).
    { destruct (map object_of l) as [|p m]; [discriminate C|]. destruct (items (p :: m)); [discriminate C|]. cbn in C. congruence. }
    clear C S0. assert (Y : exists v, In v l /\ Sound v /\ convert_to_json_ld (object_of v) = Raise err).
    { clear H. induction l as [|v l IH]; [discriminate X|]. inversion F; subst. cbn [map items] in X. destruct (xtruthy (object_of v)).
      - destruct (convert_to_json_ld (object_of v)) eqn:C; cbn [bind] in X.
        + destruct (items (map object_of l)) eqn:J; [discriminate X|]. cbn [bind] in X. destruct (IH ltac:(assumption) X) as (w & I & Y). exists w. split; [right; exact I|exact Y].
        + exists v. split; [left; reflexivity|]. split; [assumption|]. congruence.
      - destruct (IH ltac:(assumption) X) as (w & I & Y). exists w. split; [right; exact I|exact Y]. }
    destruct Y as (v & I & Sv & C). rewrite Forall_forall in H. destruct (H v I err Sv C) as (x & J & Z). exists x. split; [exact (in_list x l v I J)|exact Z].
  - destruct l as [|kv l]; [discriminate C|]. exists (VDict (kv :: l)). split; [constructor|]. left. exists kv, l. split; [reflexivity|].
    assert (C' : convert_to_json_ld (object_of (VDict (kv :: l))) = Raise vars_error) by reflexivity. exists $"vars() argument must have __dict__ attribute".
    unfold vars_error in C'. congruence.
  - destruct (sound_object _ _ S0) as [(words & n & I' & W & E)|[(s & E)|(d & ps & I' & P & -> & N & F)]].
    + exfalso. rewrite E, (member_object _ _ n I') in C. discriminate C.
    + exfalso. rewrite E, version_object in C. discriminate C.
    + rewrite (class_object _ _ I'), convert_obj in C. destruct (loop _ _) as [kvs|err'] eqn:L; [discriminate C|]. cbn [bind] in C. assert (err' = err) by congruence. subst err'.
      clear C S0 N. assert (Y : exists f v, In (f, v) i /\ Sound v /\ convert_to_json_ld (object_of v) = Raise err).
      { clear H. revert L. generalize [($"@type", JStr (d_name d))]. induction i as [|[f v] i IH]; intros acc L; [discriminate L|]. inversion F; subst. cbn [map loop fst snd] in *.
        destruct (xtruthy (object_of v)).
        - destruct (convert_to_json_ld (object_of v)) eqn:C; cbn [bind] in L.
          + destruct (IH ltac:(assumption) _ L) as (g & w & I & Y). exists g, w. split; [right; exact I|exact Y].
          + exists f, v. split; [left; reflexivity|]. split; [assumption|]. congruence.
        - destruct (IH ltac:(assumption) _ L) as (g & w & I & Y). exists g, w. split; [right; exact I|exact Y]. }
      destruct Y as (f & v & I & Sv & C). rewrite Forall_forall in H. destruct (H (f, v) I err Sv C) as (x & J & Z). exists x. split; [exact (in_field x _ i f v I J)|exact Z].
Qed.

(** ** Payloads *)
Lemma elements_shown es js : Forall (fun v => Sound v /\ exists c i, v = VObj c i) es ->
  (convert_elements es = Ok js <-> Forall2 (fun v j => Shown v (Some j)) es js).
Proof.
  intro F. unfold convert_elements. rewrite JsonldBump.map_result_forall2. apply JsonldBump.forall2_iff. intros v j I. rewrite Forall_forall in F.
  destruct (F v I) as (S0 & c & i & ->). apply element_shown. exact S0.
Qed.

(** ** Constructors *)
Definition plain_value (v : pyval) : bool :=
  match v with VNone | VBool _ | VInt _ | VStr _ | VList [] | VDict [] => true | _ => false end.
Lemma plain_sound v : plain_value v = true -> Sound v.
Proof. destruct v as [| | | | | | |[|? ?]| |[|? ?]|]; try discriminate; intros _; constructor; constructor. Qed.
Definition plain_defaults (d : decl) : bool :=
  match d_init d with
  | None => true
  | Some ps => forallb (fun p => match p_default p with Some v => plain_value v | None => true end
                                 && match p_none p with Some v => plain_value v | None => true end) ps
  end.
Lemma defaults_plain : forallb plain_defaults classes3 = true.
Proof. vm_compute. reflexivity. Qed.
Lemma constructed_sound rs d ps kwargs v : In d classes3 -> d_init d = Some ps -> WellCalled3 ps kwargs ->
  (forall f h w, Typing3Spec.Field classes3 d f h -> Given ps kwargs f w -> Typed3 classes3 h w) -> (forall f w, In (f, w) kwargs -> Sound w) ->
  new3 classes3 rs (d_name d) kwargs = Ok v -> Sound v.
Proof.
  intros I P W T S0 C. rewrite (new_is classes3 names3 wf_classes3 d ps kwargs I P rs W) in C. destruct (rej _ _ _ _); [|discriminate C].
  assert (E : v = VObj (d_name d) (map (fun fh => (fst fh, given ps kwargs (fst fh))) (fields_of classes3 (depth classes3) d))) by congruence. subst v.
  assert (G : forall f, In f (map fst (fields_of classes3 (depth classes3) d)) -> Given ps kwargs f (given ps kwargs f)).
  { intros f J. apply (local_iff classes3 wf_classes3 d ps kwargs I P). apply (given_field classes3 wf_classes3 d ps kwargs I P). exact J. }
  apply (so_object d ps); [exact I|exact P| | |].
  - rewrite map_map. cbn [fst]. apply names_of; [exact I|]. apply (chain_any classes3 wf_classes3 (d_name d)). apply (decl_in classes3 names3). exact I.
  - intros f h w F J. apply in_map_iff in J as ([f' h'] & E & J). cbn [fst] in E. assert (f' = f /\ w = given ps kwargs f) as [-> ->] by (split; congruence).
    apply (T f h _ F). apply G. apply (in_map fst) in J. exact J.
  - apply Forall_forall. intros fv J. apply in_map_iff in J as ([f h] & <- & J). cbn [fst snd]. apply (in_map fst) in J. cbn [fst] in J. destruct (G f J) as (p & Ip & _ & E). rewrite E.
    pose proof defaults_plain as D. rewrite forallb_forall in D. specialize (D d I). unfold plain_defaults in D. rewrite P in D. rewrite forallb_forall in D.
    specialize (D p Ip). apply andb_prop in D as [D1 D2]. unfold passed.
    assert (X : Sound (match assoc (p_name p) kwargs, p_default p with Some v, _ => v | None, Some v => v | None, None => VNone end)).
    { destruct (assoc (p_name p) kwargs) as [w|] eqn:A; [apply assoc_In in A; exact (S0 _ _ A)|]. destruct (p_default p); [apply plain_sound; exact D1|constructor]. }
    destruct (match assoc (p_name p) kwargs, p_default p with Some v, _ => v | None, Some v => v | None, None => VNone end); try exact X.
    destruct (p_none p); [apply plain_sound; exact D2|constructor].
Qed.

(** ** Looking up fields *)
Lemma shown_lookup d i j : Sound (VObj (d_name d) i) -> In d classes3 -> convert_to_json_ld (object_of (VObj (d_name d) i)) = Ok j ->
  exists kvs, j = JObj kvs /\ NoDup (map fst kvs) /\ assoc $"@type" kvs = Some (JStr (d_name d))
    /\ (forall f k v, In (f, v) i -> In (f, k) field_keys -> Shown v (assoc k kvs))
    /\ (forall k, In k (map fst kvs) -> k = $"@type" \/ exists f, In f (map fst i) /\ In (f, k) field_keys).
Proof.
  intros S0 I C. apply (proj1 (element_shown _ _ _ S0)) in C. inversion C as [| | | | | | |c words n w Ic W E1 E2|s E1 E2|d' i' es I' F E1 E2].
  { exfalso. subst c. destruct (words_in _ _ Ic) as (X & _). pose proof class_names as K. rewrite forallb_forall in K. specialize (K d I). rewrite X in K. discriminate. }
  { exfalso. pose proof class_names as K. rewrite forallb_forall in K. specialize (K d I). rewrite <- E1 in K. discriminate. }
  assert (N : NoDup (map fst i)).
  { destruct (sound_object _ _ S0) as [(words & n & Ic & W & E)|[(s & E)|(d0 & ps & I0 & P & E & N & _)]].
    - unfold member in E. injection E as ->. cbn. constructor; [intros []|constructor].
    - unfold version in E. injection E as _ ->. cbn. constructor; [intros []|constructor].
    - exact (names_nodup _ _ I0 N). }
  subst i'. clear C I' E1 E2 j. pose proof (keys_distinct Shown _ _ N F) as ND.
  assert (P : forall f k v, In (f, v) i -> In (f, k) field_keys -> exists o, In (k, o) es /\ Shown v o).
  { clear -F. induction F as [|[f v] [k o] i es [K X] F IH]; intros f' k' v' J J'; [destruct J|]. cbn [fst snd] in *. destruct J as [J|J].
    - assert (f' = f /\ v' = v) as [-> ->] by (split; congruence). exists o. split; [|exact X]. left. f_equal.
      apply (assoc_in_nodup f k _ fields_nodup_keys) in K. apply (assoc_in_nodup f k' _ fields_nodup_keys) in J'. congruence.
    - destruct (IH _ _ _ J J') as (o' & O & Y). exists o'. split; [right; exact O|exact Y]. }
  assert (L : forall k o, In (k, o) es -> assoc k (present es) = o).
  { clear -ND. apply NoDup_cons_iff in ND as [_ ND]. induction es as [|[k o] es IH]; intros k' o' J; [destruct J|]. cbn [map fst] in ND. apply NoDup_cons_iff in ND as [N1 N2].
    unfold present. cbn [flat_map snd fst]. fold (present es). destruct J as [J|J].
    - assert (k' = k /\ o' = o) as [-> ->] by (split; congruence). destruct o as [j|]; cbn [app assoc]; [rewrite str_eqb_refl; reflexivity|].
      destruct (assoc k (present es)) eqn:A; [|reflexivity]. exfalso. apply N1. apply assoc_In in A. apply (in_map fst) in A. apply present_keys. exact A.
    - assert (D : k' <> k) by (intros ->; apply N1; apply (in_map fst) in J; exact J).
      destruct o as [j|]; cbn [app assoc]; [|auto]. apply str_eqb_neq in D. rewrite D. auto. }
  assert (Q : forall k, In k (map fst es) -> exists f, In f (map fst i) /\ In (f, k) field_keys).
  { clear -F. induction F as [|[f v] [k o] i es [K X] F IH]; cbn; [tauto|]. intros k' [<-|I]; [eauto|]. destruct (IH k' I) as (f' & A & B). eauto. }
  eexists. split; [reflexivity|]. change (flat_map _ es) with (present es). split; [|split; [|split]].
  - cbn [map fst]. apply NoDup_cons_iff in ND as [N1 N2]. constructor; [intro J; apply N1, present_keys; exact J|].
    clear -N2. induction es as [|[k [j|]] es IH]; [constructor| |]; cbn [map fst] in N2; apply NoDup_cons_iff in N2 as [N1 N2].
    + unfold present. cbn [flat_map snd fst app map]. constructor; [|apply IH; exact N2]. intro J. apply N1, present_keys. exact J.
    + apply IH. exact N2.
  - reflexivity.
  - intros f k v J K. destruct (P f k v J K) as (o & O & X). cbn [assoc].
    assert (D : k <> $"@type") by (apply no_type_key; apply (in_map snd) in K; exact K). apply str_eqb_neq in D. rewrite D, (L k o O). exact X.
  - cbn [map fst]. intros k [<-|J]; [left; reflexivity|]. right. apply Q, present_keys. exact J.
Qed.

(** ** A check of soundness, for examples *)
Fixpoint typedb (h : hint3) (v : pyval) : bool :=
  match h with
  | TNone => match v with VNone => true | _ => false end
  | TStr => match v with VStr _ => true | _ => false end
  | TBool => match v with VBool _ => true | _ => false end
  | TInt => match v with VInt _ | VBool _ => true | _ => false end
  | TDatetime => match v with VDatetime _ => true | _ => false end
  | TIs name => match v with VObj c _ => derives classes3 (depth classes3) c name | _ => false end
  | TOr a b => typedb a v || typedb b v
  | TList a => match v with VList l => forallb (typedb a) l | _ => false end
  | TDict a b => match v with VDict l => forallb (fun kv => typedb a (fst kv) && typedb b (snd kv)) l | _ => false end
  end.
Lemma typedb_ok h : forall v, typedb h v = true -> Typed3 classes3 h v.
Proof.
  induction h; intro v; cbn [typedb Typed3]; intro H.
  - destruct v; try discriminate. reflexivity.
  - destruct v; try discriminate. eauto.
  - destruct v; try discriminate. eauto.
  - destruct v; try discriminate; eauto.
  - destruct v; try discriminate. eauto.
  - destruct v; try discriminate. do 2 eexists. split; [reflexivity|]. exact (derives_sound classes3 _ _ _ H).
  - apply orb_prop in H as [H|H]; auto.
  - destruct v; try discriminate. eexists. split; [reflexivity|]. apply Forall_forall. rewrite forallb_forall in H. auto.
  - destruct v; try discriminate. eexists. split; [reflexivity|]. apply Forall_forall. rewrite forallb_forall in H. intros kv I. specialize (H kv I). apply andb_prop in H as [H1 H2]. auto.
Qed.
Fixpoint soundb (v : pyval) : bool :=
  match v with
  | VNone | VBool _ | VInt _ | VStr _ | VDatetime _ => true
  | VFloat _ | VLicense _ | VTuple _ => false
  | VList l => forallb soundb l
  | VDict l => forallb (fun kv => match kv with (VStr _, VStr _) => true | _ => false end) l
  | VObj c i =>
      match decl_of classes3 c with
      | Some d =>
          match d_init d with Some _ => true | None => false end
          && eqb_of (list_eq_dec str_dec) (map fst i) (map fst (fields_of classes3 (depth classes3) d))
          && forallb (fun fv => match assoc (fst fv) (fields_of classes3 (depth classes3) d) with Some h => typedb h (snd fv) | None => false end) i
          && forallb (fun fv => soundb (snd fv)) i
      | None =>
          match i with
          | [(f, VStr n)] =>
              if str_eqb c $"Version" then str_eqb f $"str"
              else str_eqb f $"name" && match assoc c enumeration_words with Some words => str_in n (map fst words) | None => false end
          | _ => false
          end
      end
  end.
Lemma soundb_ok v : soundb v = true -> Sound v.
Proof.
  induction v using pyval_all_ind; cbn [soundb]; intro B; try discriminate; try (constructor; fail).
  - constructor. clear -H B. induction H; [constructor|]. cbn [forallb] in B. apply andb_prop in B as [B1 B2]. constructor; auto.
  - constructor. apply Forall_forall. intros [k v] I. rewrite forallb_forall in B. specialize (B _ I). cbn [fst snd]. destruct k; try discriminate. destruct v; try discriminate.
    split; constructor.
  - destruct (decl_of classes3 c) as [d|] eqn:D.
    + destruct (decl_some classes3 _ _ D) as [Id <-]. apply andb_prop in B as [B B4]. apply andb_prop in B as [B B3]. apply andb_prop in B as [B1 B2].
      destruct (d_init d) as [ps|] eqn:P; [|discriminate]. unfold eqb_of in B2. destruct (list_eq_dec str_dec _ _) as [N|]; [|discriminate].
      apply (so_object d ps i Id P).
      * refine (eq_ind_r (FieldNames d) _ N). apply names_of; [exact Id|]. apply (chain_any classes3 wf_classes3 (d_name d)). exact D.
      * intros f h v F J. apply (field_iff classes3 names3 wf_classes3 d f h Id) in F. rewrite forallb_forall in B3. specialize (B3 _ J). cbn [fst snd] in B3. rewrite F in B3.
        apply typedb_ok. exact B3.
      * clear -H B4. induction H; [constructor|]. cbn [forallb] in B4. apply andb_prop in B4 as [X1 X2]. constructor; auto.
    + destruct i as [|[f v] [|]]; try discriminate; [|destruct v; discriminate]. destruct v; try discriminate. destruct (str_eqb c $"Version") eqn:E.
      * apply str_eqb_eq in E. apply str_eqb_eq in B. subst. apply so_version.
      * apply andb_prop in B as [B1 B2]. apply str_eqb_eq in B1. subst f. destruct (assoc c enumeration_words) as [words|] eqn:A; [|discriminate].
        apply assoc_In in A. apply (so_member c words s A). apply str_in_In. exact B2.
Qed.
Lemma dictionary_fails c i f kv l : Sound (VObj c i) -> In (f, VDict (kv :: l)) i -> exists e, convert_to_json_ld (object_of (VObj c i)) = Raise e.
Proof.
  intros S0 I. refine (proj2 (unwritable_raises (VDict (kv :: l)) (VObj c i) _ S0 Logic.I)). exact (in_field _ c i f _ I (in_same _)).
Qed.
