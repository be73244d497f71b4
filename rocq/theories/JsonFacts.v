(** Facts about JSON objects built by the converters. *)
From Verif Require Import Py Data Oracles Basics DocUtils Json Construct JsonConv JsonParse PyFacts.

(** the entries of a table of optional values that have a value *)
Fixpoint present (l : list (pystr * option json)) : list (pystr * json) :=
  match l with
  | [] => []
  | (k, Some v) :: l' => (k, v) :: present l'
  | (_, None) :: l' => present l'
  end.
Fixpoint nodupb (l : list pystr) : bool :=
  match l with [] => true | x :: l' => negb (str_in x l') && nodupb l' end.

Lemma nodupb_spec l : nodupb l = true -> NoDup l.
Proof.
  induction l as [|x l IH]; cbn; intro H; [constructor|]. apply andb_true_iff in H as [H1 H2].
  constructor; [|auto]. intro I. apply negb_true_iff in H1. apply str_in_In in I. congruence.
Qed.

Lemma assoc_app {A} k (l m : list (pystr * A)) :
  assoc k (l ++ m) = match assoc k l with Some v => Some v | None => assoc k m end.
Proof. induction l as [|[k' v] l IH]; cbn; [reflexivity|]. destruct (str_eqb k k'); auto. Qed.

Lemma dict_set_fresh {A} k (v : A) l : ~ In k (map fst l) -> dict_set k v l = l ++ [(k, v)].
Proof.
  induction l as [|[k' v'] l IH]; cbn; intro H; [reflexivity|].
  destruct (str_eqb k k') eqn:E; [apply str_eqb_eq in E; subst; tauto|]. rewrite IH by tauto. reflexivity.
Qed.

Lemma present_keys l k : In k (map fst (present l)) -> In k (map fst l).
Proof. induction l as [|[k' [v|]] l IH]; cbn; [tauto|intros [H|H]; auto|auto]. Qed.

(** The result of a converter whose property values are known. *)
Lemma convert_table name ps table :
  Forall2 (fun p t => name (fst p) = fst t /\ snd p = Ok (snd t)) ps table ->
  nodupb (map fst table) = true ->
  convert name ps = Ok (JObj (present table)).
Proof.
  intros F N. unfold convert.
  assert (E : forall acc, NoDup (map fst acc ++ map fst table) ->
              convert_loop name ps acc = Ok (acc ++ present table)).
  { clear N. induction F as [|[p r] [k o] ps table [H1 H2] _ IH]; cbn; intros acc N.
    - rewrite app_nil_r. reflexivity.
    - cbn in H1, H2. subst. cbn. destruct o as [v|].
      + rewrite dict_set_fresh by (intro I; apply NoDup_remove_2 in N; apply N, in_or_app; auto).
        rewrite IH; [rewrite <- app_assoc; reflexivity|]. rewrite map_app. cbn. rewrite <- app_assoc. exact N.
      + apply IH. apply NoDup_remove_1 in N. exact N. }
  rewrite E; [reflexivity|]. apply nodupb_spec. exact N.
Qed.

Lemma assoc_notin {A} k (l : list (pystr * A)) : ~ In k (map fst l) -> assoc k l = None.
Proof.
  induction l as [|[k' v] l IH]; cbn; [reflexivity|]. intro H.
  destruct (str_eqb k k') eqn:E; [apply str_eqb_eq in E; subst; tauto|apply IH; tauto].
Qed.
Lemma assoc_present k l : NoDup (map fst l) ->
  assoc k (present l) = match assoc k l with Some (Some v) => Some v | _ => None end.
Proof.
  induction l as [|[k' o] l IH]; cbn; intro H; [reflexivity|]. apply NoDup_cons_iff in H as [H1 H2].
  destruct (str_eqb k k') eqn:E.
  - apply str_eqb_eq in E. subst. destruct o as [v|]; cbn.
    + rewrite str_eqb_refl. reflexivity.
    + apply assoc_notin. intro I. apply present_keys in I. tauto.
  - destruct o as [v|]; cbn; [rewrite E|]; auto.
Qed.

Definition oj (o : option json) : json := match o with Some v => v | None => JNull end.
Definition oj_default (dflt : json) (o : option json) : json := match o with Some v => v | None => dflt end.
Lemma jget_default_present k dflt l : nodupb (map fst l) = true ->
  jget_default k dflt (JObj (present l)) = Ok (oj_default dflt (match assoc k l with Some o => o | None => None end)).
Proof.
  intro N. cbn. rewrite assoc_present by (apply nodupb_spec; exact N). destruct (assoc k l) as [[v|]|]; reflexivity.
Qed.
Lemma jget_present k l : nodupb (map fst l) = true ->
  jget k (JObj (present l)) = Ok (oj (match assoc k l with Some o => o | None => None end)).
Proof. exact (jget_default_present k JNull l). Qed.

Lemma jget_is k l v : nodupb (map fst l) = true -> match assoc k l with Some o => o | None => None end = v ->
  jget k (JObj (present l)) = Ok (oj v).
Proof. intros N <-. apply jget_present. exact N. Qed.
Lemma jget_default_is k dflt l v : nodupb (map fst l) = true -> match assoc k l with Some o => o | None => None end = v ->
  jget_default k dflt (JObj (present l)) = Ok (oj_default dflt v).
Proof. intros N <-. apply jget_default_present. exact N. Qed.
Lemma step {A B} (r : result A) a (f : A -> result B) res : r = Ok a -> f a = res -> bind r f = res.
Proof. intros -> H. exact H. Qed.

(** resolve one lookup in a table whose values are variables *)
Ltac lookup :=
  match goal with
  | |- jget ?k (JObj (present ?t)) = _ =>
      let v := eval vm_compute in (match assoc k t with Some o => o | None => None end) in
      refine (jget_is k t v _ _); vm_compute; reflexivity
  | |- jget_default ?k ?d (JObj (present ?t)) = _ =>
      let v := eval vm_compute in (match assoc k t with Some o => o | None => None end) in
      refine (jget_default_is k d t v _ _); vm_compute; reflexivity
  end.
(** run the first statement of a sequence *)
Ltac run1 := eapply step; [first [lookup | eassumption]|]; cbn beta iota zeta delta [oj oj_default].

Lemma map_result_ok {A B} (f : A -> result B) (g : A -> B) l :
  (forall x, In x l -> f x = Ok (g x)) -> map_result f l = Ok (map g l).
Proof.
  induction l as [|x l IH]; cbn; intro H; [reflexivity|]. rewrite H by auto. cbn. rewrite IH by auto. reflexivity.
Qed.
Lemma map_result_Forall2 {A B} (f : A -> result B) l r :
  map_result f l = Ok r <-> Forall2 (fun x y => f x = Ok y) l r.
Proof.
  split.
  - revert r. induction l as [|x l IH]; cbn; intros r H; [injection H as <-; constructor|].
    destruct (f x) as [y|e] eqn:E; cbn in H; [|discriminate].
    destruct (map_result f l) as [ys|e] eqn:E2; cbn in H; [|discriminate]. injection H as <-.
    constructor; auto.
  - induction 1 as [|x y l r H _ IH]; cbn; [reflexivity|]. rewrite H. cbn. rewrite IH. reflexivity.
Qed.

Lemma parse_elements_ok {A} (f : json -> result A) js l :
  Forall2 (fun j a => f j = Ok a) js l -> parse_elements (quiet f) js = Ok ([], l).
Proof. induction 1 as [|j a js l H _ IH]; cbn; [reflexivity|]. rewrite H, IH. reflexivity. Qed.
Lemma parse_elements_log_ok {A} (f : json -> list pystr * result A) js l :
  Forall2 (fun j a => f j = ([], Ok a)) js l -> parse_elements f js = Ok ([], l).
Proof. induction 1 as [|j a js l H _ IH]; cbn; [reflexivity|]. rewrite H, IH. reflexivity. Qed.

(** a list property as written by the converters and read by parse_field_or_log_error *)
Lemma parse_field_list_or_none {A} (f : json -> result A) js l :
  Forall2 (fun j a => f j = Ok a) js l ->
  parse_field_list (oj (or_none js)) f = Ok ([], match l with [] => None | _ => Some l end).
Proof.
  intro H. destruct H as [|j a js l H1 H2]; [reflexivity|].
  unfold parse_field_list, parse_field. cbn [or_none oj jtruthy truthy_list negb].
  unfold parse_list_of_elements, parse_list_of_elements_log. cbn [jiter bind].
  rewrite (parse_elements_ok f (j :: js) (a :: l)) by (constructor; assumption). reflexivity.
Qed.

Lemma all_some_map {A B} (f : A -> option B) (g : A -> B) l :
  (forall x, f x = Some (g x)) -> all_some (map f l) = Some (map g l).
Proof. intro H. induction l as [|x l IH]; cbn; [reflexivity|]. rewrite H, IH. reflexivity. Qed.
Lemma all_some_Some {A} (l : list A) : all_some (map Some l) = Some l.
Proof. induction l as [|x l IH]; cbn; [reflexivity|]. rewrite IH. reflexivity. Qed.
Lemma c_strs_or_none cls fld l : c_strs cls fld (oj_default (JArr []) (or_none (strs l))) = COk l.
Proof.
  destruct l as [|x l]; [reflexivity|]. unfold or_none, strs. cbn [map oj_default c_strs all_some j_str].
  rewrite map_map. rewrite (all_some_map _ (fun s => s)) by reflexivity. rewrite map_id. reflexivity.
Qed.
Lemma c_opt_str_opt cls fld o : c_opt_str cls fld (oj (match o with Some s => Some (JStr s) | None => None end)) = COk o.
Proof. destruct o; reflexivity. Qed.
