(** Lemmas for C65. *)
From Verif Require Import Py PyFacts Data Typing Typing3 Typing3Spec.
From Verif Require TypingFacts.
Import TypingFacts.

Section Table.
Context (T : list decl).
(** the chain of base classes ends within n steps *)
Fixpoint chain (n : nat) (d : decl) : bool :=
  match d_base d with
  | None => true
  | Some b => match n with O => false | S n' => match decl_of T b with Some e => chain n' e | None => false end end
  end.
Definition wf3 (d : decl) : bool :=
  chain (depth T) d && nodupb (map fst (d_fields d))
  && match d_init d with
     | Some ps => nodupb (map p_name ps) && forallb (fun fh => str_in (fst fh) (map p_name ps)) (fields_of T (depth T) d)
     | None => true
     end.
Context (HN : NoDup (map d_name T)) (HW : forall d, In d T -> wf3 d = true).
Lemma decl_in d : In d T -> decl_of T (d_name d) = Some d.
Proof.
  unfold decl_of. clear HW. revert HN. induction T as [|e l IH]; intros N I; [destruct I|]. cbn [find]. cbn [map] in N. apply NoDup_cons_iff in N as [N1 N2]. destruct I as [->|I].
  - rewrite str_eqb_refl. reflexivity.
  - destruct (str_eqb (d_name e) (d_name d)) eqn:E; [|auto]. apply str_eqb_eq in E. exfalso. apply N1. rewrite E. apply in_map. exact I.
Qed.
Lemma decl_some c d : decl_of T c = Some d -> In d T /\ d_name d = c.
Proof. unfold decl_of. intro H. apply find_some in H as [H E]. apply str_eqb_eq in E. auto. Qed.
Lemma chain_more n : forall m d, (n <= m)%nat -> chain n d = true -> chain m d = true.
Proof.
  induction n as [|n IH]; intros m d L H; destruct m as [|m]; try lia; cbn [chain] in *; destruct (d_base d); auto; try discriminate.
  destruct (decl_of T p); [|discriminate]. apply (IH m); [lia|exact H].
Qed.

(** *** Subclasses *)
Lemma derives_sound n : forall c c', derives T n c c' = true -> Derives T c c'.
Proof.
  induction n as [|n IH]; intros c c' H; cbn [derives] in H; apply orb_true_iff in H as [H|H]; try (apply str_eqb_eq in H; subst; constructor); [discriminate|].
  destruct (decl_of T c) as [d|] eqn:E; [|discriminate]. apply decl_some in E as [I <-]. destruct (d_base d) as [b|] eqn:B; [|discriminate]. eapply dr_base; eauto.
Qed.
Lemma derives_complete c c' : Derives T c c' -> forall n, (forall d, decl_of T c = Some d -> chain n d = true) -> derives T n c c' = true.
Proof.
  induction 1 as [c|d b c I B H IH]; intros n C.
  - destruct n; cbn [derives]; rewrite str_eqb_refl; reflexivity.
  - specialize (C d (decl_in d I)). destruct n as [|n]; cbn [chain] in C; rewrite B in C; [discriminate|]. cbn [derives]. rewrite (decl_in d I), B.
    rewrite IH; [apply orb_true_r|]. intros e E. rewrite E in C. exact C.
Qed.
Lemma chain_any c d : decl_of T c = Some d -> chain (depth T) d = true.
Proof. intro E. apply decl_some in E as [I _]. specialize (HW d I). unfold wf3 in HW. apply andb_prop in HW as [H _]. apply andb_prop in H as [H _]. exact H. Qed.
Lemma derives_iff c c' : derives T (depth T) c c' = true <-> Derives T c c'.
Proof. split; [apply derives_sound|]. intro H. apply derives_complete; [exact H|]. intros d E. exact (chain_any c d E). Qed.

(** *** The type checker *)
Lemma accepts3_scalar r h v : scalar3 h -> accepts3 T r h v = true <-> Typed3 T h v.
Proof.
  revert v. induction h as [| | | | |name|a IHa b IHb|a IHa|a IHa b IHb]; intros v S; cbn [accepts3 Typed3].
  - destruct v; split; intro H; try discriminate; auto.
  - destruct v; split; intro H; try discriminate; try (destruct H; discriminate); eauto.
  - destruct v; split; intro H; try discriminate; try (destruct H; discriminate); eauto.
  - destruct v; split; intro H; try discriminate; eauto; destruct H as [[? H]|[? H]]; discriminate.
  - destruct v; split; intro H; try discriminate; try (destruct H; discriminate); eauto.
  - destruct v; split; intro H; try discriminate; try (destruct H as (? & ? & H & _); discriminate).
    + exists cls, fields. split; [reflexivity|]. apply derives_iff. exact H.
    + destruct H as (c & fs & E & D). injection E as <- <-. apply derives_iff. exact D.
  - cbn in S. rewrite orb_true_iff, IHa, IHb by tauto. reflexivity.
  - destruct S.
  - destruct S.
Qed.
Lemma typed_accepts3 h v : Typed3 T h v -> forall r, accepts3 T r h v = true.
Proof.
  revert v. induction h as [| | | | |name|a IHa b IHb|a IHa|a IHa b IHb]; intros v H r; try (apply accepts3_scalar; [exact I|exact H]).
  - cbn in *. apply orb_true_iff. destruct H as [H|H]; [left; apply IHa|right; apply IHb]; exact H.
  - cbn in H. destruct H as (l & -> & F). cbn [accepts3]. destruct l as [|x l]; [reflexivity|]. apply IHa. rewrite Forall_forall in F. apply F. apply nth_In, Nat.mod_upper_bound. discriminate.
  - cbn in H. destruct H as (l & -> & F). cbn [accepts3]. destruct l as [|x l]; [reflexivity|]. destruct (ch_dict r) as [i|]; [|reflexivity]. rewrite Forall_forall in F.
    destruct (F (nth (i mod List.length (x :: l)) (x :: l) x)) as [A B]; [apply nth_In, Nat.mod_upper_bound; discriminate|]. apply andb_true_intro. split; [apply IHa, A|apply IHb, B].
Qed.

(** *** Fields *)
Lemma fold_assoc own : forall inh f, NoDup (map fst own) ->
  assoc f (fold_left (fun l (fh : pystr * hint3) => dict_set (fst fh) (snd fh) l) own inh) = match assoc f own with Some h => Some h | None => assoc f inh end.
Proof.
  induction own as [|[k h] own IH]; intros inh f N; [reflexivity|]. cbn [fold_left fst snd assoc]. cbn [map fst] in N. apply NoDup_cons_iff in N as [N1 N2]. rewrite IH by exact N2.
  destruct (str_eqb f k) eqn:E.
  - apply str_eqb_eq in E. subst k. assert (A : assoc f own = None) by (destruct (assoc f own) eqn:A; [|reflexivity]; exfalso; apply N1; apply assoc_In in A; apply (in_map fst) in A; exact A).
    rewrite A. apply dict_set_same.
  - destruct (assoc f own); [reflexivity|]. apply dict_set_other. apply str_eqb_neq. exact E.
Qed.
Lemma dict_set_nodup {A} k (v : A) l : NoDup (map fst l) -> NoDup (map fst (dict_set k v l)).
Proof.
  induction l as [|[k' v'] l IH]; cbn [dict_set map fst]; intro N; [constructor; [intros []|constructor]|]. destruct (str_eqb k k') eqn:E; [exact N|]. cbn [map fst].
  apply NoDup_cons_iff in N as [N1 N2]. constructor; [|auto]. intro I. apply N1. clear -I E. induction l as [|[k0 v0] l IH]; cbn [dict_set map fst In] in *.
  - destruct I as [->|[]]. rewrite str_eqb_refl in E. discriminate.
  - destruct (str_eqb k k0) eqn:E0; [exact I|]. cbn [map fst In] in I. tauto.
Qed.
Lemma fold_nodup own : forall inh, NoDup (map fst inh) -> NoDup (map fst (fold_left (fun l (fh : pystr * hint3) => dict_set (fst fh) (snd fh) l) own inh)).
Proof. induction own as [|[k h] own IH]; intros inh N; [exact N|]. apply IH, dict_set_nodup, N. Qed.
Lemma own_nodup d : In d T -> NoDup (map fst (d_fields d)).
Proof. intro I. specialize (HW d I). unfold wf3 in HW. apply andb_prop in HW as [H _]. apply andb_prop in H as [_ H]. apply nodupb_ok, H. Qed.
Lemma fields_nodup n : forall d, NoDup (map fst (fields_of T n d)).
Proof.
  induction n as [|n IH]; intro d; cbn [fields_of]; apply fold_nodup; destruct (d_base d); try constructor. destruct (decl_of T p); [apply IH|constructor].
Qed.
Lemma fields_iff n : forall d, In d T -> chain n d = true -> forall f h, assoc f (fields_of T n d) = Some h <-> Field T d f h.
Proof.
  induction n as [|n IH]; intros d I C f h; cbn [fields_of chain] in *; rewrite (fold_assoc _ _ _ (own_nodup d I)).
  - destruct (d_base d) eqn:B; [discriminate|]. cbn [assoc]. split.
    + intro H. apply fd_own. destruct (assoc f (d_fields d)) eqn:A; [injection H as <-; apply assoc_In; exact A|discriminate].
    + intro F. inversion F as [d0 f0 h0 H|d0 e f0 h0 H B' X Y]; subst; [|congruence]. rewrite (assoc_in_nodup f h _ (own_nodup _ I) H). reflexivity.
  - split.
    + intro H. destruct (assoc f (d_fields d)) eqn:A; [injection H as <-; apply fd_own, assoc_In; exact A|].
      destruct (d_base d) as [b|] eqn:B; [|discriminate]. destruct (decl_of T b) as [e|] eqn:E; [|discriminate]. destruct (decl_some _ _ E) as [Ie <-].
      eapply fd_inherited; eauto; [|apply IH; auto]. intro K. apply in_map_iff in K as ([f' h'] & K & K'). cbn in K. subst f'. rewrite (assoc_in_nodup f h' _ (own_nodup d I) K') in A. discriminate.
    + intro F0. inversion F0 as [d0 f0 h0 H|d0 e f0 h0 H B Ie F]; subst; [rewrite (assoc_in_nodup f h _ (own_nodup _ I) H); reflexivity|].
      destruct (assoc f (d_fields d)) eqn:A; [exfalso; apply H; apply assoc_In in A; apply (in_map fst) in A; exact A|]. rewrite B in *. rewrite (decl_in e Ie) in *. apply IH; auto.
Qed.
Lemma field_iff d f h : In d T -> assoc f (fields_of T (depth T) d) = Some h <-> Field T d f h.
Proof. intro I. apply fields_iff; [exact I|]. apply (chain_any (d_name d)). apply decl_in. exact I. Qed.

(** *** Calls *)
Lemma bind_ok3 kwargs : forall ps, (forall p, In p ps -> p_default p = None -> In (p_name p) (map fst kwargs)) ->
  bind_params3 ps kwargs = Ok (map (fun p => (p_name p, passed p kwargs)) ps).
Proof.
  induction ps as [|p ps IH]; intro H; [reflexivity|]. cbn [bind_params3 map]. rewrite IH by (intros q I; apply H; right; exact I).
  unfold passed. destruct (assoc (p_name p) kwargs) as [v|] eqn:E; [reflexivity|].
  destruct (p_default p) as [v|] eqn:D; [reflexivity|]. exfalso. specialize (H p (or_introl eq_refl) D). apply in_map_iff in H as ([k v] & K & H). cbn in K. subst k.
  clear -E H. induction kwargs as [|[k' v'] l IH]; [destruct H|]. cbn [assoc] in E. destruct (str_eqb (p_name p) k') eqn:S; [discriminate|]. destruct H as [H|H]; [|auto]. injection H as -> ->. rewrite str_eqb_refl in S. discriminate.
Qed.
Lemma bind_missing3 kwargs : forall ps r, bind_params3 ps kwargs = Ok r -> forall p, In p ps -> p_default p = None -> In (p_name p) (map fst kwargs).
Proof.
  induction ps as [|q ps IH]; intros r E p I D; [destruct I|]. cbn [bind_params3] in E. destruct I as [->|I].
  - destruct (assoc (p_name p) kwargs) as [v|] eqn:A; [apply assoc_In in A; apply (in_map fst) in A; exact A|]. rewrite D in E. discriminate.
  - destruct (match assoc (p_name q) kwargs with Some v => Ok v | None => _ end) as [v|e]; [|discriminate]. cbn [bind] in E. destruct (bind_params3 ps kwargs) as [l|e] eqn:B; [|discriminate]. eapply IH; eauto.
Qed.
Lemma bind_error3 kwargs : forall ps e, bind_params3 ps kwargs = Raise e -> exists m, e = EType m.
Proof.
  induction ps as [|q ps IH]; intros e E; [discriminate|]. cbn [bind_params3] in E.
  destruct (assoc (p_name q) kwargs) as [v|]; [|destruct (p_default q) as [v|]; [|cbn [bind] in E; injection E as <-; eauto]];
    cbn [bind] in E; (destruct (bind_params3 ps kwargs) as [r'|e'] eqn:Er; [discriminate E|injection E as <-; eapply IH; eauto]).
Qed.
Theorem ill_called3 rs d ps kwargs : In d T -> d_init d = Some ps -> ~ WellCalled3 ps kwargs -> exists m, new3 T rs (d_name d) kwargs = Raise (EType m).
Proof.
  intros I P H. unfold new3. rewrite (decl_in d I), P. destruct (filter _ kwargs) as [|kv l] eqn:Ef; [|eexists; reflexivity].
  destruct (bind_params3 ps kwargs) as [r|e] eqn:Eb; [|destruct (bind_error3 _ _ _ Eb) as (m & ->); eexists; reflexivity].
  exfalso. apply H. split; [|apply (bind_missing3 kwargs ps r Eb)]. intros k Ik. apply in_map_iff in Ik as ([k' v] & K & Ik). cbn in K. subst k'.
  destruct (str_in k (map p_name ps)) eqn:S; [apply str_in_In; exact S|]. exfalso.
  assert (F : In (k, v) (filter (fun kv : pystr * pyval => negb (str_in (fst kv) (map p_name ps))) kwargs)) by (apply filter_In; split; [exact Ik|cbn; rewrite S; reflexivity]).
  rewrite Ef in F. destruct F.
Qed.
Theorem abstract3 rs d kwargs : In d T -> d_init d = None -> exists m, new3 T rs (d_name d) kwargs = Raise (EType m).
Proof. intros I P. unfold new3. rewrite (decl_in d I), P. eexists. reflexivity. Qed.

(** the fields that are rejected *)
Fixpoint rej (rs : nat -> choice) (fs : list (pystr * hint3)) (g : pystr -> pyval) : list pystr :=
  match fs with
  | [] => []
  | (f, h) :: fs' => (if accepts3 T (rs O) h (g f) then [] else [f]) ++ rej (fun k => rs (S k)) fs' g
  end.
Lemma rej_in fs g : forall rs f, In f (rej rs fs g) -> exists h r, In (f, h) fs /\ accepts3 T r h (g f) = false.
Proof.
  induction fs as [|[f h] fs IH]; intros rs f' H; [destruct H|]. cbn [rej] in H. apply in_app_iff in H as [H|H].
  - destruct (accepts3 T (rs O) h (g f)) eqn:A; [destruct H|]. destruct H as [<-|[]]. exists h, (rs O). split; [left; reflexivity|exact A].
  - destruct (IH _ _ H) as (h' & r & I & A). exists h', r. split; [right; exact I|exact A].
Qed.
Lemma rej_scalar fs g : forall rs f h, In (f, h) fs -> (forall r, accepts3 T r h (g f) = false) -> In f (rej rs fs g).
Proof.
  induction fs as [|[f h] fs IH]; intros rs f' h' H A; [destruct H|]. cbn [rej]. apply in_app_iff. destruct H as [H|H].
  - injection H as -> ->. left. rewrite A. left. reflexivity.
  - right. eapply IH; eauto.
Qed.
Lemma rej_sub fs g : forall rs f, In f (rej rs fs g) -> In f (map fst fs).
Proof. intros rs f H. destruct (rej_in _ _ _ _ H) as (h & _ & I & _). apply (in_map fst) in I. exact I. Qed.
Lemma rej_nodup fs g : forall rs, NoDup (map fst fs) -> NoDup (rej rs fs g).
Proof.
  induction fs as [|[f h] fs IH]; intros rs N; [constructor|]. cbn [rej]. cbn [map fst] in N. apply NoDup_cons_iff in N as [N1 N2]. destruct (accepts3 T (rs O) h (g f)); [apply IH, N2|].
  cbn [app]. constructor; [|apply IH, N2]. intro H. apply N1. eapply rej_sub. exact H.
Qed.
Lemma rej_none fs g : forall rs, rej rs fs g = [] -> forall f h, In (f, h) fs -> exists r, accepts3 T r h (g f) = true.
Proof.
  induction fs as [|[f h] fs IH]; intros rs H f' h' I; [destruct I|]. cbn [rej] in H. apply app_eq_nil in H as [H1 H2]. destruct I as [I|I]; [|eapply IH; eauto].
  injection I as -> ->. exists (rs O). destruct (accepts3 T (rs O) h' (g f')); [reflexivity|discriminate].
Qed.
Lemma loop3 cls all locals g (Hg : forall f, In f (map fst all) -> assoc f locals = Some (g f)) : forall fs rs i errors,
  (forall f h, In (f, h) fs -> assoc f all = Some h) -> NoDup (map fst fs) -> (forall f, In f (map fst fs) -> ~ In f (map fst i)) ->
  set_values3 T rs cls all fs locals i errors =
  match errors ++ map (setter_message cls) (rej rs fs g) with
  | [] => Ok (i ++ map (fun fh => (fst fh, g (fst fh))) fs)
  | l => Raise (EConstructor l)
  end.
Proof.
  induction fs as [|[f h] fs IH]; intros rs i errors H N F.
  - cbn [set_values3 rej map]. rewrite !app_nil_r. destruct errors; reflexivity.
  - cbn [set_values3 rej map fst]. pose proof (H f h (or_introl eq_refl)) as A. assert (If : In f (map fst all)) by (apply assoc_In in A; apply (in_map fst) in A; exact A).
    rewrite (Hg f If). unfold set_field3. rewrite A. cbn [map fst] in N. apply NoDup_cons_iff in N as [N1 N2]. destruct (accepts3 T (rs O) h (g f)) eqn:B.
    + rewrite dict_set_new by (apply F; left; reflexivity). rewrite IH; [|intros f' h' I; apply H; right; exact I|exact N2|].
      * cbn [app]. destruct (errors ++ _); [|reflexivity]. rewrite <- app_assoc. reflexivity.
      * intros f' I K. rewrite map_app in K. apply in_app_iff in K as [K|[<-|[]]]; [|apply N1; exact I]. apply (F f'); [right; exact I|exact K].
    + rewrite IH; [|intros f' h' I; apply H; right; exact I|exact N2|intros f' I; apply F; right; exact I].
      cbn [app map]. rewrite <- app_assoc. cbn [app]. destruct (errors ++ setter_message cls f :: _) eqn:E; [destruct errors; discriminate|]. reflexivity.
Qed.

Context (d : decl) (ps : list param3) (kwargs : list (pystr * pyval)) (I : In d T) (HP : d_init d = Some ps).
Local Notation fs := (fields_of T (depth T) d).
Lemma init_wf : NoDup (map p_name ps) /\ forall f, In f (map fst fs) -> In f (map p_name ps).
Proof.
  pose proof (HW d I) as W. unfold wf3 in W. rewrite HP in W. apply andb_prop in W as [_ W]. apply andb_prop in W as [W1 W2]. split; [apply nodupb_ok, W1|].
  intros f H. apply in_map_iff in H as (fh & <- & H). rewrite forallb_forall in W2. apply str_in_In, W2, H.
Qed.
Definition locals : list (pystr * pyval) := map (fun p => (p_name p, passed p kwargs)) ps.
Definition given (f : pystr) : pyval := match assoc f locals with Some v => v | None => VNone end.
Lemma local_iff f v : assoc f locals = Some v <-> Given ps kwargs f v.
Proof.
  assert (N : NoDup (map fst locals)) by (unfold locals; rewrite map_map; exact (proj1 init_wf)). split.
  - intro H. apply assoc_In in H. apply in_map_iff in H as (p & E & H). injection E as <- <-. exists p. auto.
  - intros (p & Ip & <- & ->). apply assoc_in_nodup; [exact N|]. apply in_map_iff. exists p. auto.
Qed.
Lemma given_field f : In f (map fst fs) -> assoc f locals = Some (given f).
Proof.
  intro H. apply (proj2 init_wf) in H. apply in_map_iff in H as (p & <- & Ip). unfold given.
  assert (E : assoc (p_name p) locals = Some (passed p kwargs)) by (apply local_iff; exists p; auto). rewrite E. reflexivity.
Qed.
Lemma given_unique f v : Given ps kwargs f v -> given f = v.
Proof. intro H. apply local_iff in H. unfold given. rewrite H. reflexivity. Qed.
Lemma field_in f h : In (f, h) fs <-> Field T d f h.
Proof. rewrite <- (field_iff d f h I). split; [apply assoc_in_nodup, fields_nodup|apply assoc_In]. Qed.
Lemma new_is rs : WellCalled3 ps kwargs ->
  new3 T rs (d_name d) kwargs = match rej rs fs given with
                                | [] => Ok (VObj (d_name d) (map (fun fh => (fst fh, given (fst fh))) fs))
                                | l => Raise (EConstructor (map (setter_message (d_name d)) l))
                                end.
Proof.
  intros [W1 W2]. unfold new3. rewrite (decl_in d I), HP.
  assert (F : filter (fun kv : pystr * pyval => negb (str_in (fst kv) (map p_name ps))) kwargs = []).
  { destruct (filter _ kwargs) as [|kv l] eqn:E; [reflexivity|]. assert (K : In kv (kv :: l)) by (left; reflexivity). rewrite <- E in K. apply filter_In in K as [K K'].
    apply (in_map fst), W1, str_in_In in K. rewrite K in K'. discriminate. }
  rewrite F, (bind_ok3 kwargs ps W2). cbn [bind]. rewrite (loop3 (d_name d) fs (map (fun p => (p_name p, passed p kwargs)) ps) given given_field).
  - cbn [app]. destruct (rej rs fs given); reflexivity.
  - intros f h H. apply assoc_in_nodup; [apply fields_nodup|exact H].
  - apply fields_nodup.
  - intros f _ [].
Qed.
Lemma holds : Holds T d ps kwargs (map (fun fh => (fst fh, given (fst fh))) fs).
Proof.
  assert (A : forall f, assoc f (map (fun fh : pystr * hint3 => (fst fh, given (fst fh))) fs) = match assoc f fs with Some _ => Some (given f) | None => None end).
  { intro f. induction fs as [|[k h] l IH]; [reflexivity|]. cbn [map assoc fst]. destruct (str_eqb f k) eqn:E; [apply str_eqb_eq in E; subst; reflexivity|exact IH]. }
  split.
  - intros f h F. exists (given f). unfold get_field. rewrite A. apply (field_iff d f h I) in F. rewrite F. split; [reflexivity|]. apply local_iff, given_field.
    apply assoc_In in F. apply (in_map fst) in F. exact F.
  - intros f v G. unfold get_field in G. rewrite A in G. destruct (assoc f fs) as [h|] eqn:E; [|discriminate]. exists h. apply (field_iff d f h I). exact E.
Qed.
Lemma ill_iff f h : IllTyped3 T d ps kwargs f h <-> Field T d f h /\ ~ Typed3 T h (given f).
Proof.
  split.
  - intros (F & v & G & N). split; [exact F|]. rewrite (given_unique f v G). exact N.
  - intros (F & N). split; [exact F|]. exists (given f). split; [|exact N]. apply local_iff, given_field. apply field_in in F. apply (in_map fst) in F. exact F.
Qed.
Theorem outcome3 rs : WellCalled3 ps kwargs ->
  (exists i, new3 T rs (d_name d) kwargs = Ok (VObj (d_name d) i) /\ Holds T d ps kwargs i /\ forall f h, scalar3 h -> ~ IllTyped3 T d ps kwargs f h)
  \/ (exists l, new3 T rs (d_name d) kwargs = Raise (EConstructor (map (setter_message (d_name d)) l)) /\ l <> [] /\ NoDup l
        /\ (forall f, In f l -> exists h, IllTyped3 T d ps kwargs f h) /\ (forall f h, scalar3 h -> IllTyped3 T d ps kwargs f h -> In f l)).
Proof.
  intro W. rewrite (new_is rs W). assert (S : forall f h, scalar3 h -> IllTyped3 T d ps kwargs f h -> In f (rej rs fs given)).
  { intros f h S Q. apply ill_iff in Q as (F & N). apply (rej_scalar fs given rs f h); [apply field_in; exact F|]. intro r. destruct (accepts3 T r h (given f)) eqn:A; [|reflexivity].
    apply accepts3_scalar in A; [contradiction|exact S]. }
  destruct (rej rs fs given) as [|f0 l] eqn:R.
  - left. eexists. split; [reflexivity|]. split; [exact holds|]. intros f h Sc Q. destruct (S f h Sc Q).
  - right. exists (f0 :: l). split; [reflexivity|]. split; [discriminate|]. split; [rewrite <- R; apply rej_nodup, fields_nodup|]. split; [|exact S].
    intros f H. rewrite <- R in H. apply rej_in in H as (h & r & F & A). exists h. apply ill_iff. split; [apply field_in; exact F|]. intro Q. rewrite (typed_accepts3 _ _ Q) in A. discriminate.
Qed.
Theorem created3 rs : WellCalled3 ps kwargs -> (forall f h, ~ IllTyped3 T d ps kwargs f h) ->
  exists i, new3 T rs (d_name d) kwargs = Ok (VObj (d_name d) i) /\ Holds T d ps kwargs i.
Proof.
  intros W N. destruct (outcome3 rs W) as [(i & A & B & _)|(l & _ & L & _ & K & _)]; [eauto|]. exfalso. destruct l as [|f l]; [contradiction|]. destruct (K f (or_introl eq_refl)) as (h & Q). exact (N f h Q).
Qed.
(** *** Assignments *)
Definition kept3 (i : instance) : Prop := forall f h v, assoc f fs = Some h -> assoc f i = Some v -> exists r, accepts3 T r h v = true.
Lemma set_ok3 r f v i i' : set_field3 T r (d_name d) fs f v i = Ok i' -> exists h, assoc f fs = Some h /\ accepts3 T r h v = true /\ i' = dict_set f v i.
Proof.
  unfold set_field3. destruct (assoc f fs) as [h|]; [|discriminate]. destruct (accepts3 T r h v) eqn:A; [|discriminate]. intro H. injection H as <-. eauto.
Qed.
Lemma kept_always3 ops : forall i, kept3 i -> kept3 (assignments3 T d ops i).
Proof.
  induction ops as [|[[r f] v] ops IH]; intros i K; [exact K|]. cbn [assignments3]. apply IH. destruct (set_field3 T r (d_name d) fs f v i) as [i'|e] eqn:E; [|exact K].
  apply set_ok3 in E as (h & E & A & ->). intros f' h' v' E' V. destruct (list_eq_dec N.eq_dec f' f) as [->|N].
  - rewrite dict_set_same in V. injection V as <-. rewrite E in E'. injection E' as <-. eauto.
  - rewrite dict_set_other in V by exact N. eapply K; eassumption.
Qed.
Theorem always_typed3 rs i ops f h v : WellCalled3 ps kwargs -> new3 T rs (d_name d) kwargs = Ok (VObj (d_name d) i) ->
  Field T d f h -> scalar3 h -> get_field f (assignments3 T d ops i) = Ok v -> Typed3 T h v.
Proof.
  intros W H F Sc G. apply (field_iff d f h I) in F. assert (K : kept3 i).
  { rewrite (new_is rs W) in H. destruct (rej rs fs given) eqn:R; [|discriminate]. injection H as <-. intros f' h' v' E V. apply assoc_In in E as E'.
    apply assoc_In in V. apply in_map_iff in V as ([k h0] & V & _). injection V as -> <-. exact (rej_none fs given rs R f' h' E'). }
  assert (K' := kept_always3 ops i K). unfold get_field in G. destruct (assoc f (assignments3 T d ops i)) as [v'|] eqn:A; [|discriminate].
  injection G as ->. destruct (K' f h v F A) as (r & R). apply accepts3_scalar in R; assumption.
Qed.
Theorem setter3 r f v i i' : set_field3 T r (d_name d) fs f v i = Ok i' -> get_field f i' = Ok v /\ forall f', f' <> f -> get_field f' i' = get_field f' i.
Proof.
  intro H. apply set_ok3 in H as (h & _ & _ & ->). unfold get_field. split; [rewrite dict_set_same; reflexivity|]. intros f' N. rewrite dict_set_other by exact N. reflexivity.
Qed.
End Table.
