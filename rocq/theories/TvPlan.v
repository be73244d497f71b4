(** The order in which the tag-value writer writes the elements of a document. *)
From Verif Require Import Py PyFacts Data Oracles Basics BasicsSpec JsonConv JsonParse JsonSpec TvWriter TvSpec.
From Coq Require Import Permutation.

(** ** Writing *)
Lemma writes_app a b : writes (a ++ b) = (do x <- writes a; do y <- writes b; Ok (x ++ y)).
Proof.
  induction a as [|w a IH]; cbn [app writes].
  - cbn [bind]. destruct (writes b); reflexivity.
  - rewrite IH. destruct w; cbn [bind]; auto. destruct (writes a); cbn [bind]; auto. destruct (writes b); cbn [bind]; auto.
    rewrite app_assoc. reflexivity.
Qed.
Lemma write_each_app {A} (w : A -> result pystr) a b : write_each w (a ++ b) = (do x <- write_each w a; do y <- write_each w b; Ok (x ++ y)).
Proof. unfold write_each. rewrite map_app. apply writes_app. Qed.
Lemma write_each_cons {A} (w : A -> result pystr) a b : write_each w (a :: b) = (do x <- w a; do y <- write_each w b; Ok (x ++ y)).
Proof. reflexivity. Qed.
Lemma write_each_map {A B} (w : B -> result pystr) (g : A -> B) l : write_each w (map g l) = write_each (fun x => w (g x)) l.
Proof. unfold write_each. rewrite map_map. reflexivity. Qed.
Lemma write_each_flat {A B} (w : B -> result pystr) (g : A -> list B) l : write_each w (flat_map g l) = write_each (fun x => write_each w (g x)) l.
Proof.
  induction l as [|x l IH]; cbn [flat_map]; auto. rewrite write_each_app, write_each_cons, IH. reflexivity.
Qed.
Lemma write_each_ext {A} (w w' : A -> result pystr) l : (forall x, In x l -> w x = w' x) -> write_each w l = write_each w' l.
Proof.
  induction l as [|x l IH]; auto. intro H. rewrite !write_each_cons, (H x) by (left; auto). rewrite IH; auto. intros y Hy. apply H. right. auto.
Qed.
Lemma write_each_if {A} (p : A -> bool) (w : A -> result pystr) l :
  write_each (fun x => if p x then Ok [] else w x) l = write_each w (filter (fun x => negb (p x)) l).
Proof.
  induction l as [|x l IH]; auto. cbn [filter]. rewrite write_each_cons, IH. destruct (p x); cbn [negb].
  - cbn [bind]. destruct (write_each w _); reflexivity.
  - rewrite write_each_cons. reflexivity.
Qed.

(** ** Grouping *)
Lemma filter_split {A} (p q : A -> bool) l : (forall x, In x l -> p x && q x = false) ->
  Permutation (filter (fun x => p x || q x) l) (filter p l ++ filter q l).
Proof.
  induction l as [|x l IH]; cbn [filter]; intro H; auto. specialize (IH (fun y Hy => H y (or_intror Hy))).
  pose proof (H x (or_introl eq_refl)) as Hx. destruct (p x), (q x); try discriminate; cbn [orb app].
  - constructor. exact IH.
  - rewrite IH. apply Permutation_middle.
  - exact IH.
Qed.
Lemma group_perm {A} (key : A -> pystr) ids l : NoDup ids ->
  Permutation (flat_map (fun k => filter (fun x => str_eqb k (key x)) l) ids) (filter (fun x => str_in (key x) ids) l).
Proof.
  induction 1 as [|k ids Hk Hn IH]; cbn [flat_map].
  - induction l as [|x l IHl]; auto.
  - rewrite IH. symmetry. erewrite (filter_ext (fun x => str_in (key x) (k :: ids)) (fun x => str_eqb k (key x) || str_in (key x) ids)).
    + apply filter_split. intros x _. destruct (str_eqb k (key x)) eqn:E; auto. apply str_eqb_eq in E. cbn [andb]. apply str_in_false. rewrite <- E. exact Hk.
    + intro x. unfold str_in. cbn [existsb]. f_equal. destruct (str_eqb (key x) k) eqn:E.
      * apply str_eqb_eq in E. rewrite E, str_eqb_refl. reflexivity.
      * destruct (str_eqb k (key x)) eqn:F; auto. apply str_eqb_eq in F. rewrite F, str_eqb_refl in E. discriminate.
Qed.
Lemma filter_all {A} (p : A -> bool) l : (forall x, In x l -> p x = true) -> filter p l = l.
Proof. induction l as [|x l IH]; cbn [filter]; intro H; auto. rewrite (H x) by (left; auto). rewrite IH; auto. intros y Hy. apply H. right. auto. Qed.
Lemma filter_negb_perm {A} (p : A -> bool) l : Permutation l (filter (fun x => negb (p x)) l ++ filter p l).
Proof.
  transitivity (filter (fun x => negb (p x) || p x) l).
  - rewrite filter_all; auto. intros x _. destruct (p x); reflexivity.
  - apply filter_split. intros x _. destruct (p x); reflexivity.
Qed.

(** ** Dictionaries of lists *)
Definition lookup {A} (k : pystr) (l : list (pystr * list A)) : list A := match assoc k l with Some x => x | None => [] end.
Lemma lookup_append {A} k k' (v : A) l : lookup k' (dict_append k v l) = lookup k' l ++ (if str_eqb k k' then [v] else []).
Proof.
  unfold lookup. induction l as [|[k0 vs] l IH]; cbn [dict_append assoc].
  - destruct (str_eqb k' k) eqn:E.
    + apply str_eqb_eq in E. subst k'. rewrite str_eqb_refl. reflexivity.
    + destruct (str_eqb k k') eqn:F; auto. apply str_eqb_eq in F. subst k'. rewrite str_eqb_refl in E. discriminate.
  - destruct (str_eqb k k0) eqn:E; cbn [assoc].
    + apply str_eqb_eq in E. subst k0. destruct (str_eqb k' k) eqn:F.
      * apply str_eqb_eq in F. subst k'. rewrite str_eqb_refl. reflexivity.
      * destruct (str_eqb k k') eqn:G; [apply str_eqb_eq in G; subst k'; rewrite str_eqb_refl in F; discriminate|]. rewrite app_nil_r. reflexivity.
    + destruct (str_eqb k' k0) eqn:F; [|exact IH]. apply str_eqb_eq in F. subst k0. rewrite E, app_nil_r. reflexivity.
Qed.
Definition values {A} (l : list (pystr * list A)) : list A := List.concat (map snd l).
Lemma values_append {A} k (v : A) l x : In x (values (dict_append k v l)) <-> x = v \/ In x (values l).
Proof.
  unfold values. induction l as [|[k0 vs] l IH]; cbn [dict_append].
  - cbn. intuition.
  - destruct (str_eqb k k0); cbn [map snd List.concat]; rewrite !in_app_iff; [|rewrite IH]; cbn; intuition.
Qed.

(** ** The plan *)
Section Plan.
Variable sn : file -> list snippet.
Definition file_parts (f : file) : list part := PFile f :: map PSnippet (sn f).
Fixpoint plan_files (p : package) (fs : list file) (written : list pystr) : list file * list pystr * list relationship :=
  match fs with
  | [] => ([], written, [])
  | f :: l =>
      if str_in (fi_id f) written
      then let '(a, w, r) := plan_files p l written in (a, w, contains_rel p f :: r)
      else let '(a, w, r) := plan_files p l (written ++ [fi_id f]) in (f :: a, w, r)
  end.
Variable fs : package -> list file.
Fixpoint plan_packages (l : list package) (written : list pystr) : list part * list relationship :=
  match l with
  | [] => ([], [])
  | p :: l =>
      let '(a, w, r) := plan_files p (fs p) written in
      let '(a', r') := plan_packages l w in (PPackage p :: flat_map file_parts a ++ a', r ++ r')
  end.

Lemma plan_files_spec p l w a w' r : plan_files p l w = (a, w', r) ->
  w' = w ++ map fi_id a /\ Permutation (map (contains_rel p) l) (map (contains_rel p) a ++ r) /\ (NoDup w -> NoDup w')
  /\ (forall f, In f l -> In (fi_id f) w') /\ incl a l.
Proof.
  revert w a w' r. induction l as [|f l IH]; intros w a w' r; cbn [plan_files].
  - intro E. injection E as <- <- <-. rewrite app_nil_r. cbn. split; auto. split; auto. split; auto. split; [intros ? []|intros ? []].
  - destruct (str_in (fi_id f) w) eqn:E.
    + destruct (plan_files p l w) as [[a0 w0] r0] eqn:E0. intro K. injection K as <- <- <-. destruct (IH _ _ _ _ E0) as (H1 & H2 & H3 & H4 & H5).
      split; auto. split; [cbn [map]; rewrite H2; apply Permutation_middle|]. split; auto. split.
      * intros x [<-|Hx]; auto. apply str_in_In in E. rewrite H1. apply in_or_app. auto.
      * intros x Hx. right. auto.
    + destruct (plan_files p l (w ++ [fi_id f])) as [[a0 w0] r0] eqn:E0. intro K. injection K as <- <- <-.
      destruct (IH _ _ _ _ E0) as (H1 & H2 & H3 & H4 & H5). apply str_in_false in E.
      split; [rewrite H1, <- app_assoc; reflexivity|]. split; [cbn [map app]; constructor; exact H2|]. split.
      * intro Hw. apply H3. apply (Permutation_NoDup (l := fi_id f :: w)); [apply Permutation_cons_append|]. constructor; auto.
      * split.
        -- intros x [<-|Hx]; auto. rewrite H1. apply in_or_app. left. apply in_or_app. right. left. auto.
        -- intros x [<-|Hx]; [left; auto|right; auto].
Qed.
Lemma files_of_file_parts l : files_of (flat_map file_parts l) = l.
Proof.
  induction l as [|f l IH]; auto. unfold files_of in *. cbn [flat_map]. rewrite flat_map_app, IH. cbn [file_parts flat_map app].
  f_equal. assert (E : flat_map (fun x => match x with PFile f0 => [f0] | _ => [] end) (map PSnippet (sn f)) = []) by (induction (sn f); auto).
  rewrite E. reflexivity.
Qed.
Lemma snippets_of_map l : snippets_of (map PSnippet l) = l.
Proof. unfold snippets_of. induction l as [|s l IH]; cbn [map flat_map app]; congruence. Qed.
Lemma snippets_of_file_parts l : snippets_of (flat_map file_parts l) = flat_map sn l.
Proof.
  induction l as [|f l IH]; auto. unfold snippets_of in *. cbn [flat_map]. rewrite flat_map_app, IH. cbn [file_parts flat_map app].
  f_equal. apply snippets_of_map.
Qed.
Lemma packages_of_file_parts l : packages_of (flat_map file_parts l) = [].
Proof.
  induction l as [|f l IH]; auto. unfold packages_of in *. cbn [flat_map]. rewrite flat_map_app, IH. cbn [file_parts flat_map app]. rewrite app_nil_r.
  induction (sn f); auto.
Qed.
Lemma placed_snippets last l r : placed last (map PSnippet l ++ r) = placed last r.
Proof. induction l as [|s l IH]; auto. Qed.
Lemma placed_files last l r : placed last (flat_map file_parts l ++ r) =
  match last with Some p => map (contains_rel p) l | None => [] end ++ placed last r.
Proof.
  induction l as [|f l IH]; cbn [flat_map].
  - destruct last; reflexivity.
  - rewrite <- app_assoc. cbn [file_parts app placed]. rewrite placed_snippets, IH. destruct last; reflexivity.
Qed.
Lemma plan_packages_spec l w a r last : plan_packages l w = (a, r) ->
  packages_of a = l /\ snippets_of a = flat_map sn (files_of a)
  /\ Permutation (flat_map (fun p => map (contains_rel p) (fs p)) l) (placed last a ++ r)
  /\ (NoDup w -> NoDup (w ++ map fi_id (files_of a)))
  /\ (forall p f, In p l -> In f (fs p) -> In (fi_id f) (w ++ map fi_id (files_of a)))
  /\ (forall f, In f (files_of a) -> exists p, In p l /\ In f (fs p)).
Proof.
  revert w a r last. induction l as [|p l IH]; intros w a r last; cbn [plan_packages].
  - intro E. injection E as <- <-. cbn. split; auto. split; auto. split; auto. split; [rewrite app_nil_r; auto|]. split; [intros ? ? []|intros ? []].
  - destruct (plan_files p (fs p) w) as [[a1 w1] r1] eqn:E1. destruct (plan_packages l w1) as [a2 r2] eqn:E2. intro K. injection K as <- <-.
    apply plan_files_spec in E1 as (F1 & F2 & F3 & F4 & F5). destruct (IH _ _ _ (Some p) E2) as (G1 & G2 & G3 & G4 & G5 & G6).
    assert (Ff : files_of (PPackage p :: flat_map file_parts a1 ++ a2) = a1 ++ files_of a2).
    { unfold files_of. cbn [flat_map app]. rewrite flat_map_app. f_equal. apply files_of_file_parts. }
    rewrite Ff. split; [|split; [|split; [|split; [|split]]]].
    + unfold packages_of in *. cbn [flat_map app]. rewrite flat_map_app. pose proof (packages_of_file_parts a1) as P. unfold packages_of in P. rewrite P, G1. reflexivity.
    + unfold snippets_of in *. cbn [flat_map app]. rewrite !flat_map_app. pose proof (snippets_of_file_parts a1) as P. unfold snippets_of in P. rewrite P, G2. reflexivity.
    + cbn [placed flat_map]. rewrite placed_files, F2, G3. rewrite <- !app_assoc. apply Permutation_app_head.
      rewrite !app_assoc. apply Permutation_app_tail. apply Permutation_app_comm.
    + intro Hw. rewrite map_app, app_assoc, <- F1. auto.
    + intros q f [<-|Hq] Hf.
      * rewrite map_app, app_assoc, <- F1. apply in_or_app. left. auto.
      * rewrite map_app, app_assoc, <- F1. eapply G5; eauto.
    + intros f Hf. apply in_app_iff in Hf as [Hf|Hf].
      * exists p. split; [left; auto|auto].
      * destruct (G6 f Hf) as (q & Hq & Hq'). exists q. split; [right; auto|auto].
Qed.
(** nothing but packages, files and snippets *)
Definition is_element (x : part) : bool := match x with PPackage _ | PFile _ | PSnippet _ => true | _ => false end.
Lemma file_parts_elements l : forallb is_element (flat_map file_parts l) = true.
Proof.
  apply forallb_forall. intros x Hx. apply in_flat_map in Hx as (f & _ & Hx). destruct Hx as [<-|Hx]; auto. apply in_map_iff in Hx as (s & <- & _). reflexivity.
Qed.
Lemma plan_packages_elements l w : forallb is_element (fst (plan_packages l w)) = true.
Proof.
  revert w. induction l as [|p l IH]; intro w; cbn [plan_packages]; auto. destruct (plan_files p (fs p) w) as [[a1 w1] r1].
  specialize (IH w1). destruct (plan_packages l w1) as [a2 r2]. cbn [fst] in *. cbn [forallb is_element andb]. rewrite forallb_app, file_parts_elements. exact IH.
Qed.
(** the snippets of a file follow it *)
Hypothesis Hsn : forall f s, In s (sn f) -> sn_file s = fi_id f.
Lemma in_place_snippets ids f l r : (forall s, In s l -> sn_file s = fi_id f) -> snippets_in_place ids (Some f) r -> snippets_in_place ids (Some f) (map PSnippet l ++ r).
Proof. induction l as [|s l IH]; cbn [map app snippets_in_place]; intros H K; auto. split; [apply H; left; auto|apply IH; auto; intros x Hx; apply H; right; auto]. Qed.
Lemma in_place_files ids last l r : (forall last', snippets_in_place ids last' r) -> snippets_in_place ids last (flat_map file_parts l ++ r).
Proof.
  intro H. revert last. induction l as [|f l IH]; intro last; cbn [flat_map app]; auto. rewrite <- app_assoc. cbn [file_parts app snippets_in_place].
  apply in_place_snippets; auto.
Qed.
Lemma in_place_packages ids last l w : snippets_in_place ids last (fst (plan_packages l w)).
Proof.
  revert last w. induction l as [|p l IH]; intros last w; cbn [plan_packages]; [exact I|]. destruct (plan_files p (fs p) w) as [[a1 w1] r1].
  pose proof (fun last' => IH last' w1) as IH'. destruct (plan_packages l w1) as [a2 r2]. cbn [fst] in *. cbn [snippets_in_place].
  apply in_place_files; auto.
Qed.
End Plan.
