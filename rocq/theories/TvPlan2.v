(** The text of a document consists of the sections of its elements. *)
From Verif Require Import Py PyFacts Data Oracles Basics BasicsSpec JsonConv JsonParse JsonSpec TvWriter TvSpec TvPlan.
From Coq Require Import Permutation.

Section Doc.
Variable O : oracles.
Variable d : document.
Notation rels := (do_relationships d).
Notation files := (do_files d).
Notation pids := (map pk_id (do_packages d)).
Notation fids := (map fi_id files).

(** ** The relationships that place files *)
Definition keep (r : relationship) : list relationship :=
  if packs d r then (if truthy_opt (re_comment r) then [r] else []) else [r].
(** the file and the package that a relationship connects *)
Definition end_file (r : relationship) : option file :=
  match re_related (turned d r) with NVal x => file_by_id files x | _ => None end.
Definition pack_files (k : pystr) (r : relationship) : list file :=
  if packs d r && str_eqb (re_id (turned d r)) k then match end_file r with Some f => [f] | None => [] end else [].

Lemma file_by_id_some id : In id fids -> exists f, file_by_id files id = Some f /\ In f files /\ fi_id f = id.
Proof.
  intro H. unfold file_by_id. destruct (find (fun f => str_eqb (fi_id f) id) (rev files)) as [f|] eqn:E.
  - apply find_some in E as [E1 E2]. apply str_eqb_eq in E2. exists f. split; auto. split; auto. rewrite in_rev. exact E1.
  - apply in_map_iff in H as (f & <- & Hf). apply in_rev in Hf. pose proof (find_none _ _ E f Hf) as K. cbn beta in K. rewrite str_eqb_refl in K. discriminate.
Qed.
Lemma packs_type r : packs d r = true -> re_type r = RT_CONTAINS \/ re_type r = RT_CONTAINED_BY.
Proof. unfold packs. destruct (re_type r); try discriminate; auto. Qed.
Lemma packs_end r : packs d r = true -> exists f, end_file r = Some f /\ In f files /\ In (re_id (turned d r)) pids /\ re_related (turned d r) = NVal (fi_id f)
  /\ re_type (turned d r) = RT_CONTAINS.
Proof.
  intro H. destruct (packs_type r H) as [T|T]; unfold end_file, turned; pose proof H as H'; unfold packs in H'; rewrite T in *; destruct (re_related r) as [x| |] eqn:R; try discriminate.
  - apply andb_true_iff in H' as [H1 H2]. apply str_in_In in H1. apply str_in_In in H2.
    destruct (file_by_id_some x H2) as (f & F1 & F2 & F3). exists f. rewrite F3. auto.
  - rewrite H. cbn [re_related re_id]. apply andb_true_iff in H' as [H1 H2]. apply str_in_In in H1. apply str_in_In in H2.
    destruct (file_by_id_some _ H2) as (f & F1 & F2 & F3). exists f. rewrite F3. auto.
Qed.
Lemma plain_contains r p f : packs d r = true -> pk_id p = re_id (turned d r) -> end_file r = Some f -> contains_rel p f = plain d r.
Proof.
  intros H E F. destruct (packs_end r H) as (g & G1 & G2 & G3 & G4 & G5). rewrite F in G1. injection G1 as <-. unfold contains_rel, plain. rewrite E, G4, G5. reflexivity.
Qed.
Lemma scan_step r l tw c :
  scan_relationships (r :: l) pids files tw c =
  scan_relationships l pids files (tw ++ keep r)
    (if packs d r then match end_file r with Some f => dict_append (re_id (turned d r)) f c | None => c end else c).
Proof.
  cbn [scan_relationships]. unfold keep. destruct (packs d r) eqn:P.
  - destruct (packs_end r P) as (f & F1 & F2 & F3 & F4 & F5). rewrite F1.
    destruct (packs_type r P) as [T|T]; unfold end_file, turned in *; pose proof P as P'; unfold packs, is_package, is_file in P'; rewrite T in *;
      destruct (re_related r) as [x| |] eqn:R; try discriminate.
    + change (rel_type_eqb RT_CONTAINS RT_CONTAINS) with true. cbn [andb]. rewrite P'. rewrite F1. destruct (truthy_opt (re_comment r)); [reflexivity|rewrite app_nil_r; reflexivity].
    + rewrite P in *. cbn [re_related re_id] in F1, F3 |- *. change (rel_type_eqb RT_CONTAINED_BY RT_CONTAINS) with false.
      change (rel_type_eqb RT_CONTAINED_BY RT_CONTAINED_BY) with true. cbn [andb]. rewrite P', F1. destruct (truthy_opt (re_comment r)); [reflexivity|rewrite app_nil_r; reflexivity].
  - unfold packs, is_package, is_file in P. destruct (re_related r) as [x| |] eqn:R; auto. destruct (re_type r); try reflexivity.
    + change (rel_type_eqb RT_CONTAINED_BY RT_CONTAINS) with false. change (rel_type_eqb RT_CONTAINED_BY RT_CONTAINED_BY) with true.
      cbn [andb]. rewrite P. reflexivity.
    + change (rel_type_eqb RT_CONTAINS RT_CONTAINS) with true. change (rel_type_eqb RT_CONTAINS RT_CONTAINED_BY) with false.
      cbn [andb]. rewrite P. reflexivity.
Qed.
Lemma scan_spec l : forall tw c, exists c', scan_relationships l pids files tw c = (tw ++ flat_map keep l, c')
  /\ (forall k, lookup k c' = lookup k c ++ flat_map (pack_files k) l)
  /\ (forall f, In f (values c') <-> In f (values c) \/ exists r, In r l /\ packs d r = true /\ end_file r = Some f).
Proof.
  induction l as [|r l IH]; intros tw c.
  - exists c. cbn. rewrite app_nil_r. split; auto. split; [intro; rewrite app_nil_r; auto|]. intro f. split; auto. intros [?|(?&[]&_)]; auto.
  - rewrite scan_step. destruct (IH (tw ++ keep r) (if packs d r then match end_file r with Some f => dict_append (re_id (turned d r)) f c | None => c end else c)) as (c' & E & E1 & E2).
    exists c'. rewrite E. cbn [flat_map]. rewrite <- app_assoc. split; auto. split.
    + intro k. rewrite E1. rewrite app_assoc. f_equal. unfold pack_files. destruct (packs d r); cbn [andb]; [|rewrite app_nil_r; auto].
      destruct (end_file r) as [f|]; [|destruct (str_eqb _ _); rewrite app_nil_r; auto]. rewrite lookup_append. reflexivity.
    + intro f. rewrite E2. destruct (packs d r) eqn:P.
      * destruct (packs_end r P) as (g & G1 & _). rewrite G1. rewrite values_append. split.
        -- intros [[->|H]|(r' & H1 & H2)]; auto; right; [exists r|exists r']; split; auto; [left|right]; auto.
        -- intros [H|(r' & [<-|H1] & H2 & H3)]; auto; [left; left; congruence|right; exists r'; auto].
      * split; intros [H|(r' & H1 & H2 & H3)]; auto; right; exists r'; split; auto; [right; auto|]. destruct H1 as [<-|H1]; auto. congruence.
Qed.

(** ** Snippets *)
Lemma by_file_spec l : forall acc k, lookup k (get_file_ids_with_contained_snippets l fids acc) =
    lookup k acc ++ filter (fun s => str_in (sn_file s) fids && str_eqb (sn_file s) k) l.
Proof.
  induction l as [|s l IH]; intros acc k; cbn [get_file_ids_with_contained_snippets filter]; [rewrite app_nil_r; auto|].
  rewrite IH. destruct (str_in (sn_file s) fids); cbn [andb]; auto. rewrite lookup_append. destruct (str_eqb (sn_file s) k); [rewrite <- app_assoc|rewrite app_nil_r]; reflexivity.
Qed.
Lemma by_file_values l : forall acc s, In s (values (get_file_ids_with_contained_snippets l fids acc)) <-> In s (values acc) \/ (In s l /\ In (sn_file s) fids).
Proof.
  induction l as [|t l IH]; intros acc s; cbn [get_file_ids_with_contained_snippets]; [cbn; intuition|].
  rewrite IH. destruct (str_in (sn_file t) fids) eqn:E.
  - apply str_in_In in E. rewrite values_append. split.
    + intros [[->|H]|[H1 H2]]; auto; right; (split; [|auto]); [left; auto|right; auto].
    + intros [H|[[<-|H] H2]]; auto.
  - apply str_in_false in E. split.
    + intros [H|[H1 H2]]; auto; right; (split; [right; auto|auto]).
    + intros [H|[[<-|H] H2]]; auto. contradiction.
Qed.

(** ** Texts *)
Definition wp (x : part) : result pystr := writes [part_text O x; write_separator].
Definition sn (f : file) : list snippet := filter (fun s => str_in (sn_file s) fids && str_eqb (sn_file s) (fi_id f)) (do_snippets d).
Definition by_file := get_file_ids_with_contained_snippets (do_snippets d) fids [].
Lemma by_file_sn f : lookup (fi_id f) by_file = sn f.
Proof. unfold by_file. rewrite by_file_spec. reflexivity. Qed.
Lemma write_file_eq f : write_file_with_snippets O by_file f = write_each wp (file_parts sn f).
Proof.
  unfold write_file_with_snippets, file_parts. rewrite write_each_cons. rewrite write_each_map.
  assert (E : match assoc (fi_id f) by_file with Some l => write_list_of_elements l (write_snippet O) true | None => Ok [] end
     = write_each (fun x => wp (PSnippet x)) (sn f)).
  { rewrite <- by_file_sn. unfold lookup. destruct (assoc (fi_id f) by_file); reflexivity. }
  rewrite E. unfold wp at 2. cbn [part_text writes]. destruct (write_file O f); cbn [bind]; auto. unfold write_separator. cbn [bind].
  destruct (write_each _ (sn f)); cbn [bind]; auto. rewrite !app_nil_r, <- app_assoc. reflexivity.
Qed.
Lemma write_package_files_eq p l : forall w tw out, write_package_files O by_file (pk_id p) l w tw out =
  let '(a, w', r) := plan_files p l w in do t <- write_each wp (flat_map (file_parts sn) a); Ok (out ++ t, w', tw ++ r).
Proof.
  induction l as [|f l IH]; intros w tw out; cbn [write_package_files plan_files].
  - cbn. rewrite !app_nil_r. reflexivity.
  - destruct (str_in (fi_id f) w).
    + rewrite IH. destruct (plan_files p l w) as [[a w'] r]. rewrite <- app_assoc. reflexivity.
    + rewrite write_file_eq. destruct (plan_files p l (w ++ [fi_id f])) as [[a w'] r] eqn:E. cbn [flat_map]. rewrite write_each_app.
      destruct (write_each wp (file_parts sn f)) as [t|e]; cbn [bind]; auto. rewrite IH, E. destruct (write_each wp (flat_map (file_parts sn) a)); cbn [bind]; auto.
      rewrite <- app_assoc. reflexivity.
Qed.
Lemma write_packages_eq c l : forall w tw out, write_packages O by_file c l w tw out =
  let '(a, r) := plan_packages sn (fun p => lookup (pk_id p) c) l w in do t <- write_each wp a; Ok (out ++ t, tw ++ r).
Proof.
  induction l as [|p l IH]; intros w tw out; cbn [write_packages plan_packages].
  - cbn. rewrite !app_nil_r. reflexivity.
  - change (match assoc (pk_id p) c with Some fs => fs | None => [] end) with (lookup (pk_id p) c).
    change (writes [write_package O p; write_separator]) with (wp (PPackage p)).
    destruct (plan_files p (lookup (pk_id p) c) w) as [[a w'] r] eqn:E.
    destruct (plan_packages sn (fun p0 => lookup (pk_id p0) c) l w') as [a' r'] eqn:E'.
    rewrite write_each_cons, write_each_app. destruct (wp (PPackage p)) as [t|e]; cbn [bind]; auto.
    rewrite write_package_files_eq, E. destruct (write_each wp (flat_map (file_parts sn) a)) as [t1|e]; cbn [bind]; auto.
    rewrite IH, E'. destruct (write_each wp a') as [t2|e]; cbn [bind]; auto. rewrite <- !app_assoc. reflexivity.
Qed.

(** ** The plan of the document *)
Definition contained := snd (scan_relationships rels pids files [] []).
Definition unfiled : list snippet := filter (fun s => negb (str_in (sn_id s) (List.concat (map (fun kv => map sn_id (snd kv)) by_file)))) (do_snippets d).
Definition unpackaged : list file := filter (fun f => negb (str_in (fi_id f) (List.concat (map (fun kv => map fi_id (snd kv)) contained)))) files.
Definition planned := plan_packages sn (fun p => lookup (pk_id p) contained) (do_packages d) [].
Definition body : list part := map PSnippet unfiled ++ flat_map (file_parts sn) unpackaged ++ fst planned.
Definition to_write : list relationship := flat_map keep rels ++ snd planned.
Definition write_rest (to_write : list relationship) : result pystr :=
  writes [ write_optional_heading (do_extracted d) ($"## License Information" ++ [LF]);
           write_list_of_elements (do_extracted d) write_extracted_licensing_info true;
           write_optional_heading to_write ($"## Relationships" ++ [LF]);
           write_list_of_elements to_write write_relationship false;
           write_separator;
           write_optional_heading (do_annotations d) ($"## Annotations" ++ [LF]);
           write_list_of_elements (do_annotations d) write_annotation true ].
Lemma write_document_eq : write_document O d =
  (do head <- writes [ Ok ($"## Document Information" ++ [LF]); write_creation_info (do_ci d); write_separator ];
   do b <- write_each wp body; do rest <- write_rest to_write; Ok (head ++ b ++ rest)).
Proof.
  unfold write_document, body, to_write, planned, unpackaged, contained. destruct (scan_spec rels [] []) as (c & E & _). rewrite E. cbn [snd app].
  fold by_file. rewrite !write_each_app, write_each_flat, write_each_map.
  rewrite (write_each_if (fun s => str_in (sn_id s) _)). fold unfiled.
  rewrite (write_each_if (fun f => str_in (fi_id f) _)).
  rewrite (write_each_ext (write_file_with_snippets O by_file) (fun f => write_each wp (file_parts sn f))) by (intros; apply write_file_eq).
  rewrite write_packages_eq.
  destruct (plan_packages sn (fun p => lookup (pk_id p) c) (do_packages d) []) as [a r]. cbn [fst snd app].
  set (hd := writes [ Ok ($"## Document Information" ++ [LF]); write_creation_info (do_ci d); write_separator ]). destruct hd as [h|]; [|reflexivity]. cbn [bind].
  change (fun x => wp (PSnippet x)) with (fun s => writes [write_snippet O s; write_separator]).
  destruct (write_each (fun s => writes [write_snippet O s; write_separator]) unfiled) as [t1|]; [|reflexivity]. cbn [bind].
  destruct (write_each (fun f => write_each wp (file_parts sn f)) _) as [t2|]; [|reflexivity]. cbn [bind].
  destruct (write_each wp a) as [t3|]; [|reflexivity]. cbn [bind]. unfold write_rest.
  destruct (writes _); [|reflexivity]. cbn [bind]. rewrite <- !app_assoc. reflexivity.
Qed.

(** ** Facts about the plan *)
Hypothesis Hids : NoDup (element_ids d).
Lemma nodup_app_l {A} (l m : list A) : NoDup (l ++ m) -> NoDup l.
Proof.
  induction l as [|x l IH]; cbn [app]; intro H; [constructor|]. apply NoDup_cons_iff in H as [H1 H2]. constructor; auto.
  intro K. apply H1. apply in_or_app. auto.
Qed.
Lemma nodup_app_r {A} (l m : list A) : NoDup (l ++ m) -> NoDup m.
Proof. induction l as [|x l IH]; cbn [app]; auto. intro H. apply NoDup_cons_iff in H as [H1 H2]. auto. Qed.
Lemma nodup_parts : NoDup pids /\ NoDup fids /\ NoDup (map sn_id (do_snippets d)).
Proof.
  unfold element_ids in Hids. pose proof (nodup_app_r _ _ Hids) as H1. pose proof (nodup_app_l _ _ Hids) as H2.
  split; auto. split; [exact (nodup_app_l _ _ H1)|exact (nodup_app_r _ _ H1)].
Qed.
Lemma nodup_key {A} (key : A -> pystr) l x y : NoDup (map key l) -> In x l -> In y l -> key x = key y -> x = y.
Proof.
  induction l as [|z l IH]; cbn [map]; intros H Hx Hy E; [destruct Hx|]. inversion H as [|? ? N1 N2]; subst.
  destruct Hx as [<-|Hx], Hy as [<-|Hy]; auto; exfalso; apply N1; apply in_map_iff; eauto.
Qed.
Lemma nodup_app {A} (l m : list A) : NoDup l -> NoDup m -> (forall x, In x l -> In x m -> False) -> NoDup (l ++ m).
Proof.
  induction 1 as [|x l Hx Hl IH]; cbn [app]; intros Hm H; auto. constructor.
  - intro K. apply in_app_iff in K as [K|K]; auto. apply (H x); [left|]; auto.
  - apply IH; auto. intros y Hy. apply H. right. auto.
Qed.
Lemma lookup_contained k : lookup k contained = flat_map (pack_files k) rels.
Proof. unfold contained. destruct (scan_spec rels [] []) as (c & E & E1 & _). rewrite E. cbn [snd]. rewrite E1. reflexivity. Qed.
Lemma values_contained f : In f (values contained) <-> exists r, In r rels /\ packs d r = true /\ end_file r = Some f.
Proof. unfold contained. destruct (scan_spec rels [] []) as (c & E & _ & E2). rewrite E. cbn [snd]. rewrite E2. cbn. intuition. Qed.
Lemma concat_map_in {A} (key : A -> pystr) (l : list (pystr * list A)) x :
  In x (List.concat (map (fun kv => map key (snd kv)) l)) <-> exists v, In v (values l) /\ key v = x.
Proof.
  unfold values. induction l as [|kv l IH]; cbn [map List.concat].
  - split; [intros []|intros (? & [] & _)].
  - rewrite in_app_iff, IH, in_map_iff. split.
    + intros [(v & E & Hv)|(v & Hv & E)]; exists v; (split; [apply in_or_app|]); auto.
    + intros (v & Hv & E). apply in_app_iff in Hv as [Hv|Hv]; [left|right]; exists v; auto.
Qed.
Lemma contained_package f : In f (values contained) <-> exists p, In p (do_packages d) /\ In f (lookup (pk_id p) contained).
Proof.
  rewrite values_contained. split.
  - intros (r & Hr & P & E). destruct (packs_end r P) as (g & G1 & G2 & G3 & _). apply in_map_iff in G3 as (p & Ep & Hp).
    exists p. split; auto. rewrite lookup_contained. apply in_flat_map. exists r. split; auto. unfold pack_files. rewrite P, Ep, str_eqb_refl, E. left. auto.
  - intros (p & Hp & H). rewrite lookup_contained in H. apply in_flat_map in H as (r & Hr & H). unfold pack_files in H.
    destruct (packs d r) eqn:P; [|destruct H]. destruct (str_eqb (re_id (turned d r)) (pk_id p)); [|destruct H]. cbn [andb] in H. exists r. split; auto. split; auto.
    destruct (end_file r); [|destruct H]. destruct H as [->|[]]. auto.
Qed.
Lemma contained_file f : In f (values contained) -> In f files.
Proof.
  rewrite values_contained. intros (r & _ & P & E). destruct (packs_end r P) as (g & G1 & G2 & _). congruence.
Qed.
Lemma planned_facts last : packages_of (fst planned) = do_packages d /\ snippets_of (fst planned) = flat_map sn (files_of (fst planned))
  /\ Permutation (flat_map (fun p => map (contains_rel p) (lookup (pk_id p) contained)) (do_packages d)) (placed last (fst planned) ++ snd planned)
  /\ NoDup (map fi_id (files_of (fst planned)))
  /\ (forall f, In f files -> (In f (files_of (fst planned)) <-> In f (values contained)))
  /\ incl (files_of (fst planned)) files.
Proof.
  unfold planned. destruct (plan_packages sn (fun p => lookup (pk_id p) contained) (do_packages d) []) as [a r] eqn:E.
  pose proof (plan_packages_spec sn _ _ _ _ _ last E) as (H1 & H2 & H3 & H4 & H5 & H6). cbn [app fst snd] in *.
  assert (I : incl (files_of a) files).
  { intros f Hf. destruct (H6 f Hf) as (p & Hp & Hf'). apply contained_file. apply contained_package. eauto. }
  split; auto. split; auto. split; auto. split; [apply H4; constructor|]. split; auto.
  intros f Hf. rewrite contained_package. split.
  - intro H. destruct (H6 f H) as (p & ?). eauto.
  - intros (p & Hp & H). specialize (H5 p f Hp H). apply in_map_iff in H5 as (g & Eg & Hg). destruct nodup_parts as (_ & N & _).
    rewrite (nodup_key fi_id files f g N Hf (I g Hg)); auto.
Qed.
Lemma unpackaged_spec f : In f files -> (In f unpackaged <-> ~ In f (values contained)).
Proof.
  intro Hf. unfold unpackaged. rewrite filter_In, negb_true_iff, str_in_false, concat_map_in. split.
  - intros [_ H] K. apply H. exists f. auto.
  - intro H. split; auto. intros (g & Hg & E). apply H. destruct nodup_parts as (_ & N & _). rewrite (nodup_key fi_id files f g N Hf (contained_file g Hg)); auto.
Qed.
Lemma files_permutation : Permutation (unpackaged ++ files_of (fst planned)) files.
Proof.
  destruct (planned_facts None) as (_ & _ & _ & N & M & I). destruct nodup_parts as (_ & Nf & _). apply NoDup_map_inv in Nf. apply NoDup_map_inv in N.
  assert (U : incl unpackaged files) by (unfold unpackaged; intros f Hf; apply filter_In in Hf; tauto).
  apply NoDup_Permutation; auto.
  - apply nodup_app; auto.
    + unfold unpackaged. apply NoDup_filter. auto.
    + intros f H1 H2. apply (unpackaged_spec f (U f H1)) in H1. apply M in H2; auto.
  - intro f. rewrite in_app_iff. split.
    + intros [H|H]; auto.
    + intro Hf. rewrite unpackaged_spec, M by auto. destruct (in_dec (list_eq_dec N.eq_dec) (fi_id f) (map fi_id (values contained))) as [K|K].
      * right. apply in_map_iff in K as (g & E & Hg). destruct nodup_parts as (_ & Nf' & _). rewrite (nodup_key fi_id files f g Nf' Hf (contained_file g Hg)); auto.
      * left. intro. apply K. apply in_map. auto.
Qed.

Lemma unfiled_eq : unfiled = filter (fun s => negb (str_in (sn_file s) fids)) (do_snippets d).
Proof.
  destruct nodup_parts as (_ & _ & N). unfold unfiled. apply filter_ext_in. intros s Hs. f_equal.
  destruct (str_in (sn_file s) fids) eqn:E.
  - apply str_in_In. apply concat_map_in. exists s. split; auto. apply by_file_values. right. split; auto. apply str_in_In. exact E.
  - apply str_in_false. intro K. apply concat_map_in in K as (t & Ht & Et). apply by_file_values in Ht as [[]|[Ht1 Ht2]].
    rewrite (nodup_key sn_id _ _ _ N Ht1 Hs Et) in Ht2. apply str_in_false in E. auto.
Qed.
Lemma snippets_permutation : Permutation (unfiled ++ flat_map sn (unpackaged ++ files_of (fst planned))) (do_snippets d).
Proof.
  rewrite unfiled_eq. rewrite (Permutation_flat_map sn files_permutation). destruct nodup_parts as (_ & N & _).
  etransitivity; [|symmetry; apply (filter_negb_perm (fun s => str_in (sn_file s) fids))]. apply Permutation_app_head.
  rewrite <- (group_perm sn_file fids (do_snippets d) N). rewrite flat_map_concat_map, (flat_map_concat_map _ fids), map_map.
  match goal with |- Permutation (List.concat ?a) (List.concat ?b) => replace b with a; auto end. apply map_ext_in. intros f Hf. unfold sn. apply filter_ext_in. intros s Hs.
  destruct (str_eqb (fi_id f) (sn_file s)) eqn:E.
  - apply str_eqb_eq in E. rewrite <- E, str_eqb_refl, andb_true_r. apply str_in_In. apply in_map. exact Hf.
  - apply andb_false_iff. right. destruct (str_eqb (sn_file s) (fi_id f)) eqn:F; auto. apply str_eqb_eq in F. rewrite F, str_eqb_refl in E. discriminate.
Qed.
Lemma pack_files_contains p : map (contains_rel p) (lookup (pk_id p) contained) =
  map (plain d) (filter (fun r => str_eqb (pk_id p) (re_id (turned d r))) (filter (packs d) rels)).
Proof.
  rewrite lookup_contained. induction rels as [|r l IH]; cbn [flat_map filter]; auto. rewrite map_app, IH. unfold pack_files.
  destruct (packs d r) eqn:P; cbn [andb filter]; auto. destruct (str_eqb (re_id (turned d r)) (pk_id p)) eqn:E.
  - apply str_eqb_eq in E. rewrite <- E, str_eqb_refl. destruct (packs_end r P) as (f & F & _). rewrite F. cbn [map app]. f_equal.
    apply plain_contains; auto.
  - destruct (str_eqb (pk_id p) (re_id (turned d r))) eqn:F; auto. apply str_eqb_eq in F. rewrite F, str_eqb_refl in E. discriminate.
Qed.
Lemma relationships_permutation : Permutation (to_write ++ placed None (fst planned)) (flat_map (expressed d) rels).
Proof.
  destruct (planned_facts None) as (_ & _ & H & _). destruct nodup_parts as (N & _ & _). unfold to_write.
  assert (G : Permutation (flat_map (fun p => map (contains_rel p) (lookup (pk_id p) contained)) (do_packages d)) (map (plain d) (filter (packs d) rels))).
  { rewrite flat_map_concat_map. rewrite (map_ext _ _ pack_files_contains). rewrite <- (map_map (fun p => filter (fun r => str_eqb (pk_id p) (re_id (turned d r))) (filter (packs d) rels)) (map (plain d))).
    rewrite <- concat_map. apply Permutation_map.
    pose proof (group_perm (fun r => re_id (turned d r)) pids (filter (packs d) rels) N) as K. rewrite flat_map_concat_map, map_map in K. rewrite K.
    rewrite (filter_all (fun x => str_in (re_id (turned d x)) pids)); auto. intros r Hr. apply filter_In in Hr as [_ P].
    destruct (packs_end r P) as (f & _ & _ & I & _). apply str_in_In. exact I. }
  rewrite <- app_assoc. rewrite (Permutation_app_comm (snd planned)), <- H, G. clear.
  induction rels as [|r l IH]; cbn [flat_map filter]; auto. rewrite <- IH. unfold expressed, keep at 1. destruct (packs d r) eqn:P; cbn [map].
  - rewrite <- !app_assoc. cbn [app]. destruct (truthy_opt (re_comment r)); cbn [app].
    + transitivity (r :: plain d r :: (flat_map keep l ++ map (plain d) (filter (packs d) l))); [|apply perm_swap]. constructor. symmetry. apply Permutation_middle.
    + symmetry. apply Permutation_middle.
  - rewrite <- app_assoc. reflexivity.
Qed.

(** ** Layout *)
Lemma filler_lf : Filler [LF].
Proof. left. reflexivity. Qed.
Lemma filler_heading u : ~ In LF u -> Filler ($"##" ++ u ++ [LF]).
Proof. intro H. right. exists u. auto. Qed.
Lemma wp_layout l t text m : write_each wp l = Ok t -> Layout O text m -> Layout O (t ++ text) (l ++ m).
Proof.
  revert t. induction l as [|x l IH]; intros t E H.
  - injection E as <-. exact H.
  - rewrite write_each_cons in E. unfold wp, write_separator in E. cbn [writes bind] in E.
    destruct (part_text O x) as [s|] eqn:P; [|discriminate]. cbn [bind] in E. destruct (write_each _ l) as [u|] eqn:W; [|discriminate]. cbn [bind] in E.
    injection E as <-. cbn [app]. rewrite <- !app_assoc. apply Layout_part; auto.
    rewrite ?app_nil_l. apply (Layout_filler O [LF]); [apply filler_lf|]. apply IH; auto.
Qed.
Lemma plain_layout l t text m : write_each (part_text O) l = Ok t -> Layout O text m -> Layout O (t ++ text) (l ++ m).
Proof.
  revert t. induction l as [|x l IH]; intros t E H.
  - injection E as <-. exact H.
  - rewrite write_each_cons in E. destruct (part_text O x) as [s|] eqn:P; [|discriminate]. cbn [bind] in E.
    destruct (write_each _ l) as [u|] eqn:W; [|discriminate]. cbn [bind] in E.
    injection E as <-. cbn [app]. rewrite <- !app_assoc. apply Layout_part; auto.
Qed.
Definition all_parts : list part :=
  PDocument (do_ci d) :: body ++ map PExtracted (do_extracted d) ++ map PRelationship to_write ++ map PAnnotation (do_annotations d).
Lemma heading_layout {A} (l : list A) u text m s : write_optional_heading l ($"##" ++ u ++ [LF]) = Ok s -> ~ In LF u -> Layout O text m -> Layout O (s ++ text) m.
Proof.
  unfold write_optional_heading. intros E H K. injection E as <-. destruct (truthy_list l); auto. apply Layout_filler; auto. apply filler_heading. exact H.
Qed.
Lemma document_layout text : write_document O d = Ok text -> Layout O text all_parts.
Proof.
  rewrite write_document_eq. unfold write_rest, write_separator. cbn [writes bind].
  destruct (write_creation_info (do_ci d)) as [h|] eqn:E0; [|discriminate]. cbn [bind]. destruct (write_each wp body) as [b|] eqn:E1; [|discriminate]. cbn [bind].
  destruct (write_optional_heading (do_extracted d) _) as [h1|] eqn:H1; [|discriminate]. cbn [bind].
  destruct (write_list_of_elements (do_extracted d) _ true) as [t1|] eqn:T1; [|discriminate]. cbn [bind].
  destruct (write_optional_heading to_write _) as [h2|] eqn:H2; [|discriminate]. cbn [bind].
  destruct (write_list_of_elements to_write _ false) as [t2|] eqn:T2; [|discriminate]. cbn [bind].
  destruct (write_optional_heading (do_annotations d) _) as [h3|] eqn:H3; [|discriminate]. cbn [bind].
  destruct (write_list_of_elements (do_annotations d) _ true) as [t3|] eqn:T3; [|discriminate]. cbn [bind].
  intro K. injection K as <-. unfold all_parts. rewrite !app_nil_r, <- !app_assoc.
  apply (Layout_filler O ($"##" ++ $" Document Information" ++ [LF])); [apply filler_heading; intro K; apply has_char_In in K; discriminate K|].
  apply Layout_part; [exact E0|]. apply (Layout_filler O [LF]); [apply filler_lf|]. apply wp_layout; [exact E1|].
  apply (heading_layout (do_extracted d) $" License Information" _ _ _ H1); [intro K; apply has_char_In in K; discriminate K|].
  apply wp_layout.
  { rewrite write_each_map. exact T1. }
  apply (heading_layout to_write $" Relationships" _ _ _ H2); [intro K; apply has_char_In in K; discriminate K|].
  apply plain_layout.
  { rewrite write_each_map. rewrite <- T2. unfold write_list_of_elements. apply write_each_ext. intros r _. cbn [writes bind part_text].
    destruct (write_relationship r); cbn [bind]; auto. rewrite app_nil_r. reflexivity. }
  apply (Layout_filler O [LF]); [apply filler_lf|].
  apply (heading_layout (do_annotations d) $" Annotations" _ _ _ H3); [intro K; apply has_char_In in K; discriminate K|].
  rewrite <- (app_nil_r t3), <- (app_nil_r (map PAnnotation _)). apply wp_layout; [|constructor]. rewrite write_each_map. exact T3.
Qed.
End Doc.
