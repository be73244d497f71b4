(** The sample libraries and the sample document meet the hypotheses of the theorems about RDF. *)
From Verif Require Import Py PyFacts Data Oracles Basics Validation ValidationSpec BasicsSpec LocatorFacts Samples Rdf RdfWriter RdfSpec RdfSamples.
From Verif Require ActorFacts.
From Coq Require Import Lia.

(** ** The license library *)
Lemma split_on_two c a s : split_on c (a ++ c :: s) = split_on c a ++ split_on c s.
Proof.
  induction a as [|x a IH]; cbn [split_on app]; [rewrite N.eqb_refl; reflexivity|]. destruct (N.eqb x c); [rewrite IH; reflexivity|].
  rewrite IH. pose proof (split_on_nonempty c a). destruct (split_on c a); [contradiction|reflexivity].
Qed.
Fixpoint inter (sep : pystr) (ls : list (list pystr)) : list pystr :=
  match ls with [] => [] | [a] => a | a :: r => a ++ sep :: inter sep r end.
Lemma split_join (op : pystr) (ss : list pystr) : ~ In #" " op -> ss <> [] ->
  split_on #" " (join ($" " ++ op ++ $" ") ss) = inter op (map (split_on #" ") ss).
Proof.
  intros Hop. induction ss as [|a ss IH]; intro H; [contradiction|]. destruct ss as [|b ss]; [reflexivity|].
  change (join ($" " ++ op ++ $" ") (a :: b :: ss)) with (a ++ ($" " ++ op ++ $" ") ++ join ($" " ++ op ++ $" ") (b :: ss)).
  change (inter op (map (split_on #" ") (a :: b :: ss))) with (split_on #" " a ++ op :: inter op (map (split_on #" ") (b :: ss))).
  rewrite <- IH by discriminate. change ($" ") with [#" "]. rewrite <- !app_assoc. cbn [app]. rewrite split_on_two. rewrite split_on_two.
  rewrite (split_on_nochar #" " op Hop). reflexivity.
Qed.
Lemma cut_none sep l : ~ In sep l -> cut sep l = [l].
Proof.
  induction l as [|x l IH]; intro H; [reflexivity|]. cbn [cut]. rewrite (proj2 (str_eqb_neq x sep)) by (intros ->; apply H; left; reflexivity).
  rewrite IH by (intro K; apply H; right; exact K). reflexivity.
Qed.
Lemma cut_app sep a b : ~ In sep a -> cut sep (a ++ sep :: b) = a :: cut sep b.
Proof.
  induction a as [|x a IH]; intro H; cbn [cut app].
  - rewrite str_eqb_refl. reflexivity.
  - rewrite (proj2 (str_eqb_neq x sep)) by (intros ->; apply H; left; reflexivity).
    rewrite IH by (intro K; apply H; right; exact K). reflexivity.
Qed.
Lemma cut_inter sep ls : ls <> [] -> Forall (fun l => ~ In sep l) ls -> cut sep (inter sep ls) = ls.
Proof.
  induction ls as [|a ls IH]; intros H F; [contradiction|]. inversion F; subst. destruct ls as [|b ls]; [apply cut_none; assumption|].
  change (inter sep (a :: b :: ls)) with (a ++ sep :: inter sep (b :: ls)). rewrite cut_app by assumption. rewrite IH; [reflexivity|discriminate|assumption].
Qed.
Lemma cut_single sep l p : cut sep l = [p] -> p = l /\ ~ In sep l.
Proof.
  revert p. induction l as [|x l IH]; intros p H; cbn [cut] in H; [split; [congruence|intros []]|].
  destruct (str_eqb x sep) eqn:E.
  - exfalso. destruct l as [|y l]; cbn [cut] in H; [discriminate|]. destruct (str_eqb y sep); [discriminate|]. destruct (cut sep l); discriminate.
  - destruct (cut sep l) as [|y r] eqn:Ec; [|destruct r; [|discriminate]].
    + exfalso. destruct l as [|z l]; cbn [cut] in Ec; [discriminate|]. destruct (str_eqb z sep); [discriminate|]. destruct (cut sep l); discriminate.
    + destruct (IH y eq_refl) as [-> N]. split; [congruence|]. intros [->|K]; [rewrite str_eqb_refl in E; discriminate|auto].
Qed.
Lemma all_read_some {A} (r : list A) : all_read (map Some r) = Some r.
Proof. induction r as [|a r IH]; [reflexivity|]. cbn [map all_read]. rewrite IH. reflexivity. Qed.
Lemma all_read_spec {A} (l : list (option A)) r : all_read l = Some r <-> l = map Some r.
Proof.
  split; [|intros ->; apply all_read_some]. revert r. induction l as [|[a|] l IH]; intros r H; cbn [all_read] in H.
  - assert (r = []) by congruence. subst. reflexivity.
  - destruct (all_read l) as [r'|]; [|discriminate]. assert (r = a :: r') by congruence. subst. cbn [map]. rewrite (IH r' eq_refl). reflexivity.
  - discriminate.
Qed.
(** a list of tokens read as an atom *)
Definition plain_tokens (l : list pystr) (e : lexpr) : Prop := ~ In $"AND" l /\ ~ In $"OR" l /\ read_atom l = Some e.
Definition is_atom (e : lexpr) : Prop := match e with LSym _ | LWith _ _ => True | _ => False end.
Lemma read_atom_plain l e : is_atom e -> read_or l = Some e -> plain_tokens l e.
Proof.
  intros A H. unfold read_or in H. destruct (all_read (map read_and (cut $"OR" l))) as [r|] eqn:E; [|discriminate].
  apply all_read_spec in E. destruct r as [|a r]; [exfalso; assert (e = LOr []) by congruence; subst; exact A|].
  destruct r as [|b r]; [|exfalso; assert (e = LOr (a :: b :: r)) by congruence; subst; exact A].
  assert (a = e) by congruence. subst a. clear H. destruct (cut $"OR" l) as [|p [|q t]] eqn:Ec; try discriminate. apply cut_single in Ec as [-> N1].
  cbn [map] in E. assert (H : read_and l = Some e) by congruence. clear E. unfold read_and in H.
  destruct (all_read (map read_atom (cut $"AND" l))) as [r|] eqn:E; [|discriminate].
  apply all_read_spec in E. destruct r as [|a r]; [exfalso; assert (e = LAnd []) by congruence; subst; exact A|].
  destruct r as [|b r]; [|exfalso; assert (e = LAnd (a :: b :: r)) by congruence; subst; exact A].
  assert (a = e) by congruence. subst a. clear H. destruct (cut $"AND" l) as [|p [|q t]] eqn:Ec; try discriminate. apply cut_single in Ec as [-> N2].
  cbn [map] in E. split; [exact N2|]. split; [exact N1|]. congruence.
Qed.
Lemma grammar_read_ok s e : grammar_read s = Ok e -> read_or (split_on #" " s) = Some e.
Proof. unfold grammar_read. destruct (read_or (split_on #" " s)); congruence. Qed.
Lemma atom_tokens e : Atom rdf_oracles e -> plain_tokens (split_on #" " (grammar_print e)) e.
Proof.
  intros [k (H1 & H2 & H3 & H4)|k x _ _ H]; apply read_atom_plain; try exact I; apply grammar_read_ok; assumption.
Qed.
Definition items_print : list lexpr -> list pystr := fix items (l : list lexpr) : list pystr :=
  match l with [] => [] | x :: l' => match x with LAnd _ | LOr _ => $"(" ++ grammar_print x ++ $")" | _ => grammar_print x end :: items l' end.
Lemma items_atoms l : Forall (Atom rdf_oracles) l -> items_print l = map grammar_print l.
Proof. induction 1 as [|e l H _ IH]; [reflexivity|]. cbn [items_print map]. rewrite IH. destruct H; reflexivity. Qed.
Lemma print_and l : Forall (Atom rdf_oracles) l -> grammar_print (LAnd l) = join $" AND " (map grammar_print l).
Proof. intro H. rewrite <- items_atoms by exact H. reflexivity. Qed.
Lemma and_tokens l : 2 <= List.length l -> Forall (Atom rdf_oracles) l ->
  split_on #" " (grammar_print (LAnd l)) = inter $"AND" (map (fun e => split_on #" " (grammar_print e)) l)
  /\ read_and (split_on #" " (grammar_print (LAnd l))) = Some (LAnd l) /\ ~ In $"OR" (split_on #" " (grammar_print (LAnd l))).
Proof.
  intros Hl F. assert (T : Forall (fun e => plain_tokens (split_on #" " (grammar_print e)) e) l) by (eapply Forall_impl; [apply atom_tokens|exact F]).
  assert (E : split_on #" " (grammar_print (LAnd l)) = inter $"AND" (map (fun e => split_on #" " (grammar_print e)) l)).
  { rewrite print_and by exact F. change ($" AND ") with ($" " ++ $"AND" ++ $" "). rewrite split_join, map_map; [reflexivity| |].
    - apply has_char_false. reflexivity.
    - destruct l; [cbn in Hl; lia|discriminate]. }
  split; [exact E|]. rewrite E. split.
  - unfold read_and. rewrite cut_inter.
    + rewrite map_map. replace (all_read (map (fun x => read_atom (split_on #" " (grammar_print x))) l)) with (Some l).
      * destruct l as [|a [|b l]]; cbn in Hl; [lia|lia|reflexivity].
      * symmetry. apply all_read_spec. clear - T. induction T as [|e l (_ & _ & H) _ IH]; [reflexivity|]. cbn [map]. rewrite H, IH. reflexivity.
    + destruct l; [cbn in Hl; lia|discriminate].
    + clear - T. induction T as [|e l (H & _ & _) _ IH]; cbn [map]; constructor; auto.
  - clear - T. induction T as [|e l (_ & H & _) _ IH]; [intros []|]. cbn [map]. destruct l as [|e' l]; [exact H|].
    intro K. change (In $"OR" (split_on #" " (grammar_print e) ++ $"AND" :: inter $"AND" (map (fun e => split_on #" " (grammar_print e)) (e' :: l)))) in K.
    apply in_app_iff in K as [K|[K|K]]; [auto|discriminate|auto].
Qed.
Lemma conj_tokens e : Conj rdf_oracles e -> ~ In $"OR" (split_on #" " (grammar_print e)) /\ read_and (split_on #" " (grammar_print e)) = Some e.
Proof.
  intros [H|(l & -> & Hl & _ & F)].
  - destruct (atom_tokens e H) as (A & B & C). split; [exact B|]. unfold read_and. rewrite cut_none by exact A. cbn [map]. rewrite C. reflexivity.
  - destruct (and_tokens l Hl F) as (_ & A & B). auto.
Qed.
Theorem sample_grammar : LicenseGrammar rdf_oracles.
Proof.
  constructor; cbn [rdf_oracles o_lic_str o_lic_parse].
  - reflexivity.
  - reflexivity.
  - intros l Hl F. rewrite print_and by exact F. split; [reflexivity|]. rewrite <- print_and by exact F.
    destruct (and_tokens l Hl F) as (_ & A & B). unfold grammar_read, read_or. rewrite cut_none by exact B. cbn [map]. rewrite A. reflexivity.
  - intros l Hl F. change ($" OR ") with ($" " ++ $"OR" ++ $" "). unfold grammar_read. rewrite split_join.
    + assert (T : Forall (fun e => ~ In $"OR" (split_on #" " (grammar_print e)) /\ read_and (split_on #" " (grammar_print e)) = Some e) l)
        by (eapply Forall_impl; [apply conj_tokens|exact F]).
      unfold read_or. rewrite cut_inter.
      * rewrite !map_map. replace (all_read (map (fun x => read_and (split_on #" " (grammar_print x))) l)) with (Some l).
        -- destruct l as [|a [|b l]]; cbn in Hl; [lia|lia|reflexivity].
        -- symmetry. apply all_read_spec. clear - T. induction T as [|e l (_ & H) _ IH]; [reflexivity|]. cbn [map]. rewrite H, IH. reflexivity.
      * destruct l; [cbn in Hl; lia|discriminate].
      * clear - T. induction T as [|e l (H & _) _ IH]; cbn [map]; constructor; auto.
    + apply has_char_false. reflexivity.
    + destruct l; [cbn in Hl; lia|discriminate].
Qed.

(** ** The RDF library *)
Lemma cut_hash_app a b : ~ In #"#" a -> cut_hash (a ++ $"#" ++ b) = (a, b).
Proof.
  change ($"#") with [#"#"]. induction a as [|c a IH]; intro H; cbn [cut_hash app].
  - rewrite N.eqb_refl. reflexivity.
  - rewrite (proj2 (N.eqb_neq c #"#")) by (intros ->; apply H; left; reflexivity).
    change ([#"#"] ++ b) with (#"#" :: b) in IH. rewrite IH by (intro K; apply H; right; exact K). reflexivity.
Qed.
Lemma digit_not_space c : is_digit09 c = true -> is_space c = false.
Proof.
  intro H. apply is_digit09_spec in H. assert (In c [48; 49; 50; 51; 52; 53; 54; 55; 56; 57]%N) as K by (cbn; lia).
  cbn in K. repeat (destruct K as [<-|K]; [reflexivity|]). destruct K.
Qed.
Lemma int_text_space z c : In c (str_of_Z z) -> is_space c = false.
Proof.
  assert (X : forall n, In c (str_of_N n) -> is_space c = false).
  { intros n H. apply digit_not_space. pose proof (str_of_N_digits n) as D. rewrite forallb_forall in D. auto. }
  unfold str_of_Z. destruct (z <? 0)%Z; [intros [<-|H]; [reflexivity|]|intro H]; eapply X; eauto.
Qed.
Lemma int_round_trip z : int_of_text (str_of_Z z) = Ok z.
Proof.
  unfold int_of_text. rewrite strip_id.
  2:{ split; intros c s' E; apply (int_text_space z c); rewrite E; [left; reflexivity|apply in_app_iff; right; left; reflexivity]. }
  unfold str_of_Z. destruct (z <? 0)%Z eqn:E.
  - apply Z.ltb_lt in E. cbn [N.eqb orb]. rewrite N.eqb_refl. cbn [orb]. rewrite dec_val_str_of_N. f_equal. rewrite N2Z.inj_abs_N. lia.
  - apply Z.ltb_ge in E. destruct (str_of_N (Z.abs_N z)) as [|c t] eqn:Es; [destruct (str_of_N_nonempty _ Es)|].
    assert (D : is_digit09 c = true) by (pose proof (str_of_N_digits (Z.abs_N z)) as D; rewrite Es in D; cbn in D; apply andb_prop in D; tauto).
    apply is_digit09_spec in D. assert (N1 : N.eqb c #"-" = false) by (apply N.eqb_neq; intros ->; cbv in D; destruct D; congruence).
    assert (N2 : N.eqb c #"+" = false) by (apply N.eqb_neq; intros ->; cbv in D; destruct D; congruence).
    rewrite N1, N2. cbn [orb]. rewrite <- Es, dec_val_str_of_N. f_equal. rewrite N2Z.inj_abs_N. lia.
Qed.
Lemma library_for ns : ~ In #"#" ns -> RdfLibrary sample_library ns.
Proof.
  intro H. constructor; cbn [sample_library r_fragment r_defrag r_value r_depth].
  - intros x _. rewrite cut_hash_app by exact H. reflexivity.
  - intros x _. rewrite cut_hash_app by exact H. reflexivity.
  - reflexivity.
  - reflexivity.
  - intro z. replace (str_eqb XSD_integer XSD_boolean) with false by (vm_compute; reflexivity). rewrite int_round_trip. reflexivity.
  - lia.
Qed.
Theorem sample_library_ok : RdfLibrary sample_library $"https://example.com/doc".
Proof. apply library_for. apply has_char_false. vm_compute. reflexivity. Qed.
Lemma startswith_self a b : startswith a (a ++ b) = true.
Proof. apply startswith_app. Qed.
Theorem sample_shortens : Shortens sample_library [] [sample_ext].
Proof.
  intros refs' r b P Hr Hb. apply Permutation_length_1_inv in P as ->. destruct Hr as [<-|[]]. cbn [app map].
  cbn [sample_library r_normalize shorten]. rewrite app_assoc, startswith_self, skipn_app, skipn_all, Nat.sub_diag. reflexivity.
Qed.
Lemma sample_label_ok : Labels sample_label.
Proof.
  split.
  - intros i j E. unfold sample_label in E. apply app_inv_head in E. apply str_of_N_inj in E. lia.
  - intro i. unfold sample_label. split; [discriminate|].
    assert (D : forall c, In c (str_of_N (N.of_nat i)) -> is_digit09 c = true) by (apply forallb_forall; apply str_of_N_digits).
    split.
    + intros [K|K]; [discriminate|]. apply D in K. discriminate.
    + assert (X : forall s, In #"O" s -> $"N" ++ str_of_N (N.of_nat i) <> $"N" ++ s).
      { intros s Hs E. apply app_inv_head in E. rewrite <- E in Hs. apply D in Hs. discriminate. }
      intros [E|E]; [apply (X $"ONE") in E|apply (X $"OASSERTION") in E]; auto; left; reflexivity.
Qed.

(** ** The document *)
Definition clean_test (s : pystr) : bool := match s with [] => false | c :: _ => negb (is_space c) && negb (is_space (last s 0%N)) end.
Lemma clean_by_test s : clean_test s = true -> Clean s.
Proof.
  destruct s as [|c t]; [discriminate|]. unfold clean_test. intro H. apply andb_prop in H as [H1 H2]. apply negb_true_iff in H1, H2.
  split; [discriminate|]. split.
  - intros x y E. congruence.
  - intros x y E. rewrite E, last_last in H2. exact H2.
Qed.
Lemma id_by_test s : is_valid_internal_spdx_id s = true -> has_char LF s = false -> RdfId s.
Proof.
  intros H N. apply internal_id_spec in H as [H|(t & -> & _)]; [exact H|]. apply has_char_false in N. exfalso. apply N. apply in_app_iff. right. left. reflexivity.
Qed.
Lemma docref_by_test s : is_valid_external_doc_ref_id s = true -> has_char LF s = false -> Prefixed $"DocumentRef-" DocRefChar s.
Proof.
  intros H N. apply docref_id_spec in H as [H|(t & -> & _)]; [exact H|]. apply has_char_false in N. exfalso. apply N. apply in_app_iff. right. left. reflexivity.
Qed.
Lemma actor_by_test a : parse_actor (actor_str a) = Ok a -> ReadableActor a.
Proof. apply (proj1 (ActorFacts.actor_round_trip a)). Qed.
Lemma rdf_date_ok : PlainDate sample_date.
Proof.
  split; [|split; reflexivity]. constructor; cbn; try lia. exists 28%Z. split; [|lia]. right. right. right. split; [reflexivity|]. split; [|reflexivity].
  intros [[k K] _]. lia.
Qed.
Lemma unspaced_by_test s : forallb (fun c => negb (is_space c)) s = true -> Unspaced s.
Proof. intro H. apply Forall_forall. rewrite forallb_forall in H. intros c Hc. apply H in Hc. apply negb_true_iff in Hc. exact Hc. Qed.
Lemma key_by_test k : truthy_list k && forallb (fun c => negb (is_space c)) k && negb (has_char #"#" k) = true -> grammar_read k = Ok (LSym k) -> Key rdf_oracles k.
Proof.
  intros H1 H2. apply andb_prop in H1 as [H1 H3]. apply andb_prop in H1 as [H1 H4]. split; [destruct k; discriminate|].
  split; [apply unspaced_by_test; exact H4|]. split; [apply has_char_false; apply negb_true_iff; exact H3|exact H2].
Qed.
Ltac each_tac t := repeat match goal with |- Forall _ (_ :: _) => apply Forall_cons; [t|] end; apply Forall_nil.
Ltac key_tac := apply key_by_test; vm_compute; reflexivity.
Ltac atom_tac := first [apply Atom_sym; key_tac | apply Atom_with; [key_tac|apply has_char_false; reflexivity|vm_compute; reflexivity]].
Ltac nodup_tac := repeat match goal with |- NoDup (_ :: _) => apply NoDup_cons; [cbn; intuition discriminate|] end; apply NoDup_nil.
Ltac conj_tac := first [left; atom_tac | right; eexists; split; [reflexivity|]; split; [cbn; lia|]; split; [nodup_tac|each_tac atom_tac]].
Ltac dnf_tac := cbn; first [exact I | left; conj_tac | right; eexists; split; [reflexivity|]; split; [cbn; lia|]; split; [nodup_tac|each_tac conj_tac]].
Ltac clean_tac := apply clean_by_test; vm_compute; reflexivity.
Ltac reserved_tac := intros [R|R]; discriminate R.
Ltac id_tac := apply id_by_test; vm_compute; reflexivity.
Ltac actor_tac := apply actor_by_test; vm_compute; reflexivity.
Lemma rdf_package_ok id : RdfId id -> RdfPackage rdf_oracles (rdf_package id).
Proof.
  intro H. constructor; cbn; try exact I; try exact H; try apply rdf_date_ok; try clean_tac; try actor_tac; try dnf_tac.
  - split; [clean_tac|reserved_tac].
  - constructor; cbn; [clean_tac|nodup_tac].
  - each_tac clean_tac.
  - eexists. split; [reflexivity|clean_tac].
  - split; [each_tac dnf_tac|nodup_tac].
  - split; [clean_tac|reserved_tac].
  - apply Forall_cons; [|apply Forall_cons; [|apply Forall_nil]]; constructor; cbn; try exact I; try clean_tac; apply unspaced_by_test; vm_compute; reflexivity.
  - nodup_tac.
Qed.
Lemma rdf_file_ok id : RdfId id -> RdfFile rdf_oracles (sample_file id).
Proof.
  intro H. constructor; cbn; try exact I; try exact H; try clean_tac; try dnf_tac; try nodup_tac.
  - each_tac clean_tac.
  - split; [each_tac dnf_tac|nodup_tac].
Qed.
Theorem rdf_document_ok : RdfDocument rdf_oracles rdf_document.
Proof.
  constructor; cbn.
  - constructor; cbn; try exact I; try clean_tac; try id_tac; try apply rdf_date_ok.
    + constructor.
      * apply has_char_In. vm_compute. reflexivity.
      * apply has_char_false. vm_compute. reflexivity.
      * intros t E. discriminate E.
      * intros t u E. discriminate E.
      * discriminate.
    + split; [discriminate|]. split; [nodup_tac|each_tac actor_tac].
    + split; [|nodup_tac]. apply Forall_cons; [|apply Forall_nil]. constructor; cbn; try clean_tac.
      * apply docref_by_test; vm_compute; reflexivity.
      * intuition discriminate.
      * discriminate.
  - apply Forall_cons; [|apply Forall_cons; [|apply Forall_nil]]; apply rdf_package_ok; id_tac.
  - apply Forall_cons; [|apply Forall_cons; [|apply Forall_nil]]; apply rdf_file_ok; id_tac.
  - apply Forall_cons; [|apply Forall_nil]. constructor; cbn; try exact I; try id_tac; try clean_tac; try nodup_tac.
    + left. id_tac.
    + split; cbn; lia.
    + eexists. split; [reflexivity|]. split; cbn; lia.
    + split; [each_tac dnf_tac|nodup_tac].
    + split; [clean_tac|reserved_tac].
  - apply Forall_cons; [|apply Forall_cons; [|apply Forall_nil]]; constructor; cbn; try clean_tac; try actor_tac; try apply rdf_date_ok; left; id_tac.
  - repeat match goal with |- Forall _ (_ :: _) => apply Forall_cons end; try apply Forall_nil; constructor; cbn; try exact I; try clean_tac; try (left; id_tac).
    right. exists sample_ext, $"SPDXRef-Package". split; [left; reflexivity|]. split; [id_tac|reflexivity].
  - apply Forall_cons; [|apply Forall_nil]. constructor; cbn; try exact I; try clean_tac; try nodup_tac.
    + eexists. split; [reflexivity|]. split; [discriminate|]. split; [apply unspaced_by_test; vm_compute; reflexivity|apply has_char_false; vm_compute; reflexivity].
    + split; [clean_tac|reserved_tac].
  - unfold ids_in. cbn. nodup_tac.
Qed.
