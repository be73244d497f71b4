(** What the RDF reader reads is what the graph says: ids, licenses and elements. *)
From Verif Require Import Py PyRe PyFacts Data Oracles Basics Json Construct JsonParse JsonErrors JsonRead Rdf RdfParser RdfReadSpec RdfIff.

Lemma foreign_noisy {A} (r : result A) : (forall m, r <> Raise (EParsing m)) -> Noisy r.
Proof. intros H e E C. destruct e; try discriminate C. apply (H msgs). exact E. Qed.
Lemma has_char_not c s : has_char c s = false <-> ~ In c s.
Proof. apply has_char_false. Qed.

Section Reading.
Variable O : oracles.
Variable L : rdf_library.
Hypothesis F : Foreign O L.
Variable G : list triple.

(** ** Ids *)
Lemma noisy_fragment n : Noisy (fragment_of L n).
Proof. destruct n; cbn; apply foreign_noisy; intros m H; try discriminate H. destruct (fo_fragment _ _ F s m H). Qed.
Lemma fragment_iff n x : fragment_of L n = Ok x <-> exists u, n = NUri u /\ r_fragment L u = Ok x.
Proof.
  destruct n; cbn; split; try discriminate.
  - eauto.
  - intros (u & E & H). injection E as ->. exact H.
  - intros (u & E & _). discriminate.
  - intros (u & E & _). discriminate.
Qed.
Lemma begins_truthy u t c : Begins (t ++ [c]) u -> truthy_list u = true.
Proof. intros (v & ->). destruct t; reflexivity. Qed.
Lemma id_iff bound ns n x : parse_spdx_id L bound (Some n) ns = Ok (Some x) <-> Identifies L bound ns n x.
Proof.
  split.
  - unfold parse_spdx_id. intro H.
    assert (NB : forall b, n <> NBlank b) by (intros b ->; discriminate H).
    assert (H' : (if negb (node_truthy L n) then Ok None
      else if startswith (ns ++ $"#") (node_str n) then do f <- fragment_of L n; Ok (Some f)
      else if has_char #"#" (node_str n) then Ok (Some (r_normalize L bound (node_str n)))
      else Ok (match py_text L n with Some [] => None | o => o end)) = Ok (Some x)) by (destruct n; [exact H|discriminate|exact H]).
    clear H. destruct (node_truthy L n) eqn:T; cbn [negb] in H'; [|discriminate].
    destruct (startswith (ns ++ $"#") (node_str n)) eqn:B.
    + apply bind_ok in H' as (f & E & H'). injection H' as ->. apply fragment_iff in E as (u & -> & E). apply begins_iff in B. apply Id_own; [exact B|exact E].
    + apply begins_not in B. destruct (has_char #"#" (node_str n)) eqn:C.
      * apply has_char_In in C. injection H' as <-. apply Id_shortened; auto.
      * apply has_char_not in C. apply Id_text; auto; unfold Plain; destruct (py_text L n) as [[|]|]; congruence.
  - intro H. destruct H as [u x B E|n NB T B C|n x NB T C P N].
    + unfold parse_spdx_id. cbn [node_truthy node_str]. rewrite (begins_truthy u ns #"#" B). cbn [negb]. apply begins_iff in B. rewrite B. cbn [fragment_of]. rewrite E. reflexivity.
    + unfold parse_spdx_id. destruct n as [s|b|s k]; [|destruct (NB b eq_refl)|]; rewrite T; cbn [negb]; apply begins_not in B; rewrite B; apply has_char_In in C; rewrite C; reflexivity.
    + assert (B : ~ Begins (ns ++ $"#") (node_str n)).
      { intros (v & E). apply C. rewrite E. apply in_or_app. left. apply in_or_app. right. left. reflexivity. }
      unfold parse_spdx_id. unfold Plain in P. destruct n as [s|b|s k]; [|destruct (NB b eq_refl)|]; rewrite T; cbn [negb]; apply begins_not in B; rewrite B;
        apply has_char_not in C; rewrite C, P; destruct x; congruence.
Qed.
Lemma noisy_id bound ns v : Noisy (parse_spdx_id L bound v ns).
Proof.
  unfold parse_spdx_id. destruct v as [[s|b|s k]|]; try apply noisy_ok; (destruct (negb _); [apply noisy_ok|]); destruct (startswith _ _).
  - apply noisy_bind; [apply noisy_fragment|]. intro. apply noisy_ok.
  - destruct (has_char _ _); apply noisy_ok.
  - apply noisy_bind; [apply noisy_fragment|]. intro. apply noisy_ok.
  - destruct (has_char _ _); apply noisy_ok.
Qed.

(** ** Licenses *)
Lemma licensing_iff s e : licensing O s = Ok e <-> Licensing O s e.
Proof.
  unfold licensing, licensing_parse, Licensing. destruct (strip s) as [|c t] eqn:E.
  - split; [intro H; injection H as <-; reflexivity|]. destruct e; [intros [H _]; congruence|reflexivity].
  - split.
    + intro H. apply bind_ok in H as (x & H1 & H). injection H as <-. split; [discriminate|exact H1].
    + destruct e as [x|]; [|discriminate]. intros [_ H]. rewrite H. reflexivity.
Qed.
Lemma licensing_blank e : licensing O [] = Ok e <-> e = None.
Proof. cbn. split; congruence. Qed.
Lemma unprefixed_begins p n : Begins p (node_str n) -> node_str n = p ++ remove_prefix (node_str n) p.
Proof.
  intro B. pose proof (proj1 (unprefixed_iff p n _) eq_refl) as [U|[U N]]; [exact U|]. rewrite <- U in N. destruct (N B).
Qed.
Lemma exception_iff n x : parse_license_exception L G (Some n) = Ok x <-> ExceptionId L G n x.
Proof.
  unfold parse_license_exception, ExceptionId. change LICENSE_NAMESPACE with license_list. destruct (startswith license_list (node_str n)) eqn:B.
  - apply begins_iff in B. pose proof (unprefixed_begins _ _ B) as U. split.
    + intro H. injection H as <-. auto.
    + intros [H|[H _]]; [|destruct (H B)]. rewrite H in U. apply app_inv_head in U. rewrite H, <- U. reflexivity.
  - apply begins_not in B. split.
    + destruct (any_value _) as [m|] eqn:E; [|discriminate]. intro H. injection H as <-. right. split; [exact B|]. exists m. split; [apply first_iff; exact E|reflexivity].
    + intros [H|(_ & m & H & ->)]; [destruct B; exists x; exact H|]. apply first_iff in H. change (spdx "licenseExceptionId") with (term "licenseExceptionId"). rewrite H. reflexivity.
Qed.
Lemma shown_same e : show_expression O e = shown O e.
Proof. reflexivity. Qed.
Lemma expression_iff ns : forall k n e, parse_expression O L k G ns (Some n) = Ok e <-> Expresses O L G ns k n e.
Proof.
  induction k as [|k IH]; intros n e; [split; [discriminate|intro H; inversion H]|].
  cbn [parse_expression]. change LICENSE_NAMESPACE with license_list. destruct (startswith license_list (node_str n)) eqn:B1.
  { apply begins_iff in B1. pose proof (unprefixed_begins _ _ B1) as U. rewrite licensing_iff. split.
    - intro H. eapply Ex_listed; [exact U|exact H].
    - intro H. inversion H; subst; try contradiction.
      match goal with K : node_str n = license_list ++ _ |- _ => rewrite K in U at 1; apply app_inv_head in U; rewrite <- U end. assumption. }
  apply begins_not in B1. destruct (startswith ns (node_str n)) eqn:B2.
  { apply begins_iff in B2. split.
    - intro H. apply bind_ok in H as (f & E & H). apply fragment_iff in E as (u & -> & E). apply licensing_iff in H. eapply Ex_own; eassumption.
    - intro H. inversion H as [k' n' s e' H1|k' u s e' H1 H2 H3 H4| | | |]; subst; try contradiction.
      + destruct B1. exists s. exact H1.
      + cbn [fragment_of]. rewrite H3. cbn [bind]. apply licensing_iff. exact H4. }
  apply begins_not in B2. change RDF_type with is_a.
  assert (EM : forall es, each (fun m => parse_expression O L k G ns (Some m)) (objects G n (spdx "member")) = Ok es
      <-> exists ms, Objects n (term "member") G ms /\ Forall2 (Expresses O L G ns k) ms es).
  { intro es. rewrite (each_iff _ (Expresses O L G ns k)) by (intros; apply IH). split.
    - intro H. eexists. split; [apply objects_iff; reflexivity|exact H].
    - intros (ms & H1 & H2). apply objects_iff in H1. subst ms. exact H2. }
  assert (NO : forall ty, any_value (objects G n is_a) = ty -> ty <> Some (NUri (term "ConjunctiveLicenseSet")) -> ty <> Some (NUri (term "DisjunctiveLicenseSet")) ->
    ty <> Some (NUri (term "WithExceptionOperator")) -> (licensing O [] = Ok e <-> Expresses O L G ns (S k) n e)).
  { intros ty E N1 N2 N3. rewrite licensing_blank. apply first_iff in E. split.
    - intros ->. eapply Ex_other; eassumption.
    - intro H. inversion H as [k' n' s e' H1|k' u s e' H1 H2 H3 H4|k' n' ms es e' H1 H2 H3|k' n' ms es e' H1 H2 H3|k' n' m x l s e' H1 H2 H3|k' n' ty' H1 H2 H3]; subst; try contradiction.
      + destruct B1. exists s. exact H1.
      + apply first_iff in E, H3. congruence.
      + apply first_iff in E, H3. congruence.
      + apply first_iff in E, H3. congruence.
      + reflexivity. }
  destruct (any_value (objects G n is_a)) as [ty|] eqn:T.
  2: { apply (NO None eq_refl); discriminate. }
  destruct (is_uri ty (spdx "ConjunctiveLicenseSet")) eqn:T1.
  { apply is_uri_iff in T1. subst ty. split.
    - intro H. apply bind_ok in H as (es & H1 & H). apply EM in H1 as (ms & H1 & H2). apply licensing_iff in H. eapply Ex_and; try eassumption. apply first_iff. exact T.
    - intro H. inversion H as [k' n' s e' H1|k' u s e' H1 H2 H3 H4|k' n' ms es e' H1 H2 H3 H4 H5 H6|k' n' ms es e' H1 H2 H3|k' n' m x l s e' H1 H2 H3|k' n' ty' H1 H2 H3]; subst; try contradiction.
      + destruct B1. exists s. exact H1.
      + assert (H7 : exists ms, Objects n (term "member") G ms /\ Forall2 (Expresses O L G ns k) ms es) by eauto. apply EM in H7. rewrite H7. cbn [bind].
        apply licensing_iff. exact H6.
      + apply first_iff in H3. rewrite T in H3. discriminate.
      + apply first_iff in H3. rewrite T in H3. discriminate.
      + apply first_iff in H3. subst ty'. rewrite T in *. contradiction. }
  destruct (is_uri ty (spdx "DisjunctiveLicenseSet")) eqn:T2.
  { apply is_uri_iff in T2. subst ty. split.
    - intro H. apply bind_ok in H as (es & H1 & H). apply EM in H1 as (ms & H1 & H2). apply licensing_iff in H. eapply Ex_or; try eassumption. apply first_iff. exact T.
    - intro H. inversion H as [k' n' s e' H1|k' u s e' H1 H2 H3 H4|k' n' ms es e' H1 H2 H3|k' n' ms es e' H1 H2 H3 H4 H5 H6|k' n' m x l s e' H1 H2 H3|k' n' ty' H1 H2 H3]; subst; try contradiction.
      + destruct B1. exists s. exact H1.
      + apply first_iff in H3. rewrite T in H3. discriminate.
      + assert (H7 : exists ms, Objects n (term "member") G ms /\ Forall2 (Expresses O L G ns k) ms es) by eauto. apply EM in H7. rewrite H7. cbn [bind].
        apply licensing_iff. exact H6.
      + apply first_iff in H3. rewrite T in H3. discriminate.
      + apply first_iff in H3. subst ty'. rewrite T in *. contradiction. }
  destruct (is_uri ty (spdx "WithExceptionOperator")) eqn:T3.
  { apply is_uri_iff in T3. subst ty. split.
    - intro H. apply bind_ok in H as (l & H1 & H). apply bind_ok in H as (x & H2 & H). apply licensing_iff in H.
      destruct (any_value (objects G n (spdx "member"))) as [m|] eqn:M; [|destruct k; discriminate H1]. apply IH in H1.
      destruct (any_value (objects G n (spdx "licenseException"))) as [y|] eqn:Y; [|discriminate H2]. apply exception_iff in H2.
      apply (Ex_with O L G ns k n m y l x e B1 B2); auto; apply first_iff; assumption.
    - intro H. inversion H as [k' n' s e' H1|k' u s e' H1 H2 H3 H4|k' n' ms es e' H1 H2 H3|k' n' ms es e' H1 H2 H3|k' n' m x l s e' H1 H2 H3 H4 H5 H6 H7 H8|k' n' ty' H1 H2 H3]; subst; try contradiction.
      + destruct B1. exists s. exact H1.
      + apply first_iff in H3. rewrite T in H3. discriminate.
      + apply first_iff in H3. rewrite T in H3. discriminate.
      + apply first_iff in H4, H6. change (spdx "member") with (term "member"). change (spdx "licenseException") with (term "licenseException"). rewrite H4, H6.
        apply IH in H5. rewrite H5. cbn [bind]. apply exception_iff in H7. rewrite H7. cbn [bind]. apply licensing_iff. exact H8.
      + apply first_iff in H3. subst ty'. rewrite T in *. contradiction. }
  apply (NO (Some ty) eq_refl).
  - intro K. injection K as ->. assert (is_uri (NUri (term "ConjunctiveLicenseSet")) (spdx "ConjunctiveLicenseSet") = true) by (apply is_uri_iff; reflexivity). congruence.
  - intro K. injection K as ->. assert (is_uri (NUri (term "DisjunctiveLicenseSet")) (spdx "DisjunctiveLicenseSet") = true) by (apply is_uri_iff; reflexivity). congruence.
  - intro K. injection K as ->. assert (is_uri (NUri (term "WithExceptionOperator")) (spdx "WithExceptionOperator") = true) by (apply is_uri_iff; reflexivity). congruence.
Qed.
Lemma noisy_licensing s : Noisy (licensing O s).
Proof.
  unfold licensing, licensing_parse. destruct (strip s); [apply noisy_ok|]. apply noisy_bind; [|intro; apply noisy_ok]. apply foreign_noisy. intro m. apply (fo_license _ _ F).
Qed.
Lemma noisy_each {A B} (f : A -> result B) l : (forall x, Noisy (f x)) -> Noisy (each f l).
Proof. intro H. induction l as [|x l IH]; cbn; [apply noisy_ok|]. apply noisy_bind; [apply H|]. intro. apply noisy_bind; [exact IH|]. intro. apply noisy_ok. Qed.
Lemma noisy_expression ns : forall k v, Noisy (parse_expression O L k G ns v).
Proof.
  induction k as [|k IH]; intro v; [intros e H; injection H as <-; discriminate|]. cbn [parse_expression]. destruct v as [n|]; [|intros e H; injection H as <-; discriminate].
  destruct (startswith _ _); [apply noisy_licensing|]. destruct (startswith _ _); [apply noisy_bind; [apply noisy_fragment|intro; apply noisy_licensing]|].
  destruct (any_value (objects G n RDF_type)) as [ty|]; [|apply noisy_licensing].
  destruct (is_uri _ _); [apply noisy_bind; [apply noisy_each; intro; apply IH|intro; apply noisy_licensing]|].
  destruct (is_uri _ _); [apply noisy_bind; [apply noisy_each; intro; apply IH|intro; apply noisy_licensing]|].
  destruct (is_uri _ _); [|apply noisy_licensing]. apply noisy_bind; [apply IH|]. intro. apply noisy_bind; [|intro; apply noisy_licensing].
  unfold parse_license_exception. destruct (any_value _); [|intros e H; injection H as <-; discriminate]. destruct (startswith _ _); [apply noisy_ok|].
  destruct (any_value _); [apply noisy_ok|intros e H; injection H as <-; discriminate].
Qed.
Definition expression_read ns n a := expression_iff ns (r_depth L) n a.
Lemma license_field_iff ns s p o : parse_license_field O L G ns s p = Ok ([], o) <-> LicenseAt O L G ns s p o.
Proof.
  unfold parse_license_field, LicenseAt. split.
  - intro H. apply bind_ok in H as ([log v] & H1 & H). injection H as -> <-.
    apply (nn_iff L G (parse_license O L G ns) (Expresses O L G ns (r_depth L)) s p v (expression_read ns) (fun n => noisy_expression ns _ (Some n))) in H1.
    destruct H1 as (x & S1 & K). exists x. split; [exact S1|]. destruct v as [[[e|]| |]|]; cbn [as_license].
    + destruct K as (n & -> & T & W). exists n. repeat split; try apply W; auto.
    + intros n E. right. destruct K as (m & E' & T & W). rewrite E' in E. injection E as ->. exact W.
    + destruct K as (n & -> & T & W). exists n. split; auto. split; auto.
    + destruct K as (n & -> & T & W). exists n. split; auto. split; auto.
    + intros n E. left. exact (K n E).
  - intros (x & S1 & K).
    assert (H : exists v, parse_literal_nn L (parse_license O L G ns) G s p = Ok ([], v) /\ as_license v = o).
    { assert (D : forall v, MaybeAt L G (Word L (Expresses O L G ns (r_depth L))) s p v -> parse_literal_nn L (parse_license O L G ns) G s p = Ok ([], v)).
      { intros v D. apply (nn_iff L G (parse_license O L G ns) (Expresses O L G ns (r_depth L)) s p v (expression_read ns) (fun n => noisy_expression ns _ (Some n))). exact D. }
      destruct o as [[e| |]|].
      - destruct K as (n & -> & T & W). exists (Some (NVal (Some e))). split; [apply D; exists (Some n); split; [exact S1|exists n; auto]|reflexivity].
      - destruct K as (n & -> & T & W). exists (Some NNoAssertion). split; [apply D; exists (Some n); split; [exact S1|exists n; auto]|reflexivity].
      - destruct K as (n & -> & T & W). exists (Some NNone). split; [apply D; exists (Some n); split; [exact S1|exists n; auto]|reflexivity].
      - destruct x as [n|].
        + destruct (node_truthy L n) eqn:T.
          * exists (Some (NVal None)). split; [|reflexivity]. apply D. exists (Some n). split; [exact S1|]. exists n. repeat split; auto; destruct (K n eq_refl) as [K'|K']; try tauto; destruct (K' T).
          * exists None. split; [|reflexivity]. apply D. exists (Some n). split; [exact S1|]. intros m E. injection E as <-. unfold Truthy. congruence.
        + exists None. split; [|reflexivity]. apply D. exists None. split; [exact S1|]. discriminate. }
    destruct H as (v & H & <-). rewrite H. reflexivity.
Qed.
Lemma license_list_iff c k ns s p r : (exists l, parse_license_list O L G ns s p = Ok ([], l) /\ c_items c k l = COk r) <-> EachAt G (SaysLicense O L G ns) s p r.
Proof.
  unfold parse_license_list, EachAt.
  assert (X : forall n a, (do (log, v) <- get_correctly_typed_value L (parse_license O L G ns) (Some n); Ok (log, as_license v)) = Ok ([], Some a)
      <-> SaysLicense O L G ns n a).
  { intros n a. pose proof (fun x => typed_iff L (parse_license O L G ns) (Expresses O L G ns (r_depth L)) n x (expression_read ns) (fun n => noisy_expression ns _ (Some n))) as T.
    unfold SaysLicense. split.
    - intro H. apply bind_ok in H as ([log v] & H1 & H). injection H as -> H. apply T in H1. destruct v as [[[e|]| |]|]; try discriminate H; injection H as <-; exact H1.
    - intro H. destruct a as [e| |].
      + rewrite (proj2 (T (Some (NVal (Some e)))) H). reflexivity.
      + rewrite (proj2 (T (Some NNoAssertion)) H). reflexivity.
      + rewrite (proj2 (T (Some NNone)) H). reflexivity. }
  split.
  - intros (l & H & C). apply c_items_iff in C. subst l. eexists. split; [apply objects_iff; reflexivity|].
    apply (each_log_iff _ (fun n o => (do (log, v) <- get_correctly_typed_value L (parse_license O L G ns) (Some n); Ok (log, as_license v)) = Ok ([], o))) in H; [|tauto].
    remember (map Some r) as m eqn:E. revert r E. induction H as [|n o l m H _ IH]; intros [|a r] E; try discriminate; constructor.
    + apply X. injection E as ->. exact H.
    + apply IH. injection E as _ E. exact E.
  - intros (l & H & K). apply objects_iff in H. subst l. exists (map Some r). split; [|apply c_items_iff; reflexivity].
    apply (each_log_iff _ (fun n o => (do (log, v) <- get_correctly_typed_value L (parse_license O L G ns) (Some n); Ok (log, as_license v)) = Ok ([], o))); [tauto|].
    induction K as [|n a l r K _ IH]; cbn [map]; constructor; [|exact IH]. apply X. exact K.
Qed.
End Reading.
