(** What the RDF reader reads is what the graph says: snippets, creation information, documents. *)
From Verif Require Import Py PyRe PyFacts Data Oracles Basics BasicsFacts ActorFacts Json Construct JsonParse JsonErrors JsonRead Rdf RdfParser RdfReadSpec RdfIff RdfIff2 RdfIff3.

Ltac id_step H := let E := fresh "I" in let x := fresh "id" in apply bind_ok in H as (x & E & H); lazy beta iota in H.
Definition to_list {A} (o : option A) : list A := match o with Some a => [a] | None => [] end.

Section Reading.
Variable O : oracles.
Variable L : rdf_library.
Hypothesis Fo : Foreign O L.
Variable G : list triple.

(** ** Ranges *)
Lemma noisy_int v : Noisy (py_int L v).
Proof.
  assert (T : forall s, Noisy (int_of_text s)).
  { intro s. apply foreign_noisy. intros m H. unfold int_of_text in H. destruct (strip s) as [|c t]; [discriminate|]. cbv zeta in H. destruct (if N.eqb c _ || _ then _ else _); discriminate. }
  destruct v as [s|s|s k]; cbn [py_int]; try apply T. destruct (lit_value L s k) eqn:E; try apply T; try apply noisy_ok.
  - destruct b; apply noisy_ok.
  - apply foreign_noisy. intros m ->. destruct k; try discriminate E. exact (fo_int _ _ Fo _ _ _ _ E).
Qed.
Lemma value_iff n p z : parse_range_value L G n p = Ok (Some z) <-> At L G (fun v z => py_int L v = Ok z) n p z.
Proof.
  unfold parse_range_value, At, MaybeAt, Truthy. split.
  - destruct (only_value (objects G n p)) as [[v|]|] eqn:E; try discriminate. destruct (node_truthy L v) eqn:T; [|discriminate]. intro H. apply bind_ok in H as (y & H1 & H). injection H as ->.
    exists (Some v). split; [apply single_iff; exact E|]. eauto.
  - intros (w & S1 & v & -> & T & H). apply single_iff in S1. rewrite S1, T, H. reflexivity.
Qed.
Lemma pointer_type_iff p n ty b : get_pointer_type L G p n = Ok (ty, b) <-> Single G n p (Some b) /\ Truthy L b /\ First G b is_a ty.
Proof.
  unfold get_pointer_type, Truthy. change RDF_type with is_a. split.
  - destruct (only_value (objects G n p)) as [[v|]|] eqn:E; try discriminate. destruct (node_truthy L v) eqn:T; [|discriminate]. intro H. injection H as <- ->.
    split; [apply single_iff; exact E|]. split; [exact T|]. apply first_iff. reflexivity.
  - intros (S1 & T & H). apply single_iff in S1. rewrite S1, T. apply first_iff in H. rewrite H. reflexivity.
Qed.
Definition pointer_class (b : bool) : pystr := pointer (if b then "ByteOffsetPointer" else "LineCharPointer").
Lemma matching_iff ty b q : pointer_matching ty = Some (b, q) <-> ty = Some (NUri (pointer_class b)) /\ q = pointer (if b then "offset" else "lineNumber").
Proof.
  unfold pointer_matching. split.
  - destruct ty as [n|]; [|discriminate]. destruct (is_uri n _) eqn:E1; [apply is_uri_iff in E1; intro H; injection H as <- <-; split; [subst n|]; reflexivity|].
    destruct (is_uri n (ptr "LineCharPointer")) eqn:E2; [|discriminate]. apply is_uri_iff in E2. intro H. injection H as <- <-. split; [subst n|]; reflexivity.
  - intros [-> ->]. destruct b; reflexivity.
Qed.
Lemma ranges_iff n b x y : parse_ranges L G n = Ok (b, (Some x, Some y)) <-> RangeIn L G n (b, (x, y)).
Proof.
  unfold parse_ranges, RangeIn. cbn [fst snd]. split.
  - intro H. apply bind_ok in H as ([t1 n1] & H1 & H). lazy beta iota in H. apply bind_ok in H as ([t2 n2] & H2 & H). lazy beta iota in H.
    change (ptr "startPointer") with (pointer "startPointer") in H1. change (ptr "endPointer") with (pointer "endPointer") in H2.
    apply pointer_type_iff in H1 as (S1 & T1 & F1). apply pointer_type_iff in H2 as (S2 & T2 & F2). destruct (opt_node_eq_dec t1 t2) as [->|]; [|discriminate].
    destruct (pointer_matching t2) as [[b' q]|] eqn:M; [|discriminate]. apply matching_iff in M as [-> ->].
    apply bind_ok in H as (x' & V1 & H). apply bind_ok in H as (y' & V2 & H).
    injection H as -> -> ->. apply value_iff in V1, V2. split.
    + exists (Some n1). split; [exact S1|]. exists n1. repeat split; assumption.
    + exists (Some n2). split; [exact S2|]. exists n2. repeat split; assumption.
  - intros [(w1 & S1 & n1 & -> & T1 & F1 & V1) (w2 & S2 & n2 & -> & T2 & F2 & V2)].
    assert (P1 : get_pointer_type L G (ptr "startPointer") n = Ok (Some (NUri (pointer_class b)), n1)) by (apply pointer_type_iff; split; [exact S1|split; assumption]).
    assert (P2 : get_pointer_type L G (ptr "endPointer") n = Ok (Some (NUri (pointer_class b)), n2)) by (apply pointer_type_iff; split; [exact S2|split; assumption]).
    apply bind_ok. eexists. split; [exact P1|]. lazy beta iota. apply bind_ok. eexists. split; [exact P2|]. lazy beta iota.
    destruct (opt_node_eq_dec _ _) as [_|N]; [|destruct (N eq_refl)].
    rewrite (proj2 (matching_iff (Some (NUri (pointer_class b))) b _) (conj eq_refl eq_refl)). apply value_iff in V1, V2.
    apply bind_ok. eexists. split; [exact V1|]. apply bind_ok. eexists. split; [exact V2|]. reflexivity.
Qed.
Lemma noisy_value n p : Noisy (parse_range_value L G n p).
Proof.
  unfold parse_range_value. destruct (only_value _) as [[v|]|]; [|apply noisy_ok|intros e H; injection H as <-; discriminate]. destruct (node_truthy L v); [|apply noisy_ok].
  apply noisy_bind; [apply noisy_int|]. intro. apply noisy_ok.
Qed.
Lemma noisy_pointer_type p n : Noisy (get_pointer_type L G p n).
Proof.
  unfold get_pointer_type. destruct (only_value _) as [[v|]|]; try (intros e H; injection H as <-; discriminate). destruct (node_truthy L v); [apply noisy_ok|].
  intros e H. injection H as <-. discriminate.
Qed.
Lemma noisy_ranges n : Noisy (parse_ranges L G n).
Proof.
  unfold parse_ranges. apply noisy_bind; [apply noisy_pointer_type|]. intros [? ?]. apply noisy_bind; [apply noisy_pointer_type|]. intros [? ?].
  destruct (opt_node_eq_dec _ _); [|intros e' H; injection H as <-; discriminate]. destruct (pointer_matching _) as [[? ?]|]; [|intros e' H; injection H as <-; discriminate].
  apply noisy_bind; [apply noisy_value|]. intro. apply noisy_bind; [apply noisy_value|]. intro. apply noisy_ok.
Qed.
Lemma apply_iff {A} (f : node -> result A) n o : Noisy (f n) -> apply_parsing_method f n = Ok ([], o) <-> exists a, o = Some a /\ f n = Ok a.
Proof.
  intro N. unfold apply_parsing_method. destruct (f n) as [a|e] eqn:E.
  - split; [intro H; injection H as <-; eauto|]. intros (b & -> & H). congruence.
  - split; [|intros (b & _ & H); discriminate]. destruct (caught e) as [ms|] eqn:C; [|discriminate]. intro H. injection H as -> <-. destruct (N e eq_refl C).
Qed.
Lemma read_ranges_iff l : forall B K B' K', read_ranges L G l B K = Ok ([], (B', K')) <->
  exists rs, Forall2 (fun n r => parse_ranges L G n = Ok r) l rs /\ to_list B ++ map snd (filter fst rs) = to_list B'
    /\ to_list K ++ map snd (filter (fun r => negb (fst r)) rs) = to_list K'.
Proof.
  induction l as [|n l IH]; intros B K B' K'.
  - cbn [read_ranges]. split.
    + intro H. injection H as <- <-. exists []. cbn. rewrite !app_nil_r. repeat split. constructor.
    + intros (rs & H & E1 & E2). inversion H; subst. cbn in E1, E2. rewrite app_nil_r in E1, E2. destruct B, B', K, K'; cbn in E1, E2; try discriminate; congruence.
  - cbn [read_ranges]. split.
    + intro H. apply bind_ok in H as ([m r] & H1 & H). lazy beta iota in H.
      destruct r as [[b v]|].
      * destruct b.
        { destruct B as [w|]; (apply bind_ok in H as ([ms q] & H2 & H); lazy beta iota in H; injection H as H ->); [destruct m; discriminate H|].
          apply app_eq_nil in H as [-> H]. cbn [app] in H. subst ms. apply apply_iff in H1 as (a & Ea & H1); [|apply noisy_ranges]. injection Ea as <-.
          apply IH in H2 as (rs & R1 & R2 & R3). exists ((true, v) :: rs). split; [constructor; assumption|]. cbn. split; [exact R2|exact R3]. }
        { destruct K as [w|]; (apply bind_ok in H as ([ms q] & H2 & H); lazy beta iota in H; injection H as H ->); [destruct m; discriminate H|].
          apply app_eq_nil in H as [-> H]. cbn [app] in H. subst ms. apply apply_iff in H1 as (a & Ea & H1); [|apply noisy_ranges]. injection Ea as <-.
          apply IH in H2 as (rs & R1 & R2 & R3). exists ((false, v) :: rs). split; [constructor; assumption|]. cbn. split; [exact R2|exact R3]. }
      * apply bind_ok in H as ([ms q] & H2 & H). lazy beta iota in H. injection H as H ->. apply app_eq_nil in H as [-> _].
        apply apply_iff in H1 as (a & Ea & _); [discriminate|apply noisy_ranges].
    + intros (rs & H & E1 & E2). inversion H as [|? [b v] ? rs' H1 H2]; subst.
      assert (A : apply_parsing_method (parse_ranges L G) n = Ok ([], Some (b, v))) by (apply apply_iff; [apply noisy_ranges|eauto]).
      apply bind_ok. eexists. split; [exact A|]. lazy beta iota. destruct b; cbn [filter fst negb map snd] in E1, E2.
      * destruct B as [w|]; cbn [to_list app] in E1.
        { destruct B'; discriminate E1. }
        apply bind_ok. exists ([], (B', K')). split; [|reflexivity]. apply IH. exists rs'. split; [exact H2|]. split; [exact E1|exact E2].
      * destruct K as [w|]; cbn [to_list app] in E2.
        { destruct K'; discriminate E2. }
        apply bind_ok. exists ([], (B', K')). split; [|reflexivity]. apply IH. exists rs'. split; [exact H2|]. split; [exact E1|exact E2].
Qed.
Lemma snippet_ranges c k c' k' s bytes lines :
  (exists B K, read_ranges L G (objects G s (spdx "range")) None None = Ok ([], (B, K)) /\ c_pair c k B = COk bytes /\ c_opt_pair c' k' K = COk lines)
  <-> exists rs, EachAt G (RangeIn L G) s (term "range") rs
    /\ map snd (filter fst rs) = [bytes]
    /\ map snd (filter (fun r => negb (fst r)) rs) = match lines with Some r => [r] | None => [] end.
Proof.
  split.
  - intros (B & K & H & C1 & C2). apply read_ranges_iff in H as (rs & R1 & R2 & R3). cbn [to_list app] in R2, R3.
    set (ok := fun (r : bool * (option Z * option Z)) (r' : bool * (Z * Z)) => r = (fst r', (Some (fst (snd r')), Some (snd (snd r'))))).
    assert (X : exists qs, Forall2 ok rs qs).
    { assert (Y : Forall (fun r : bool * (option Z * option Z) => exists r', ok r r') rs).
      { apply Forall_forall. intros [b v] Hin. destruct b.
        - assert (In v (map snd (filter fst rs))) as Hv by (apply in_map_iff; exists (true, v); split; [reflexivity|]; apply filter_In; auto).
          rewrite R2 in Hv. destruct B as [w|]; [|destruct Hv]. destruct Hv as [->|[]]. destruct v as [[x|] [y|]]; cbn in C1; try discriminate. exists (true, (x, y)). reflexivity.
        - assert (In v (map snd (filter (fun r => negb (fst r)) rs))) as Hv by (apply in_map_iff; exists (false, v); split; [reflexivity|]; apply filter_In; auto).
          rewrite R3 in Hv. destruct K as [w|]; [|destruct Hv]. destruct Hv as [->|[]]. destruct v as [[x|] [y|]]; cbn in C2; try discriminate. exists (false, (x, y)). reflexivity. }
      clear - Y. induction Y as [|r rs (r' & H) _ (qs & IH)]; [exists []; constructor|]. exists (r' :: qs). constructor; assumption. }
    destruct X as (qs & Q). exists qs.
    assert (M : forall f : bool -> bool, map snd (filter (fun r => f (fst r)) rs) = map (fun v : Z * Z => (Some (fst v), Some (snd v))) (map snd (filter (fun r => f (fst r)) qs))).
    { intro f. clear - Q. induction Q as [|r q rs qs H Q IH]; [reflexivity|]. cbn [filter]. unfold ok in H. subst r. cbn [fst]. destruct (f (fst q)); cbn [map snd]; [f_equal|]; exact IH. }
    split; [|split].
    + eexists. split; [apply objects_iff; reflexivity|]. change (term "range") with (spdx "range"). revert R1. generalize (objects G s (spdx "range")). clear - Q. intros l R1. revert qs Q.
      induction R1 as [|n r l rs H _ IH]; intros qs Q; inversion Q as [|? q ? qs' Q1 Q2]; subst; constructor; [|apply IH; exact Q2]. unfold ok in Q1. subst r. destruct q as [b [x y]]. apply ranges_iff. exact H.
    + pose proof (M (fun b => b)) as M1. cbn beta in M1. change (filter (fun r : bool * (option Z * option Z) => fst r) rs) with (filter fst rs) in M1. rewrite R2 in M1.
      change (filter (fun r : bool * (Z * Z) => fst r) qs) with (filter fst qs) in M1.
      destruct B as [[[x|] [y|]]|]; cbn in C1; try discriminate. destruct (map snd (filter fst qs)) as [|[x' y'] [|]]; cbn in M1; try discriminate.
      assert (x = x' /\ y = y') as [-> ->] by (split; congruence). congruence.
    + pose proof (M negb) as M2. rewrite R3 in M2. destruct K as [[[x|] [y|]]|]; cbn in C2; try discriminate.
      * assert (lines = Some (x, y)) as -> by congruence. destruct (map snd (filter (fun r : bool * (Z * Z) => negb (fst r)) qs)) as [|[x' y'] [|]]; cbn in M2; try discriminate.
        assert (x = x' /\ y = y') as [-> ->] by (split; congruence). reflexivity.
      * assert (lines = None) as -> by congruence. destruct (map snd (filter (fun r : bool * (Z * Z) => negb (fst r)) qs)); [reflexivity|discriminate].
  - intros (qs & (l & E & Q) & R2 & R3). apply objects_iff in E. change (term "range") with (spdx "range") in E. rewrite E.
    set (up := fun v : Z * Z => (Some (fst v), Some (snd v))). exists (Some (up bytes)), (option_map up lines). split.
    + apply read_ranges_iff. exists (map (fun r => (fst r, up (snd r))) qs). split.
      * clear - Q. induction Q as [|n [b [x y]] l qs H _ IH]; cbn [map]; constructor; [apply ranges_iff; exact H|exact IH].
      * assert (M : forall f : bool -> bool, map snd (filter (fun r => f (fst r)) (map (fun r : bool * (Z * Z) => (fst r, up (snd r))) qs)) = map up (map snd (filter (fun r => f (fst r)) qs))).
        { intro f. clear. induction qs as [|q qs IH]; [reflexivity|]. cbn [map filter fst]. destruct (f (fst q)); cbn [map snd]; [f_equal|]; exact IH. }
        cbn [to_list app]. split.
        { etransitivity; [exact (M (fun b => b))|]. cbn beta. change (filter (fun r : bool * (Z * Z) => fst r) qs) with (filter fst qs). rewrite R2. reflexivity. }
        { rewrite (M negb), R3. destruct lines; reflexivity. }
    + destruct bytes, lines as [[? ?]|]; split; reflexivity.
Qed.
Section Snippets.
Variable bound : list (pystr * pystr).
Variable ns : pystr.
Lemma snippet_iff s x : parse_snippet O L G bound ns s = Ok x <-> SnippetIn O L G bound ns s x.
Proof.
  unfold parse_snippet. cbv zeta. split.
  - intro H. id_step H. id_step H. apply bind_ok in H as ([l0 [B K]] & RR & H). lazy beta iota in H. do 6 inv_step H.
    apply named_ok in H as [N H]. nils. apply construct_ok in H. ap_inv H. cok.
    repeat match goal with K : c_req _ _ _ = COk _ |- _ => apply c_req_iff in K; subst end.
    split; cbn [sn_id sn_file sn_bytes sn_lines sn_concluded sn_info sn_lic_comment sn_copyright sn_comment sn_name sn_attribution].
    all: try (apply text_field; assumption).
    all: try (apply word_field; assumption).
    all: try (eapply plain_at; eassumption).
    all: try (apply (license_field_iff O L Fo); assumption).
    all: try (eapply (license_list_iff O L Fo); eexists; split; eassumption).
    all: try (apply (id_iff L); assumption).
    + destruct (any_value (objects G s (spdx "snippetFromFile"))) as [f|] eqn:A; [|discriminate]. exists f. split; [apply first_iff; exact A|]. apply id_iff. assumption.
    + eapply snippet_ranges. exists B, K. split; [exact RR|]. split; eassumption.
  - intro K. destruct x as [x1 x2 x3 x4 x5 x6 x7 x8 x9 x10 x11]. destruct K.
    cbn [sn_id sn_file sn_bytes sn_lines sn_concluded sn_info sn_lic_comment sn_copyright sn_comment sn_name sn_attribution] in *.
    apply (id_iff L) in gn_id. destruct gn_file as (f & A & I). apply first_iff in A. apply (id_iff L) in I. rewrite <- A in I. change (term "snippetFromFile") with (spdx "snippetFromFile") in I.
    apply text_field in gn_lic_comment, gn_comment, gn_name. apply word_field in gn_copyright. apply (license_field_iff O L Fo) in gn_concluded.
    apply (license_list_iff O L Fo G $"Snippet" $"license_info_in_snippet") in gn_info as (infos & F3 & C3). apply (plain_at L G $"Snippet" $"attribution_texts") in gn_attribution.
    apply (snippet_ranges $"Snippet" $"byte_range" $"Snippet" $"line_range") in gn_ranges as (B & K & RR & C1 & C2).
    go_step. go_step. apply bind_ok. eexists. split; [exact RR|]. lazy beta iota. repeat go_step.
    apply named_ok. split; [reflexivity|]. apply construct_ok. ap_go; try reflexivity; assumption.
Qed.
Lemma noisy_read_ranges l : forall B K, Noisy (read_ranges L G l B K).
Proof.
  induction l as [|n l IH]; intros B K; cbn [read_ranges]; [apply noisy_ok|]. apply noisy_bind; [apply noisy_apply|]. intros [m r].
  destruct r as [[[] v]|]; [destruct B|destruct K|]; (apply noisy_bind; [apply IH|]; intros [? ?]; apply noisy_ok).
Qed.
Lemma noisy_snippet s : Noisy (parse_snippet O L G bound ns s).
Proof.
  unfold parse_snippet. cbv zeta. do 2 (apply noisy_bind; [apply (noisy_id O L Fo)|intro]). apply noisy_bind; [apply noisy_read_ranges|]. intros [? [? ?]].
  repeat first [apply noisy_bind; [first [apply noisy_license_field|apply noisy_license_list|apply noisy_literal|apply noisy_nn|apply noisy_named]|first [intros [? ?]|intro]]|apply noisy_construct].
Qed.
End Snippets.
End Reading.
