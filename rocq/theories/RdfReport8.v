(** C75: mistakes in snippets and extracted licenses of an RDF graph. *)
From Verif Require Import Py PyRe PyFacts Data Oracles Basics ValidationSpec BasicsSpec BasicsFacts Json Construct JsonParse JsonErrors JsonRead Rdf RdfParser RdfReadSpec RdfIff RdfIff2 RdfIff3 RdfIff4 JsonReportSpec JsonReport RdfReportSpec RdfReportSpec2 RdfReport RdfReport2 RdfReport3 RdfReport4 RdfReport5.

Section Ranges.
Variable O : oracles.
Variable L : rdf_library.
Variable G : list triple.

Lemma bad_range n m : BadRange L G n m -> parse_ranges L G n = Raise (EParsing [m]).
Proof.
  unfold parse_ranges, get_pointer_type. change (ptr "startPointer") with (pointer "startPointer"). change (ptr "endPointer") with (pointer "endPointer").
  intros [H|a b l H|x H T K|x a b l H T K|x y t u H T K T' F1 F2 D]; apply objects_iff in H; rewrite H; try apply objects_iff in K; try rewrite K; cbn [only_value]; try reflexivity; unfold Truthy in *; rewrite T; cbn [bind]; try reflexivity.
  rewrite T'. cbn [bind]. apply first_iff in F1, F2. change RDF_type with is_a. rewrite F1, F2. destruct (opt_node_eq_dec t u); [congruence|reflexivity].
Qed.
Lemma read_mid a c n m v : forall B K, read_ranges L G (a ++ c) B K = Ok ([], v) -> parse_ranges L G n = Raise (EParsing [m]) -> read_ranges L G (a ++ n :: c) B K = Ok ([m], v).
Proof.
  induction a as [|x a IH]; intros B K H X; cbn [app read_ranges] in *.
  - assert (Y : apply_parsing_method (parse_ranges L G) n = Ok ([m], None)) by (unfold apply_parsing_method; rewrite X; reflexivity). rewrite Y. cbn [bind]. rewrite H. reflexivity.
  - destruct (apply_parsing_method (parse_ranges L G) x) as [[m1 r]|]; [|discriminate H]. cbn [bind] in *. destruct r as [[[] w]|].
    + destruct B as [b|].
      * destruct (read_ranges L G (a ++ c) _ _) as [[ms q]|]; [|discriminate H]. cbn [bind] in H. apply pair_ok in H as [H _]. destruct m1; discriminate H.
      * destruct (read_ranges L G (a ++ c) _ _) as [[ms q]|] eqn:E; [|discriminate H]. cbn [bind] in H. apply pair_ok in H as [H ->]. apply app_eq_nil in H as [-> H]. cbn [app] in H. subst ms. rewrite (IH _ _ E X). reflexivity.
    + destruct K as [b|].
      * destruct (read_ranges L G (a ++ c) _ _) as [[ms q]|]; [|discriminate H]. cbn [bind] in H. apply pair_ok in H as [H _]. destruct m1; discriminate H.
      * destruct (read_ranges L G (a ++ c) _ _) as [[ms q]|] eqn:E; [|discriminate H]. cbn [bind] in H. apply pair_ok in H as [H ->]. apply app_eq_nil in H as [-> H]. cbn [app] in H. subst ms. rewrite (IH _ _ E X). reflexivity.
    + destruct (read_ranges L G (a ++ c) _ _) as [[ms q]|] eqn:E; [|discriminate H]. cbn [bind] in H. apply pair_ok in H as [H ->]. apply app_eq_nil in H as [-> H]. cbn [app] in H. subst ms. rewrite (IH _ _ E X). reflexivity.
Qed.
Lemma read_snoc l n bytes w B' K' : forall B K, read_ranges L G l B K = Ok ([], (B', K')) -> parse_ranges L G n = Ok (bytes, w) -> (if bytes then B' else K') <> None ->
  read_ranges L G (l ++ [n]) B K = Ok ([if bytes then $"Multiple ByteOffsetPointer found." else $"Multiple LineCharPointer found."], (B', K')).
Proof.
  induction l as [|x l IH]; intros B K H X D; cbn [app read_ranges] in *.
  - assert (Y : apply_parsing_method (parse_ranges L G) n = Ok ([], Some (bytes, w))) by (unfold apply_parsing_method; rewrite X; reflexivity). rewrite Y. cbn [bind]. apply pair_ok in H as [_ H]. apply (f_equal (fun q => (fst q, snd q))) in H. cbn [fst snd] in H. assert (B = B' /\ K = K') as [-> ->] by (split; congruence).
    destruct bytes; [destruct B'|destruct K']; try congruence; reflexivity.
  - destruct (apply_parsing_method (parse_ranges L G) x) as [[m1 r]|]; [|discriminate H]. cbn [bind] in *. destruct r as [[[] u]|].
    + destruct B as [b|]; (destruct (read_ranges L G l _ _) as [[ms q]|] eqn:E; [|discriminate H]); cbn [bind] in H; apply pair_ok in H as [H ->]; apply app_eq_nil in H as [-> H]; [discriminate H|]. cbn [app] in H. subst ms. rewrite (IH _ _ E X D). reflexivity.
    + destruct K as [b|]; (destruct (read_ranges L G l _ _) as [[ms q]|] eqn:E; [|discriminate H]); cbn [bind] in H; apply pair_ok in H as [H ->]; apply app_eq_nil in H as [-> H]; [discriminate H|]. cbn [app] in H. subst ms. rewrite (IH _ _ E X D). reflexivity.
    + destruct (read_ranges L G l _ _) as [[ms q]|] eqn:E; [|discriminate H]. cbn [bind] in H. apply pair_ok in H as [H ->]. apply app_eq_nil in H as [-> H]. cbn [app] in H. subst ms. rewrite (IH _ _ E X D). reflexivity.
Qed.
Lemma to_list_short {A} (x y z : list A) (B : option A) : x ++ y ++ z = to_list B -> exists B', x ++ z = to_list B'.
Proof.
  intro H. destruct x as [|a x].
  - destruct y as [|b y]; [exists B; exact H|]. destruct B as [q|]; [|discriminate H]. cbn [app to_list] in H. injection H as _ H. apply app_eq_nil in H as [_ ->]. exists None. reflexivity.
  - destruct B as [q|]; [|discriminate H]. cbn [app to_list] in H. injection H as <- H. apply app_eq_nil in H as [-> H]. apply app_eq_nil in H as [_ ->]. exists (Some a). reflexivity.
Qed.
Hypothesis FR : Foreign O L.
Lemma read_instead a old c n m B K : read_ranges L G (a ++ old ++ c) None None = Ok ([], (B, K)) -> parse_ranges L G n = Raise (EParsing [m]) ->
  exists v, read_ranges L G (a ++ n :: c) None None = Ok ([m], v).
Proof.
  intros H X. apply (read_ranges_iff O L FR) in H as (rs & F & E1 & E2). cbn [to_list app] in E1, E2.
  apply Forall2_app_inv_l in F as (ra & r1 & F1 & F & ->). apply Forall2_app_inv_l in F as (ro & rc & _ & F2 & ->).
  rewrite !filter_app, !map_app in E1, E2. apply to_list_short in E1 as (B' & E1), E2 as (K' & E2).
  exists (B', K'). apply read_mid; [|exact X]. apply (read_ranges_iff O L FR). exists (ra ++ rc). split; [apply Forall2_app; assumption|]. rewrite !filter_app, !map_app. split; assumption.
Qed.
Lemma read_again l r n bytes v w B K : read_ranges L G l None None = Ok ([], (B, K)) -> In r l -> RangeIn L G r (bytes, v) -> RangeIn L G n (bytes, w) ->
  read_ranges L G (l ++ [n]) None None = Ok ([if bytes then $"Multiple ByteOffsetPointer found." else $"Multiple LineCharPointer found."], (B, K)).
Proof.
  intros H I V W. destruct v as [x y], w as [x' y']. apply (ranges_iff L) in V, W. apply (read_snoc l n bytes _ B K None None H W).
  apply (read_ranges_iff O L FR) in H as (rs & F & E1 & E2). cbn [to_list app] in E1, E2.
  assert (J : In (bytes, (Some x, Some y)) rs).
  { clear - F I V. induction F as [|n0 r0 l rs K F IH]; [destruct I|]. destruct I as [->|I]; [left; congruence|right; exact (IH I)]. }
  destruct bytes; intros ->.
  - assert (Z : In (Some x, Some y) (map snd (filter fst rs))) by (apply in_map_iff; exists (true, (Some x, Some y)); split; [reflexivity|]; apply filter_In; auto). rewrite E1 in Z. destruct Z.
  - assert (Z : In (Some x, Some y) (map snd (filter (fun r => negb (fst r)) rs))) by (apply in_map_iff; exists (false, (Some x, Some y)); split; [reflexivity|]; apply filter_In; auto). rewrite E2 in Z. destruct Z.
Qed.
End Ranges.

Section Elements.
Variable O : oracles.
Variable L : rdf_library.
Hypothesis FR : Foreign O L.
Lemma snippet_mistake s p G G' b ns k m : SameBut s p G G' -> parse_snippet O L G b ns s = Ok k -> SnippetMistake L G G' s p m ->
  parse_snippet O L G' b ns s = Raise (EParsing [parsing $"Snippet" m]).
Proof.
  intros SB R M. unfold parse_snippet in R. walk_all R. no_logs R. clear R. unfold parse_snippet.
  assert (X : exists v, read_ranges L G' (objects G' s (spdx "range")) None None = Ok ([m], v)).
  { destruct M as [xa xo xc xn xm B0 B N|xl bytes xr xv xn xw B0 I V B W]; rewrite (same_read_ranges L s _ G G' SB) by absent; apply objects_iff in B0, B; change (term "range") with (spdx "range") in *; rewrite B; rewrite B0 in *.
    - apply bad_range in N. match goal with E : read_ranges _ _ _ _ _ = Ok _ |- _ => exact (read_instead O L G FR _ _ _ _ _ _ _ E N) end.
    - match goal with E : read_ranges _ _ _ _ _ = Ok _ |- _ => eexists; exact (read_again O L G FR _ _ _ _ _ _ _ _ E I V W) end. }
  assert (P : p = spdx "range") by (destruct M; reflexivity). clear M. subst p. destruct X as ([v1 v2] & X). rewrite X. rest SB. replay. reflexivity.
Qed.
Lemma extracted_mistake s p G G' ns k m : SameBut s p G G' -> parse_extracted_licensing_info L G ns s = Ok k -> ExtractedMistake L G' s p m ->
  parse_extracted_licensing_info L G' ns s = Raise (EParsing [parsing $"ExtractedLicensingInfo" m]).
Proof.
  intros SB R M. unfold parse_extracted_licensing_info in R. walk_all R. no_logs R. clear R. unfold parse_extracted_licensing_info.
  destruct M as [m B]. apply (bad_text L stripped) in B. change (term "extractedText") with (spdx "extractedText") in *. rewrite B; rest SB; replay; reflexivity.
Qed.
End Elements.

Section Top.
Variable O : oracles.
Variable L : rdf_library.
Variables (s : node) (p : pystr) (g g' : graph).
Hypothesis SB : SameBut s p (g_triples g) (g_triples g').
Hypothesis BD : g_bound g' = g_bound g.
Notation G := (g_triples g).
Notation G' := (g_triples g').
Hypothesis FR : Foreign O L.
Hypothesis head : ~ In p head_asks.
Ltac top_here := rewrite ?(sb_subjects _ _ _ _ SB) by (apply (not_asked p head); unfold head_asks; member); rewrite ?(sb_pairs _ _ _ _ SB) by (apply (not_asked p head); unfold head_asks; member).
Ltac conclude R Noise f' Y X :=
  repeat (match type of R with bind (raise_if _) _ = _ => fail 1 | _ => idtac end;
    match type of R with bind ?Z _ = Ok _ => let E := fresh "E" in destruct Z as [?|?] eqn:E; [|discriminate R]; cbn [bind] in R end;
    repeat match type of R with (let (_, _) := ?x in _) = Ok _ => destruct x; cbn beta iota in R end);
  let N := fresh "N" in pose proof (raise_if_ok _ _ _ R) as N; repeat (apply app_eq_nil in N as [? N]); subst; clear R;
  match goal with E : each_try _ (?a ++ ?x :: ?c) = Ok _ |- _ =>
    let k := fresh in let K := fresh in destruct (each_try_ok _ _ _ Noise E x ltac:(apply in_elt)) as (k & K);
    let r := fresh in let Q := fresh in destruct (each_try_mid _ f' a x c _ _ E (fun y I => Y _ _ y I) (X _ _ _ K)) as (r & Q); rewrite Q end;
  replay; reflexivity.
Ltac conclude_info R Noise f' Y X :=
  repeat (match type of R with bind (raise_if _) _ = _ => fail 1 | _ => idtac end;
    match type of R with bind ?Z _ = Ok _ => let E := fresh "E" in destruct Z as [?|?] eqn:E; [|discriminate R]; cbn [bind] in R end;
    repeat match type of R with (let (_, _) := ?x in _) = Ok _ => destruct x; cbn beta iota in R end);
  let N := fresh "N" in pose proof (raise_if_ok _ _ _ R) as N; repeat (apply app_eq_nil in N as [? N]); subst; clear R;
  match goal with E : each_try _ (?a ++ ?x :: ?c) = Ok _ |- _ =>
    let k := fresh in let K := fresh in destruct (each_try_ok _ _ _ Noise E x ltac:(apply in_elt)) as (k & K);
    let r := fresh in let Q := fresh in destruct (each_try_mid _ f' a x c _ _ E Y (X _ K)) as (r & Q); rewrite Q end;
  replay; reflexivity.
Lemma noisy_snippet_here b ns x : Noisy (parse_snippet O L G b ns x). Proof. apply noisy_snippet; exact FR. Qed.
Lemma noisy_extracted_here ns (x : node * node) : Noisy (parse_extracted_licensing_info L G ns (snd x)). Proof. apply (noisy_extracted O); exact FR. Qed.
Lemma top_snippet a x c d m : translate_graph_to_document O L g = Ok d -> subjects G RDF_type (NUri (spdx "Snippet")) = a ++ x :: c -> parse_creation_info L g' = parse_creation_info L g ->
  Same_package O L g g' (subjects G RDF_type (NUri (spdx "Package"))) -> Same_file O L g g' (subjects G RDF_type (NUri (spdx "File"))) -> Same_annotation L g g' (pairs G (spdx "annotation")) -> Same_relationship L g g' (pairs G (spdx "relationship")) -> SameInfos L g g' ->
  Same_snippet O L g g' (a ++ c) -> (forall b ns k, parse_snippet O L G b ns x = Ok k -> parse_snippet O L G' b ns x = Raise (EParsing [m])) ->
  translate_graph_to_document O L g' = Raise (EParsing [m]).
Proof.
  intros R S C H1 H2 H3 H4 HI Y X. unfold translate_graph_to_document in *. rewrite C. top_here. rewrite BD. cbv zeta in *.
  destruct (parse_creation_info L g) as [ci|]; [|discriminate R]. cbn [bind] in *.
  rewrite (each_try_ext (parse_package O L G' _ _) (parse_package O L G (g_bound g ++ map binding (ci_refs ci)) (ci_namespace ci))) by (intros; apply H1; assumption).
  rewrite (each_try_ext (parse_file O L G' _ _) (parse_file O L G (g_bound g ++ map binding (ci_refs ci)) (ci_namespace ci))) by (intros; apply H2; assumption).
  rewrite (each_try_ext (parse_annotation L G' _ _) (parse_annotation L G (g_bound g ++ map binding (ci_refs ci)) (ci_namespace ci))) by (intros; apply H3; assumption).
  rewrite (each_try_ext (parse_relationship L G' _ _) (parse_relationship L G (g_bound g ++ map binding (ci_refs ci)) (ci_namespace ci))) by (intros; apply H4; assumption).
  rewrite (each_try_ext (fun x => parse_extracted_licensing_info L G' _ (snd x)) (fun x => parse_extracted_licensing_info L G (ci_namespace ci) (snd x))) by (intros; apply HI).
  rewrite S in *. set (b := g_bound g ++ map binding (ci_refs ci)) in *. set (ns := ci_namespace ci) in *.
  conclude R (noisy_snippet_here b ns) (parse_snippet O L G' b ns) Y X.
Qed.
Definition Same_info (l : list (node * node)) : Prop := forall (u : unit) ns x, In x l -> parse_extracted_licensing_info L G' ns (snd x) = parse_extracted_licensing_info L G ns (snd x).
Lemma top_info a x c d m : translate_graph_to_document O L g = Ok d -> pairs G (spdx "hasExtractedLicensingInfo") = a ++ x :: c -> parse_creation_info L g' = parse_creation_info L g ->
  Same_package O L g g' (subjects G RDF_type (NUri (spdx "Package"))) -> Same_file O L g g' (subjects G RDF_type (NUri (spdx "File"))) -> Same_snippet O L g g' (subjects G RDF_type (NUri (spdx "Snippet"))) -> Same_annotation L g g' (pairs G (spdx "annotation")) -> Same_relationship L g g' (pairs G (spdx "relationship")) ->
  Same_info (a ++ c) -> (forall (u : unit) ns k, parse_extracted_licensing_info L G ns (snd x) = Ok k -> parse_extracted_licensing_info L G' ns (snd x) = Raise (EParsing [m])) ->
  translate_graph_to_document O L g' = Raise (EParsing [m]).
Proof.
  intros R S C H1 H2 H3 H4 H5 Y X. unfold translate_graph_to_document in *. rewrite C. top_here. rewrite BD. cbv zeta in *.
  destruct (parse_creation_info L g) as [ci|]; [|discriminate R]. cbn [bind] in *.
  rewrite (each_try_ext (parse_package O L G' _ _) (parse_package O L G (g_bound g ++ map binding (ci_refs ci)) (ci_namespace ci))) by (intros; apply H1; assumption).
  rewrite (each_try_ext (parse_file O L G' _ _) (parse_file O L G (g_bound g ++ map binding (ci_refs ci)) (ci_namespace ci))) by (intros; apply H2; assumption).
  rewrite (each_try_ext (parse_snippet O L G' _ _) (parse_snippet O L G (g_bound g ++ map binding (ci_refs ci)) (ci_namespace ci))) by (intros; apply H3; assumption).
  rewrite (each_try_ext (parse_annotation L G' _ _) (parse_annotation L G (g_bound g ++ map binding (ci_refs ci)) (ci_namespace ci))) by (intros; apply H4; assumption).
  rewrite (each_try_ext (parse_relationship L G' _ _) (parse_relationship L G (g_bound g ++ map binding (ci_refs ci)) (ci_namespace ci))) by (intros; apply H5; assumption).
  rewrite S in *. set (b := g_bound g ++ map binding (ci_refs ci)) in *. set (ns := ci_namespace ci) in *.
  assert (X2 : forall k, parse_extracted_licensing_info L G ns (snd x) = Ok k -> parse_extracted_licensing_info L G' ns (snd x) = Raise (EParsing [m])) by (intros; eapply (X tt); eassumption).
  assert (Y2 : forall y, In y (a ++ c) -> parse_extracted_licensing_info L G' ns (snd y) = parse_extracted_licensing_info L G ns (snd y)) by (intros; apply (Y tt); assumption).
  conclude_info R (noisy_extracted_here ns) (fun x => parse_extracted_licensing_info L G' ns (@snd node node x)) Y2 X2.
Qed.
End Top.

Section Reports.
Variable O : oracles.
Variable L : rdf_library.
Hypothesis FR : Foreign O L.
Variables (g g' : graph) (d : document) (s : node) (p m : pystr).
Hypothesis R : translate_graph_to_document O L g = Ok d.
Hypothesis SB : SameBut s p (g_triples g) (g_triples g').
Hypothesis BD : g_bound g' = g_bound g.
Notation G := (g_triples g).
Notation G' := (g_triples g').
Ltac everywhere HEAD := first
  [ apply (same_creation L s _ g g' SB BD HEAD); absent
  | intros ? ? y Iy; apply (same_package O L s _ _ _ SB); [right; absent|absent|absent|intros ? _; right; absent|intros ? _; right; absent]
  | intros ? ? y Iy; apply (same_file O L s _ _ _ SB); [right; absent|absent|intros ? _; right; absent]
  | intros ? ? y Iy; apply (same_snippet O L s _ _ _ SB); [right; absent|absent|absent]
  | intros ? ? y Iy; apply (same_annotation L s _ _ _ SB); right; absent
  | intros ? ? y Iy; apply (same_relationship L s _ _ _ SB); right; absent
  | intros ? ?; apply (same_info L s _ _ _ SB); right; absent ].
Lemma report_snippet a c : Subjects is_a (NUri (term "Snippet")) G (a ++ s :: c) -> ~ In s (a ++ c) -> SnippetMistake L G G' s p m ->
  translate_graph_to_document O L g' = Raise (EParsing [parsing $"Snippet" m]).
Proof.
  intros S D M. apply subjects_iff in S. assert (P : p = spdx "range") by (destruct M; reflexivity). revert SB M. rewrite P. clear P. intros SB M.
  assert (HEAD : ~ In (spdx "range") head_asks) by absent.
  apply (top_snippet O L s _ g g' SB BD FR HEAD a s c d _ R S); try (everywhere HEAD).
  - intros b ns y I. apply (same_snippet O L s _ _ _ SB); [left; intros ->; exact (D I)|absent|absent].
  - intros b ns k K. exact (snippet_mistake O L FR s _ _ _ b ns k m SB K M).
Qed.
Lemma report_extracted x a c : Links (term "hasExtractedLicensingInfo") G (a ++ (x, s) :: c) -> ~ In s (map snd (a ++ c)) -> ExtractedMistake L G' s p m ->
  translate_graph_to_document O L g' = Raise (EParsing [parsing $"ExtractedLicensingInfo" m]).
Proof.
  intros S D M. apply links_iff in S. assert (P : p = spdx "extractedText") by (destruct M; reflexivity). revert SB M. rewrite P. clear P. intros SB M.
  assert (HEAD : ~ In (spdx "extractedText") head_asks) by absent.
  apply (top_info O L s _ g g' SB BD FR HEAD a (x, s) c d _ R S); try (everywhere HEAD).
  - intros _ ns y I. apply (same_info L s _ _ _ SB). left. intro E. apply D. rewrite <- E. apply in_map. exact I.
  - intros _ ns k K. exact (extracted_mistake L s _ _ _ ns k m SB K M).
Qed.
End Reports.
