(** Reading back the graph of a document. *)
From Verif Require Import Py PyFacts Data Oracles Basics Validation ValidationSpec BasicsSpec Json Construct JsonParse LocatorFacts
  Rdf RdfWriter RdfParser RdfSpec RdfGraphFacts RdfWriteFacts RdfElemFacts RdfReadFacts RdfDocFacts.
From Verif Require JsonMore ActorFacts BasicsFacts.
From Coq Require Import Lia.

(** ** Queries over the special triples *)
Lemma filter_filter {A} (f g : A -> bool) l : (forall x, f x = true -> g x = true) -> filter f (filter g l) = filter f l.
Proof.
  intro H. induction l as [|x l IH]; [reflexivity|]. cbn [filter]. destruct (g x) eqn:Eg; cbn [filter].
  - rewrite IH. reflexivity.
  - rewrite IH. destruct (f x) eqn:Ef; [|reflexivity]. rewrite (H x Ef) in Eg. discriminate.
Qed.
Lemma nodup_sub {B K} (k : triple -> K) (f : triple -> bool) (h : triple -> B) (back : B -> K) l : NoDup (map k l) ->
  (forall t, f t = true -> k t = back (h t)) -> NoDup (sub f h l).
Proof.
  intros ND H. unfold sub. apply (NoDup_map_inv back). rewrite map_map.
  induction l as [|t l IH]; [constructor|]. cbn [map] in ND. inversion ND as [|? ? N1 N2]; subst. cbn [filter]. destruct (f t) eqn:E; [|auto].
  cbn [map]. constructor; [|auto]. intro K0. apply in_map_iff in K0 as (x & Ex & Hx). apply filter_In in Hx as [Hx Fx].
  apply N1. rewrite (H t E), <- Ex, <- (H x Fx). apply in_map. exact Hx.
Qed.
Lemma sub_app {B} f (h : triple -> B) a b : sub f h (a ++ b) = sub f h a ++ sub f h b.
Proof. unfold sub. rewrite filter_app, map_app. reflexivity. Qed.
Lemma sub_cons {B} f (h : triple -> B) x b : sub f h (x :: b) = (if f x then [h x] else []) ++ sub f h b.
Proof. unfold sub. cbn [filter]. destruct (f x); reflexivity. Qed.
Lemma sub_false {A B} (R : A -> triple -> Prop) l sp f (h : triple -> B) : Forall2 R l sp -> (forall a t, R a t -> f t = false) -> sub f h sp = [].
Proof. intros F H. induction F as [|a t l sp X _ IH]; [reflexivity|]. rewrite sub_cons, (H a t X). exact IH. Qed.
Lemma sub_rel {A B} (R : A -> triple -> Prop) (Q : A -> B -> Prop) l sp f (h : triple -> B) : Forall2 R l sp ->
  (forall a t, R a t -> f t = true /\ Q a (h t)) -> Forall2 Q l (sub f h sp).
Proof.
  intros F H. induction F as [|a t l sp X _ IH]; [constructor|]. destruct (H a t X) as [Ef Eq]. rewrite sub_cons, Ef. constructor; assumption.
Qed.

Section Reader.
Variable O : oracles.
Hypothesis HG : LicenseGrammar O.
Variable lab : nat -> pystr.
Hypothesis HLab : Labels lab.
Variable d : document.
Hypothesis HD : RdfDocument O d.
Let c := do_ci d.
Let ns := ci_namespace c.
Let refs := ci_refs c.
Let doc := file_uri ns (ci_id c).
Variable ts : list triple.
Hypothesis HS : DocSays O lab ns d (objects ts) (filter special ts).
Hypothesis HK : NoDup (map key (filter special ts)).
Variable L : rdf_library.
Hypothesis HL : RdfLibrary L ns.
Variable g : graph.
Let G := g_triples g.
Hypothesis HND : NoDup G.
Hypothesis HE : forall t, In t G <-> In t ts.
Hypothesis HB : Shortens L (g_bound g) refs.
Let V := objects ts.
Lemma Hci : RdfCreationInfo c.
Proof. exact (rd_ci _ _ HD). Qed.
Lemma Hns : RdfNamespace ns.
Proof. exact (rc_namespace _ Hci). Qed.
Lemma HR : Reads G V.
Proof. apply reads_same; assumption. Qed.

Lemma found {B} f (h : triple -> B) back : (forall t, f t = true -> special t = true /\ key t = back (h t)) ->
  Permutation (sub f h (filter special ts)) (sub f h G).
Proof.
  intro H. assert (E : sub f h (filter special ts) = sub f h ts).
  { unfold sub. rewrite filter_filter; [reflexivity|]. intros t X. apply H. exact X. }
  pose proof (nodup_sub key f h back _ HK (fun t X => proj2 (H t X))) as N. rewrite E in N |- *. apply sub_permutation; assumption.
Qed.
Lemma found_rel {A B} f (h : triple -> B) back (Q : A -> B -> Prop) l : (forall t, f t = true -> special t = true /\ key t = back (h t)) ->
  Forall2 Q l (sub f h (filter special ts)) -> exists l', Permutation l l' /\ Forall2 Q l' (sub f h G).
Proof. intros H F. eapply forall2_permutation; [exact F|]. eapply found. exact H. Qed.

Definition typed (T : pystr) (t : triple) : bool := str_eqb (snd (fst t)) RDF_type && node_eqb (snd t) (NUri T).
Definition linked (p : pystr) (t : triple) : bool := str_eqb (snd (fst t)) p.
Definition linked_from (s : node) (p : pystr) (t : triple) : bool := node_eqb (fst (fst t)) s && str_eqb (snd (fst t)) p.
Lemma typed_key T : str_in T special_types = true -> forall t, typed T t = true -> special t = true /\ key t = fst (fst t).
Proof.
  intros HT [[s p] o] H. unfold typed in H. cbn [fst snd] in H. apply andb_prop in H as [H1 H2]. apply str_eqb_eq in H1 as ->.
  apply node_eqb_eq in H2 as ->. unfold special, key. replace (str_in RDF_type special_preds) with false by (vm_compute; reflexivity).
  rewrite str_eqb_refl, HT. split; reflexivity.
Qed.
Lemma linked_key p : str_in p special_preds = true -> forall t, linked p t = true -> special t = true /\ key t = snd (fst (fst t), snd t).
Proof.
  intros HT [[s q] o] H. unfold linked in H. cbn [fst snd] in *. apply str_eqb_eq in H as ->. unfold special, key. rewrite HT. split; reflexivity.
Qed.
Lemma linked_from_key s p : str_in p special_preds = true -> forall t, linked_from s p t = true -> special t = true /\ key t = snd t.
Proof.
  intros HT [[x q] o] H. unfold linked_from in H. cbn [fst snd] in *. apply andb_prop in H as [_ H]. apply str_eqb_eq in H as ->.
  unfold special, key. rewrite HT. split; reflexivity.
Qed.

Ltac decide_at := repeat match goal with
  | H : exists _, _ |- _ => destruct H
  | H : _ /\ _ |- _ => destruct H
  end; subst; unfold typed, linked, linked_from; cbn [fst snd];
  try match goal with |- _ && str_eqb ?a ?b = false => replace (str_eqb a b) with false by (vm_compute; reflexivity); apply andb_false_r end;
  lazy; reflexivity.
Ltac no F := rewrite (sub_false _ _ _ _ _ F) by (intros; decide_at).
Ltac open_doc := destruct HS as (b & sr & sa & sf & sk & sl & sn & se & Esp & S0 & Bb & S1 & Fr & Fa & Ff & Fk & Fl & Fn & Fe);
  rewrite Esp; rewrite !sub_cons, !sub_app.

Lemma q_doc : subjects G RDF_type (NUri (spdx "SpdxDocument")) = [NUri doc].
Proof.
  apply Permutation_length_1_inv. change (subjects G RDF_type (NUri (spdx "SpdxDocument"))) with (sub (typed (spdx "SpdxDocument")) (fun t => fst (fst t)) G).
  etransitivity; [|apply (found _ _ (fun x => x)); apply typed_key; vm_compute; reflexivity].
  open_doc. no Fr. no Fa. no Ff. no Fk. no Fl. no Fn. no Fe.
  apply Permutation_refl.
Qed.
Lemma q_creation : exists b, subjects G RDF_type (NUri (spdx "CreationInfo")) = [b] /\ some_blank lab b /\ says (creation_says d) V b.
Proof.
  assert (X : exists b, Permutation [b] (subjects G RDF_type (NUri (spdx "CreationInfo"))) /\ some_blank lab b /\ says (creation_says d) V b).
  { change (subjects G RDF_type (NUri (spdx "CreationInfo"))) with (sub (typed (spdx "CreationInfo")) (fun t => fst (fst t)) G).
    pose proof (found (typed (spdx "CreationInfo")) (fun t => fst (fst t)) (fun x => x)
      (typed_key (spdx "CreationInfo") ltac:(vm_compute; reflexivity))) as P. revert P.
    open_doc. no Fr. no Fa. no Ff. no Fk. no Fl. no Fn. no Fe. intro P. exists b. split; [exact P|]. split; assumption. }
  destruct X as (b & P & X). exists b. split; [|exact X]. apply Permutation_length_1_inv. exact P.
Qed.
Lemma q_doc_says : says (doc_says d) V (NUri doc).
Proof. destruct HS as (b & sr & sa & sf & sk & sl & sn & se & Esp & S0 & _). exact S0. Qed.
Lemma q_refs : exists rs, Permutation refs rs /\ Forall2 (fun r v => v = NUri (file_uri ns (edr_id r)) /\ says (doc_ref_says lab r) V v) rs
  (objects G (NUri doc) (spdx "externalDocumentRef")).
Proof.
  change (objects G (NUri doc) (spdx "externalDocumentRef")) with (sub (linked_from (NUri doc) (spdx "externalDocumentRef")) snd G).
  eapply (found_rel _ snd (fun x => x)); [apply linked_from_key; vm_compute; reflexivity|].
  open_doc. no Fa. no Ff. no Fk. no Fl. no Fn. no Fe. rewrite !app_nil_r.
  replace (linked_from _ _ _) with false by (symmetry; decide_at). replace (linked_from _ _ _) with false by (symmetry; decide_at).
  cbn [app]. eapply sub_rel; [exact Fr|]. intros r t [-> X]. split; [|split; [reflexivity|exact X]].
  unfold linked_from. cbn [fst snd]. rewrite node_eqb_refl. vm_compute. reflexivity.
Qed.
Ltac pick := rewrite ?app_nil_r; cbn [app].
Lemma q_files : exists l, Permutation (do_files d) l /\ Forall2 (fun f v => v = NUri (file_uri ns (fi_id f)) /\ says (file_says O lab ns f) V v) l
  (subjects G RDF_type (NUri (spdx "File"))).
Proof.
  change (subjects G RDF_type (NUri (spdx "File"))) with (sub (typed (spdx "File")) (fun t => fst (fst t)) G).
  eapply (found_rel _ _ (fun x => x)); [apply typed_key; vm_compute; reflexivity|].
  open_doc. no Fr. no Fa. no Fk. no Fl. no Fn. no Fe. rewrite app_nil_r.
  refine (sub_rel _ _ _ _ _ _ Ff _). intros r t [-> X]. split; [lazy; reflexivity|]. split; [reflexivity|exact X].
Qed.
Lemma q_packages : exists l, Permutation (do_packages d) l /\ Forall2 (fun f v => v = NUri (file_uri ns (pk_id f)) /\ says (package_says O lab ns f) V v) l
  (subjects G RDF_type (NUri (spdx "Package"))).
Proof.
  change (subjects G RDF_type (NUri (spdx "Package"))) with (sub (typed (spdx "Package")) (fun t => fst (fst t)) G).
  eapply (found_rel _ _ (fun x => x)); [apply typed_key; vm_compute; reflexivity|].
  open_doc. no Fr. no Fa. no Ff. no Fl. no Fn. no Fe. rewrite app_nil_r.
  refine (sub_rel _ _ _ _ _ _ Fk _). intros r t [-> X]. split; [lazy; reflexivity|]. split; [reflexivity|exact X].
Qed.
Lemma q_snippets : exists l, Permutation (do_snippets d) l /\ Forall2 (fun f v => v = NUri (file_uri ns (sn_id f))
    /\ exists r, sn_lines f = Some r /\ says (snippet_says O lab ns refs f r) V v) l (subjects G RDF_type (NUri (spdx "Snippet"))).
Proof.
  change (subjects G RDF_type (NUri (spdx "Snippet"))) with (sub (typed (spdx "Snippet")) (fun t => fst (fst t)) G).
  eapply (found_rel _ _ (fun x => x)); [apply typed_key; vm_compute; reflexivity|].
  open_doc. no Fr. no Fa. no Ff. no Fk. no Fl. no Fe. rewrite app_nil_r.
  refine (sub_rel _ _ _ _ _ _ Fn _). intros r t [-> X]. split; [lazy; reflexivity|]. split; [reflexivity|exact X].
Qed.
Lemma q_annotations : exists l, Permutation (do_annotations d) l
  /\ Forall2 (fun a x => exists v, x = (NUri (uri_of ns refs (an_id a)), v) /\ says (annotation_says a) V v) l (pairs G (spdx "annotation")).
Proof.
  change (pairs G (spdx "annotation")) with (sub (linked (spdx "annotation")) (fun t => (fst (fst t), snd t)) G).
  eapply (found_rel _ _ snd); [apply linked_key; vm_compute; reflexivity|].
  open_doc. no Fr. no Ff. no Fk. no Fl. no Fn. no Fe. rewrite app_nil_r.
  refine (sub_rel _ _ _ _ _ _ Fa _). intros r t (v & -> & _ & X). split; [lazy; reflexivity|]. exists v. split; [reflexivity|exact X].
Qed.
Lemma q_relationships : exists l, Permutation (do_relationships d) l
  /\ Forall2 (fun a x => exists v, x = (NUri (uri_of ns refs (re_id a)), v) /\ says (relationship_says ns refs a) V v) l (pairs G (spdx "relationship")).
Proof.
  change (pairs G (spdx "relationship")) with (sub (linked (spdx "relationship")) (fun t => (fst (fst t), snd t)) G).
  eapply (found_rel _ _ snd); [apply linked_key; vm_compute; reflexivity|].
  open_doc. no Fr. no Fa. no Ff. no Fk. no Fn. no Fe. rewrite app_nil_r.
  refine (sub_rel _ _ _ _ _ _ Fl _). intros r t (v & -> & _ & X). split; [lazy; reflexivity|]. exists v. split; [reflexivity|exact X].
Qed.
Lemma q_extracted : exists l, Permutation (do_extracted d) l
  /\ Forall2 (fun e x => exists id, el_id e = Some id /\ x = (NUri doc, NUri (file_uri ns id)) /\ says (extracted_says e id) V (NUri (file_uri ns id))) l
       (pairs G (spdx "hasExtractedLicensingInfo")).
Proof.
  change (pairs G (spdx "hasExtractedLicensingInfo")) with (sub (linked (spdx "hasExtractedLicensingInfo")) (fun t => (fst (fst t), snd t)) G).
  eapply (found_rel _ _ snd); [apply linked_key; vm_compute; reflexivity|].
  open_doc. no Fr. no Fa. no Ff. no Fk. no Fl. no Fn.
  refine (sub_rel _ _ _ _ _ _ Fe _). intros r t (id & Ei & -> & X). split; [lazy; reflexivity|]. exists id. split; [exact Ei|]. split; [reflexivity|exact X].
Qed.
Lemma q_absent p : In p [spdx "hasFile"; spdx "describesPackage"] -> pairs G p = [].
Proof.
  intro Hp. apply Permutation_nil. change (pairs G p) with (sub (linked p) (fun t => (fst (fst t), snd t)) G).
  etransitivity; [|apply (found _ _ snd); apply linked_key; destruct Hp as [<-|[<-|[]]]; vm_compute; reflexivity].
  destruct Hp as [<-|[<-|[]]]; open_doc; no Fr; no Fa; no Ff; no Fk; no Fl; no Fn; no Fe; apply Permutation_refl.
Qed.

(** ** The parts of the reader *)
Ltac said H := unfold says in H; repeat (apply Forall_cons_iff in H; let K := fresh "q0" in destruct H as [K H]; cbn [fst snd] in K).
Lemma reads_refs bd rs vs : Forall2 (fun r v => v = NUri (file_uri ns (edr_id r)) /\ says (doc_ref_says lab r) V v) rs vs ->
  Forall (RdfDocRef ns) rs -> parse_external_document_refs L G bd ns vs = Ok rs.
Proof.
  intro F. revert bd. induction F as [|r v rs vs [-> S0] _ IH]; intros bd W; [reflexivity|]. inversion W as [|? ? W1 W2]; subst.
  cbn [parse_external_document_refs]. rewrite (doc_ref_reads L lab HLab ns HL G V HR bd r W1 S0). cbn [bind]. rewrite IH by exact W2. reflexivity.
Qed.
Lemma reads_namespace : parse_namespace_and_spdx_id L G = Ok (ns, Some (ci_id c), NUri doc).
Proof.
  unfold parse_namespace_and_spdx_id. rewrite q_doc. cbn [only_value].
  replace (node_truthy L (NUri doc)) with true by (symmetry; apply truthy_nonempty; apply hash_nonempty). cbn [negb node_str].
  assert (Hh : has_char #"#" doc = true). { apply has_char_In. unfold doc, file_uri. apply in_app_iff. right. left. reflexivity. }
  rewrite Hh. cbn [negb].
  pose proof (rc_id _ Hci) as Hid. apply rdf_id_not in Hid.
  unfold doc at 1, file_uri. rewrite (rl_defrag _ _ HL) by tauto. cbn [bind].
  pose proof (rn_colon _ Hns) as Hc. destruct ns as [|x t]; [destruct Hc|].
  destruct Hid as (Hid & _). destruct (ci_id c) eqn:E; [|reflexivity]. exfalso.
  destruct (rc_id _ Hci) as (r & Er & _). rewrite E in Er. discriminate.
Qed.
Lemma creators_nodup : NoDup (map (fun a => plain (actor_str a)) (ci_creators c)).
Proof.
  destruct (rc_creators _ Hci) as (_ & ND & F). clear - ND F.
  induction ND as [|a l Na ND IH]; [constructor|]. inversion F; subst. cbn [map]. constructor; [|auto]. intro K.
  apply in_map_iff in K as (b & Eb & Hb). apply Na. replace a with b; [exact Hb|].
  rewrite Forall_forall in H2. apply H2 in Hb. apply ActorFacts.actor_round_trip in Hb. apply ActorFacts.actor_round_trip in H1.
  assert (actor_str a = actor_str b) by (unfold plain in Eb; congruence). congruence.
Qed.
Lemma reads_creation : exists k, parse_creation_info L g = Ok k /\ SameCreationInfo c k.
Proof.
  destruct q_creation as (b & Eb & Bb & Sb). pose proof q_doc_says as Sd. destruct q_refs as (rs & Pr & Fr).
  unfold doc_says in Sd. unfold creation_says in Sb. fold c in Sd, Sb. said Sd. rename q0 into d0, q1 into d1, q2 into d2, q3 into d3. said Sb. unfold is in *.
  unfold parse_creation_info. cbv zeta. fold G. rewrite reads_namespace. cbn [bind].
  rewrite (literal_text L G V HR _ _ _ d0 (rc_version _ Hci)). cbn [bind].
  rewrite (literal_one L G V HR _ _ _ _ (ci_data_license c) d1); [|reflexivity|cbn [node_str]; rewrite remove_prefix_app; reflexivity]. cbn [bind].
  rewrite (literal_opt_text L G V HR _ _ _ d3 (rc_doc_comment _ Hci)). cbn [bind].
  rewrite (literal_text L G V HR _ _ _ d2 (rc_name _ Hci)). cbn [bind].
  rewrite Eb. cbn [any_value]. rewrite (blank_truthy L lab HLab b Bb). cbn [negb].
  rewrite (literal_one L G V HR _ _ _ _ (ci_created c) q0); [|apply (proj1 (read_date L _ (rc_created _ Hci)))|apply (proj2 (read_date L _ (rc_created _ Hci)))]. cbn [bind].
  rewrite (literal_opt L G V HR node_version _ _ _ _ q2). 2:{ intros v _. split; [|apply BasicsFacts.version_round_trip]. apply truthy_nonempty. unfold version_str. destruct (str_of_N (v_major v)); discriminate. }
  cbn [bind]. rewrite (literal_opt_text L G V HR _ _ _ q3 (rc_creator_comment _ Hci)). cbn [bind].
  assert (X : exists cs, each (creator_of L) (objects G b (spdx "creator")) = Ok cs /\ Permutation (ci_creators c) cs).
  { pose proof (HR b (spdx "creator")) as P. rewrite q1 in P. specialize (P creators_nodup).
    apply Permutation_sym, Permutation_map_inv in P as (cs & Ecs & Pcs). assert (Pcs' : Permutation (ci_creators c) cs) by (first [exact Pcs|apply Permutation_sym; exact Pcs]). exists cs. split; [|exact Pcs'].
    rewrite Ecs. apply each_same. destruct (rc_creators _ Hci) as (_ & _ & F). assert (F' : Forall ReadableActor cs) by exact (Permutation_Forall Pcs' F).
    clear - F'. induction F'; cbn [map]; constructor; auto. apply (proj2 (read_actor L x H)). }
  destruct X as (cs & -> & Pcs). cbn [bind].
  rewrite (reads_refs _ rs _ Fr) by (eapply Permutation_Forall; [exact Pr|exact (proj1 (rc_refs _ Hci))]). cbn [bind].
  assert (Hne : match cs with [] => [$"No creators provided."] | _ => [] end = []).
  { destruct cs; [|reflexivity]. exfalso. apply (proj1 (rc_creators _ Hci)). apply Permutation_nil. apply Permutation_sym. exact Pcs. }
  rewrite Hne. cbn [app raise_if_named bind].
  eexists. split; [reflexivity|]. constructor; cbn; auto.
Qed.

Lemma forall_in {A} (P : A -> Prop) l l' : Permutation l l' -> Forall P l -> forall x, In x l' -> P x.
Proof. intros Hp F. apply Forall_forall. exact (Permutation_Forall Hp F). Qed.
Lemma each_try_found {A B} (f : B -> result A) (R : A -> A -> Prop) (Q : A -> B -> Prop) (P : A -> Prop) l l' vs : Permutation l l' -> Forall P l ->
  Forall2 Q l' vs -> (forall a v, P a -> Q a v -> exists b, f v = Ok b /\ R a b) -> exists m, each_try f vs = Ok ([], m) /\ SameList R l m.
Proof.
  intros Hp F F2 H. destruct (each_try_forall2 f R l' vs) as (m & E & M).
  - refine (forall2_weaken _ _ _ _ _ F2). intros a v Ha. apply H. exact (forall_in P l l' Hp F a Ha).
  - exists m. split; [exact E|]. exists l'. split; assumption.
Qed.
Lemma same_list_eq {A} (l m : list A) : SameList eq l m -> Permutation l m.
Proof. intros (l' & P & F). apply forall2_eq in F as <-. exact P. Qed.
Theorem graph_reads : exists e, translate_graph_to_document O L g = Ok e /\ SameDocument d e.
Proof.
  destruct reads_creation as (k & Ek & Sk). unfold translate_graph_to_document. cbv zeta. fold G. rewrite Ek. cbn [bind].
  rewrite <- (sc_namespace _ _ Sk). fold ns. set (bound := g_bound g ++ map binding (ci_refs k)).
  assert (Hbound : forall r b, In r refs -> RdfId b -> r_normalize L bound (edr_uri r ++ $"#" ++ b) = edr_id r ++ $":" ++ b).
  { intros r b Hr Hb. apply HB; [exact (sc_refs _ _ Sk)|exact Hr|exact Hb]. }
  pose proof (proj1 (rc_refs _ Hci)) as Hrefs. pose proof (proj2 (rc_refs _ Hci)) as Hdist.
  destruct q_packages as (l1 & P1 & F1). destruct q_files as (l2 & P2 & F2). destruct q_snippets as (l3 & P3 & F3).
  destruct q_annotations as (l4 & P4 & F4). destruct q_relationships as (l5 & P5 & F5). destruct q_extracted as (l6 & P6 & F6).
  destruct (each_try_found (parse_package O L G bound ns) SamePackage _ _ _ _ _ P1 (rd_packages _ _ HD) F1) as (m1 & E1 & M1).
  { intros p v Hp [-> S0]. exact (package_reads O HG L lab HLab ns Hns HL G V HR bound p Hp S0). }
  destruct (each_try_found (parse_file O L G bound ns) SameFile _ _ _ _ _ P2 (rd_files _ _ HD) F2) as (m2 & E2 & M2).
  { intros p v Hp [-> S0]. exact (file_reads O HG L lab HLab ns Hns HL G V HR bound p Hp S0). }
  destruct (each_try_found (parse_snippet O L G bound ns) SameSnippet _ _ _ _ _ P3 (rd_snippets _ _ HD) F3) as (m3 & E3 & M3).
  { intros p v Hp (-> & r & Er & S0). exact (snippet_reads O HG L lab HLab ns Hns HL G V HR bound refs Hrefs Hdist Hbound p r Hp Er S0). }
  destruct (each_try_found (parse_annotation L G bound ns) eq _ _ _ _ _ P4 (rd_annotations _ _ HD) F4) as (m4 & E4 & M4).
  { intros p v Hp (b & -> & S0). exists p. split; [|reflexivity]. exact (annotation_reads L ns Hns HL G V HR bound refs Hrefs Hdist Hbound p b Hp S0). }
  destruct (each_try_found (parse_relationship L G bound ns) eq _ _ _ _ _ P5 (rd_relationships _ _ HD) F5) as (m5 & E5 & M5).
  { intros p v Hp (b & -> & S0). exists p. split; [|reflexivity]. exact (relationship_reads L ns Hns HL G V HR bound refs Hrefs Hdist Hbound p b Hp S0). }
  destruct (each_try_found (fun x => parse_extracted_licensing_info L G ns (snd x)) SameExtracted _ _ _ _ _ P6 (rd_extracted _ _ HD) F6) as (m6 & E6 & M6).
  { intros p v Hp (id & Ei & -> & S0). exact (extracted_reads L ns G V HR p id Hp Ei S0). }
  rewrite E1. cbn [bind]. rewrite E2. cbn [bind]. rewrite E3. cbn [bind]. rewrite E4. cbn [bind]. rewrite E5. cbn [bind].
  rewrite (q_absent (spdx "hasFile")) by (left; reflexivity). rewrite (q_absent (spdx "describesPackage")) by (right; left; reflexivity).
  cbn [each_try bind]. rewrite E6. cbn [bind app raise_if fold_left]. eexists. split; [reflexivity|].
  constructor; cbn [do_ci do_packages do_files do_snippets do_annotations do_relationships do_extracted];
    first [exact Sk|exact M1|exact M2|exact M3|exact M6|apply same_list_eq; assumption].
Qed.
End Reader.

(** ** The set of triples that has been written *)
Lemma fold_add_in ts acc t : In t (fold_left add_triple ts acc) <-> In t acc \/ In t ts.
Proof.
  revert acc. induction ts as [|x ts IH]; intro acc; [cbn; tauto|]. cbn [fold_left]. rewrite IH. unfold add_triple.
  destruct (in_dec triple_eq_dec x acc) as [H|H]; [|rewrite in_app_iff]; cbn; intuition (subst; auto).
Qed.
