(** C75: mistakes in packages of an RDF graph. *)
From Verif Require Import Py PyRe PyFacts Data Oracles Basics ValidationSpec BasicsSpec BasicsFacts ActorFacts Json Construct JsonParse JsonErrors JsonRead Rdf RdfParser RdfReadSpec RdfIff JsonReportSpec JsonReport RdfReportSpec RdfReport.

Ltac differ := let E := fresh in intro E; vm_compute in E; discriminate E.
Ltac absent := let E := fresh in intro E; vm_compute in E; repeat (destruct E as [E|E]; [discriminate E|]); exact E.
Ltac elsewhere := right; differ.
Ltac walk1 R := match type of R with bind ?X _ = Ok _ => let E := fresh "E" in destruct X as [?|?] eqn:E; [|discriminate R]; cbn [bind] in R |- * end.
Ltac split_pairs R := repeat match type of R with (let (_, _) := ?x in _) = Ok _ => destruct x; cbn beta iota in R |- * end.

Section Mistakes.
Variable O : oracles.
Variable L : rdf_library.

(** ** Wrong values *)
Lemma no_actor n m : NoActor n m -> node_actor n = Raise (EParsing [m]).
Proof.
  intros (H & ->). unfold node_actor, parse_actor. set (s := node_str n) in *.
  assert (X : forall p, (forall t, s <> p ++ t) -> startswith p s = false) by (intros p K; destruct (startswith p s) eqn:E; [|reflexivity]; apply startswith_spec in E as (t & E); destruct (K t E)).
  rewrite tool_match_no by (apply X; intro t; apply (H t)). unfold person_re, org_re. rewrite !person_or_org_match. rewrite (X $"Person:"), (X $"Organization:") by (intro t; apply (H t)). reflexivity.
Qed.
Lemma no_version n m : NoVersion n m -> node_version n = Raise (EValue m).
Proof. intros (H & ->). unfold node_version. apply version_rejects. exact H. Qed.
Lemma no_member {A} (all : list A) name prefix cls n m : (forall s x, enum_lookup all name s = Some x <-> s = name x) -> enum_class (lit prefix) = lit cls ->
  NoMember name prefix cls n m -> parse_enum_value all name (lit prefix) n = Raise (EParsing [m]).
Proof.
  intros H C (N & ->). destruct (parse_enum_value all name (lit prefix) n) as [a|e] eqn:E; [apply (member_iff _ _ _ _ _ H) in E; destruct (N a E)|].
  unfold parse_enum_value in E. destruct (enum_lookup _ _ _); [discriminate E|]. rewrite C in E. symmetry. exact E.
Qed.

Lemma bad_literal {A} (f : node -> result A) (W : node -> pystr -> Prop) G s p m : (forall n m, W n m -> exists e, f n = Raise e /\ caught e = Some [m]) -> Bad L G s p W m -> parse_literal L f G s p = Ok ([m], None).
Proof.
  intros H [n x B T K|a b l B]; apply objects_iff in B; unfold parse_literal, get_unique_value; rewrite B; cbn [only_value]; [|reflexivity].
  unfold Truthy in T. rewrite T. unfold apply_parsing_method. destruct (H n x K) as (e & -> & ->). reflexivity.
Qed.
Lemma bad_literal_nn {A} (f : node -> result A) (W : node -> pystr -> Prop) G s p m : (forall n m, W n m -> ~ NoAssertion L n /\ ~ Nothing L n /\ exists e, f n = Raise e /\ caught e = Some [m]) -> Bad L G s p W m ->
  parse_literal_nn L f G s p = Ok ([m], None).
Proof.
  intros H [n x B T K|a b l B]; apply objects_iff in B; unfold parse_literal_nn, get_unique_value; rewrite B; cbn [only_value]; [|reflexivity].
  unfold Truthy in T. unfold get_correctly_typed_value. rewrite T. cbn [negb]. destruct (H n x K) as (N1 & N2 & e & E & C).
  replace (is_uri n (spdx "noassertion") || py_is L n $"NOASSERTION") with false.
  2:{ symmetry. apply orb_false_iff. split; [destruct (is_uri n _) eqn:Q; [|reflexivity]; apply is_uri_iff in Q; destruct N1; left; exact Q|destruct (py_is L n _) eqn:Q; [|reflexivity]; destruct N1; right; exact Q]. }
  replace (is_uri n (spdx "none") || py_is L n $"NONE") with false.
  2:{ symmetry. apply orb_false_iff. split; [destruct (is_uri n _) eqn:Q; [|reflexivity]; apply is_uri_iff in Q; destruct N2; left; exact Q|destruct (py_is L n _) eqn:Q; [|reflexivity]; destruct N2; right; exact Q]. }
  unfold apply_parsing_method. rewrite E, C. reflexivity.
Qed.
Lemma bad_text {A} (f : node -> result A) G s p m : Bad L G s p Anything m -> parse_literal L f G s p = Ok ([m], None).
Proof. apply bad_literal. intros n x []. Qed.
Lemma bad_text_nn {A} (f : node -> result A) G s p m : Bad L G s p Anything m -> parse_literal_nn L f G s p = Ok ([m], None).
Proof. apply bad_literal_nn. intros n x []. Qed.
Lemma bad_date G s p m : Bad L G s p NoDate m -> parse_literal L node_date G s p = Ok ([m], None).
Proof. apply bad_literal. intros n x H. unfold NoDate in H. unfold node_date. rewrite H. eauto. Qed.
Lemma bad_actor G s p m : Bad L G s p NoActor m -> parse_literal L node_actor G s p = Ok ([m], None).
Proof. apply bad_literal. intros n x H. rewrite (no_actor _ _ H). eauto. Qed.
Lemma bad_supplier G s p m : Bad L G s p (NoSupplier L) m -> parse_literal_nn L node_actor G s p = Ok ([m], None).
Proof. apply bad_literal_nn. intros n x (N1 & N2 & H). rewrite (no_actor _ _ H). eauto. Qed.
Lemma bad_version G s p m : Bad L G s p NoVersion m -> parse_literal L node_version G s p = Ok ([m], None).
Proof. apply bad_literal. intros n x H. rewrite (no_version _ _ H). eauto. Qed.
Lemma bad_member {A} (all : list A) name prefix cls G s p m : (forall s x, enum_lookup all name s = Some x <-> s = name x) -> enum_class (lit prefix) = lit cls ->
  Bad L G s p (NoMember name prefix cls) m -> parse_literal L (parse_enum_value all name (lit prefix)) G s p = Ok ([m], None).
Proof. intros H C. apply bad_literal. intros n x K. rewrite (no_member all name prefix cls n x H C K). eauto. Qed.

End Mistakes.

Ltac rest SB :=
  rewrite ?(same_objects _ _ _ _ SB) by (unfold Off; elsewhere);
  rewrite ?(same_each_checksum _ _ _ _ _ SB) by (intros ? _; right; absent);
  rewrite ?(same_each_ref _ _ _ _ _ SB) by (intros ? _; right; absent);
  rewrite ?(same_license_field _ _ _ _ _ _ SB) by (first [absent|unfold Off; elsewhere]);
  rewrite ?(same_license_list _ _ _ _ _ _ SB) by (first [absent|unfold Off; elsewhere]);
  rewrite ?(same_literal_nn _ _ _ _ _ SB _ _ _ _) by (first [unfold Off; elsewhere|reflexivity]);
  rewrite ?(same_literal _ _ _ _ _ SB (parse_package_verification_code _ _) (parse_package_verification_code _ _) _ _) by (first [unfold Off; elsewhere|intro; apply (same_code _ _ _ _ _ SB); right; absent]);
  rewrite ?(same_literal _ _ _ _ _ SB _ _ _ _) by (first [unfold Off; elsewhere|reflexivity]).
Ltac walk_all R := repeat (match type of R with bind (raise_if_named _ _) _ = _ => fail 1 | _ => idtac end;
  match type of R with bind ?X _ = Ok _ => let E := fresh "E" in destruct X as [?|?] eqn:E; [|discriminate R]; cbn [bind] in R end;
  repeat match type of R with (let (_, _) := ?x in _) = Ok _ => destruct x; cbn beta iota in R end).
Ltac no_logs R := let N := fresh "N" in apply bind_Ok in R as ([] & N & R); apply named_ok in N; repeat (apply app_eq_nil in N as [? N]); subst.
Ltac replay := repeat (match goal with E : ?X = Ok _ |- bind ?X _ = _ => rewrite E end; cbn [bind]).

Section Elements.
Variable O : oracles.
Variable L : rdf_library.

Lemma package_mistake s p G G' b ns k m : SameBut s p G G' -> parse_package O L G b ns s = Ok k -> PackageMistake L G' s p m ->
  parse_package O L G' b ns s = Raise (EParsing [parsing $"Package" m]).
Proof.
  intros SB R M. unfold parse_package in R. walk_all R. no_logs R. clear R. unfold parse_package.
  destruct M as [p m I B|p m I B|m B|p m I B].
  - destruct I as [<-|[<-|[]]]; apply bad_supplier in B; match type of B with context [term ?n] => change (term n) with (spdx n) in * end; rewrite B; rest SB; replay; reflexivity.
  - destruct I as [<-|[<-|[<-|[]]]]; apply bad_date in B; match type of B with context [term ?n] => change (term n) with (spdx n) in * end; rewrite B; rest SB; replay; reflexivity.
  - apply (bad_member L purpose_all purpose_name "purpose_" "PackagePurpose") in B; [|exact purpose_lookup|reflexivity].
    change (term "primaryPackagePurpose") with (spdx "primaryPackagePurpose") in *. rewrite B; rest SB; replay; reflexivity.
  - destruct I as [<-|[<-|[<-|[<-|[<-|[<-|[<-|[<-|[<-|[]]]]]]]]]].
    + apply (bad_text_nn L stripped) in B. change (term "downloadLocation") with (spdx "downloadLocation") in *. rewrite B; rest SB; replay; reflexivity.
    + apply (bad_text L stripped) in B. change (term "versionInfo") with (spdx "versionInfo") in *. rewrite B; rest SB; replay; reflexivity.
    + apply (bad_text L stripped) in B. change (term "packageFileName") with (spdx "packageFileName") in *. rewrite B; rest SB; replay; reflexivity.
    + apply (bad_text L (parse_package_verification_code L G')) in B. change (term "packageVerificationCode") with (spdx "packageVerificationCode") in *. rewrite B; rest SB; replay; reflexivity.
    + assert (X : parse_license_field O L G' ns s (spdx "licenseDeclared") = Ok ([m], None)) by (unfold parse_license_field; rewrite (bad_text_nn L _ _ _ _ _ B); reflexivity).
      change (term "licenseDeclared") with (spdx "licenseDeclared") in *. rewrite X; rest SB; replay; reflexivity.
    + apply (bad_text L stripped) in B. change (term "summary") with (spdx "summary") in *. rewrite B; rest SB; replay; reflexivity.
    + apply (bad_text L stripped) in B. change (term "description") with (spdx "description") in *. rewrite B; rest SB; replay; reflexivity.
    + apply (bad_text L stripped) in B. change (term "sourceInfo") with (spdx "sourceInfo") in *. rewrite B; rest SB; replay; reflexivity.
    + apply (bad_text L stripped) in B. change has_homepage with DOAP_homepage in *. rewrite B; rest SB; replay; reflexivity.
Qed.

End Elements.
