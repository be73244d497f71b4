(** Documents read from RDF, saved as JSON. *)
From Verif Require Import Py PyFacts Data Oracles Basics BasicsSpec JsonSpec Rdf RdfParser RdfReadSpec ResaveSpec TvResaveSpec RdfResaveSpec.
From Verif Require StampMore Resave ActorFacts JsonShape ValidationSpec ValidationFacts Validation RdfIff5 JsonConv JsonParse TvResave.

Section Read.
Context (O : oracles) (L : rdf_library) (g : graph) (d : document) (HD : DocumentIn O L g d).
Local Notation G := (g_triples g).
Local Notation bound := (prefixes g d).
Local Notation ns := (ci_namespace (do_ci d)).

(** ** The elements of a document that was read *)
Lemma says_package p : In p (do_packages d) -> exists s, PackageIn O L G bound ns s p.
Proof. destruct HD as [_ (l & _ & F) _ _ _ _ _]. intro H. destruct (Resave.forall2_right _ _ _ _ F H) as (s & _ & X). eauto. Qed.
Lemma says_file p : In p (do_files d) -> exists s, FileIn O L G bound ns s p.
Proof. destruct HD as [_ _ (l & _ & F) _ _ _ _]. intro H. destruct (Resave.forall2_right _ _ _ _ F H) as (s & _ & X). eauto. Qed.
Lemma says_snippet p : In p (do_snippets d) -> exists s, SnippetIn O L G bound ns s p.
Proof. destruct HD as [_ _ _ (l & _ & F) _ _ _]. intro H. destruct (Resave.forall2_right _ _ _ _ F H) as (s & _ & X). eauto. Qed.
Lemma says_annotation p : In p (do_annotations d) -> exists s, AnnotationIn L G bound ns s p.
Proof. destruct HD as [_ _ _ _ (l & _ & F) _ _]. intro H. destruct (Resave.forall2_right _ _ _ _ F H) as (s & _ & X). eauto. Qed.
Lemma says_extracted p : In p (do_extracted d) -> exists s, ExtractedIn L G ns s p.
Proof. destruct HD as [_ _ _ _ _ _ (l & _ & F)]. intro H. destruct (Resave.forall2_right _ _ _ _ F H) as (s & _ & X). eauto. Qed.
Lemma added_in l more l' r : Added l more l' -> In r l' -> In r l \/ In r more.
Proof.
  intro H. induction H; intro K; [auto| |].
  - destruct (IHAdded K) as [K'|K']; [auto|right; right; exact K'].
  - destruct (IHAdded K) as [K'|K']; [|right; right; exact K']. apply in_app_or in K' as [K'|[<-|[]]]; [auto|right; left; reflexivity].
Qed.
Lemma says_relationship r : In r (do_relationships d) -> (exists s, RelationshipIn L G bound ns s r) \/ re_comment r = None.
Proof.
  destruct HD as [_ _ _ _ _ (rs & cs & ds & (l1 & _ & F1) & (l2 & _ & F2) & (l3 & _ & F3) & A) _]. intro H. apply (added_in _ _ _ _ A) in H as [H|H]; [|apply in_app_or in H as [H|H]].
  - left. destruct (Resave.forall2_right _ _ _ _ F1 H) as (s & _ & X). eauto.
  - right. destruct (Resave.forall2_right _ _ _ _ F2 H) as (s & _ & (i & _ & _ & _ & _ & X)). exact X.
  - right. destruct (Resave.forall2_right _ _ _ _ F3 H) as (s & _ & (i & _ & _ & _ & _ & X)). exact X.
Qed.

(** ** Values *)
Lemma at_in {A} (R : node -> A -> Prop) s p a : At L G R s p a -> exists n, R n a.
Proof. intros (v & _ & n & _ & _ & H). eauto. Qed.
Lemma maybe_in {A} (R : node -> A -> Prop) s p a : MaybeAt L G R s p (Some a) -> exists n, R n a.
Proof. exact (at_in R s p a). Qed.
Lemma each_in {A} (R : node -> A -> Prop) s p l a : EachAt G R s p l -> In a l -> exists n, R n a.
Proof. intros (m & _ & F) H. destruct (Resave.forall2_right _ _ _ _ F H) as (n & _ & X). eauto. Qed.
Lemma maybe_if {A} (R : node -> A -> Prop) (P : A -> Prop) s p o : MaybeAt L G R s p o -> (forall n a, R n a -> P a) -> IfSome P o.
Proof. destruct o as [a|]; [|intros; exact Logic.I]. intros H K. destruct (maybe_in _ _ _ _ H) as (n & X). exact (K _ _ X). Qed.
Lemma date_plain n x : SaysDate n x -> PlainDate x.
Proof. intro H. exact (StampMore.read_datetime_valid _ _ H). Qed.
Lemma text_trimmed n s : TextIs n s -> Trimmed s.
Proof. intros ->. apply strip_stripped. Qed.
Lemma readable s a : parse_actor s = Ok a -> ~ LooksLikeEmail a -> ReadableActor a.
Proof.
  intros H N. destruct (ActorFacts.parse_actor_result _ _ H) as (H1 & H2 & H3 & H4). repeat split; try assumption; try apply H2.
  destruct (ac_type a) eqn:T, (ac_email a) eqn:M; try exact H4; intro X; apply N; (split; [congruence|split; [exact M|exact X]]).
Qed.
Lemma maybe_actor s p o : MaybeAt L G (WordNA L SaysActor) s p o -> (forall a, o = Some (AVal a) -> ~ LooksLikeEmail a) -> IfSome ReadableNA o.
Proof.
  destruct o as [[a|]|]; try (intros; exact Logic.I). intros H N. destruct (maybe_in _ _ _ _ H) as (n & _ & _ & X). exact (readable _ _ X (N a eq_refl)).
Qed.
Lemma creators_readable : ActorsRead d -> ci_creators (do_ci d) <> [] /\ Forall ReadableActor (ci_creators (do_ci d)).
Proof.
  intro HA. destruct HD as [(doc & [_ _ _ _ _ _ (b & bs & _ & _ & _ & C & N & _) _]) _ _ _ _ _ _]. split; [exact N|]. apply Forall_forall. intros a Ha.
  destruct (each_in _ _ _ _ _ C Ha) as (n & s & _ & X). apply (readable _ _ X). apply HA. left. exact Ha.
Qed.
Lemma created_plain : PlainDate (ci_created (do_ci d)).
Proof. destruct HD as [(doc & [_ _ _ _ _ _ (b & bs & _ & _ & C & _) _]) _ _ _ _ _ _]. destruct (at_in _ _ _ _ C) as (n & X). exact (date_plain _ _ X). Qed.
Lemma annotation_plain a : ActorsRead d -> In a (do_annotations d) -> ReadableActor (an_annotator a) /\ PlainDate (an_date a).
Proof.
  intros HA Ha. destruct (says_annotation a Ha) as (s & X). split.
  - destruct (at_in _ _ _ _ (ga_annotator _ _ _ _ _ _ X)) as (n & Y). apply (readable _ _ Y). apply HA. right. right. eauto.
  - destruct (at_in _ _ _ _ (ga_date _ _ _ _ _ _ X)) as (n & Y). exact (date_plain _ _ Y).
Qed.

(** ** JSON *)
Context (HV : exists ver, Validation.validate_full_spdx_document O d ver = []).
Lemma well_formed : ValidationSpec.WellFormed O (ci_version (do_ci d)) d.
Proof. destruct HV as [ver V]. apply ValidationFacts.validate_spec in V as (_ & _ & W). exact W. Qed.
Lemma rdf_json : LicensesRead O d -> ActorsRead d -> OwnElements d -> WordsPlain d -> JsonDocument O d.
Proof.
  intros HL HA HO [HC HN]. pose proof well_formed as W. destruct HV as [ver V]. destruct (Resave.valid_ids _ _ _ V HO) as (V1 & V2 & V3). constructor; try assumption.
  - destruct (creators_readable HA). constructor; try assumption. exact created_plain.
  - apply Forall_forall. intros p Hp. destruct (says_package p Hp) as (s & X). destruct W as [_ WP _ _ _ _ _ _ _]. rewrite Forall_forall in WP. specialize (WP p Hp).
    constructor; try (eapply maybe_if; [eapply (gp_release _ _ _ _ _ _ _ X) || eapply (gp_built _ _ _ _ _ _ _ X) || eapply (gp_valid _ _ _ _ _ _ _ X)|exact date_plain]).
    + destruct (pk_download p) as [u| |] eqn:E; try exact Logic.I. exact (TvResave.location_plain _ (ValidationSpec.vp_download _ _ _ _ WP u E)).
    + destruct (pk_homepage p) as [[u| |]|] eqn:E; try exact Logic.I. exact (TvResave.url_plain _ (ValidationSpec.vp_homepage _ _ _ _ WP u E)).
    + apply (TvResave.copyright_plain _ _ HC). apply in_or_app. left. apply (in_map (fun p => word_text (pk_copyright p)) _ p Hp).
    + apply (maybe_actor _ _ _ (gp_supplier _ _ _ _ _ _ _ X)). intros a Ea. apply HA. right. left. exists p. tauto.
    + apply (maybe_actor _ _ _ (gp_originator _ _ _ _ _ _ _ X)). intros a Ea. apply HA. right. left. exists p. tauto.
    + apply Resave.opt_license. intros e Ee. apply HL. left. exists p. tauto.
    + apply Resave.opt_license. intros e Ee. apply HL. left. exists p. tauto.
    + apply Resave.list_license. intros e Ee. apply HL. left. exists p. tauto.
  - apply Forall_forall. intros p Hp. destruct W as [_ _ WF _ _ _ _ _ _]. rewrite Forall_forall in WF. specialize (WF p Hp). constructor.
    + destruct (ValidationSpec.vf_sha1 _ _ _ _ WF) as (c & Hc & _). intro K. rewrite K in Hc. destruct Hc.
    + apply (TvResave.copyright_plain _ _ HC). apply in_or_app. right. apply in_or_app. left. apply (in_map (fun p => word_text (fi_copyright p)) _ p Hp).
    + apply Resave.opt_license. intros e Ee. apply HL. right. left. exists p. tauto.
    + apply Resave.list_license. intros e Ee. apply HL. right. left. exists p. tauto.
  - apply Forall_forall. intros p Hp. constructor.
    + apply (TvResave.copyright_plain _ _ HC). apply in_or_app. right. apply in_or_app. right. apply (in_map (fun p => word_text (sn_copyright p)) _ p Hp).
    + apply Resave.opt_license. intros e Ee. apply HL. right. right. exists p. tauto.
    + apply Resave.list_license. intros e Ee. apply HL. right. right. exists p. tauto.
  - apply Forall_forall. intros p Hp. specialize (HN p). destruct (el_name p) as [[s|]|]; try exact Logic.I. intros ->. exact (HN Hp eq_refl).
  - apply Forall_forall. intros p Hp. destruct (annotation_plain p HA Hp). constructor; assumption.
Qed.
End Read.
