(** Documents read from tag-value files, saved and read again. *)
From Verif Require Import Py PyFacts PyRe PyReSound Data Oracles Basics BasicsSpec Json JsonConv JsonParse JsonSpec TvLexer TvParser TvSpec TvTokSpec
  TvReadSpec TvStreamSpec TvRead11 TvTokens ResaveSpec TvResaveSpec DocUtils.
From Verif Require ActorFacts StampMore Resave JsonShape ValidationSpec ValidationFacts Validation TvRead4.

(** ** Attributes *)
Definition tagged (t : tag) (gs : list grp) (g : grp) : Prop := In g gs /\ g_tag g = t.
Lemma with_tag_in t gs g : In g (with_tag t gs) -> tagged t gs g.
Proof. unfold with_tag. rewrite filter_In. intros [H E]. split; [exact H|]. destruct (g_tag g), t; try reflexivity; vm_compute in E; discriminate E. Qed.
Lemma one_in {A} (P : grp -> A -> Prop) t gs x : One P t gs x -> exists g, tagged t gs g /\ P g x.
Proof. intros (g & E & H). exists g. split; [|exact H]. apply with_tag_in. rewrite E. left. reflexivity. Qed.
Lemma optional_in {A} (P : grp -> A -> Prop) t gs x : Optional P t gs (Some x) -> exists g, tagged t gs g /\ P g x.
Proof.
  unfold Optional. destruct (with_tag t gs) as [|g [|]] eqn:E; [discriminate| |contradiction]. intros (y & Ey & H). injection Ey as <-.
  exists g. split; [|exact H]. apply with_tag_in. rewrite E. left. reflexivity.
Qed.
Lemma default_in {A} (P : grp -> A -> Prop) t gs y x : Default P t gs y x -> x = y \/ exists g, tagged t gs g /\ P g x.
Proof.
  unfold Default. destruct (with_tag t gs) as [|g [|]] eqn:E; [auto| |contradiction]. intro H. right.
  exists g. split; [|exact H]. apply with_tag_in. rewrite E. left. reflexivity.
Qed.
Lemma each_in {A} (P : grp -> A -> Prop) t gs l x : Each P t gs l -> In x l -> exists g, tagged t gs g /\ P g x.
Proof. intros F H. destruct (Resave.forall2_right _ _ _ _ F H) as (g & Hg & Hp). exists g. split; [|exact Hp]. apply with_tag_in. exact Hg. Qed.
Lemma last_id_in gs s : LastId gs s -> exists g, tagged T_SPDXID gs g /\ SaysLine g s.
Proof. intros (l & g & E & H). exists g. split; [|exact H]. apply with_tag_in. rewrite E. apply in_or_app. right. left. reflexivity. Qed.
Lemma tagged_incl t gs gs' g : incl gs gs' -> tagged t gs g -> tagged t gs' g.
Proof. intros H [A B]. split; auto. Qed.
Lemma id_from_in t gs s : IdFrom t gs s -> exists g, (tagged t gs g \/ tagged T_SPDXID gs g) /\ SaysLine g s.
Proof.
  intros (a & g & b & -> & Ht & _ & _ & _ & [H|[_ H]]).
  - destruct (last_id_in _ _ H) as (g' & T & Hs). exists g'. split; [right|exact Hs]. revert T. apply tagged_incl. intros x Hx. apply in_or_app. right. right. exact Hx.
  - exists g. split; [left|exact H]. split; [|exact Ht]. apply in_or_app. right. left. reflexivity.
Qed.

Lemma blocks_incl gs : incl (fst (blocks gs)) gs /\ forall b, In b (snd (blocks gs)) -> incl b gs.
Proof.
  induction gs as [|g gs [IH1 IH2]]; cbn [blocks]; [split; [intros x []|intros b []]|]. destruct (blocks gs) as [be bs]. cbn [fst snd] in *.
  assert (K : incl (g :: be) (g :: gs)) by (intros x [->|Hx]; [left; reflexivity|right; auto]). destruct (is_in (g_tag g) start_tags); cbn [fst snd]; split.
  - intros x [].
  - intros b [<-|Hb]; [exact K|]. intros x Hx. right. exact (IH2 b Hb x Hx).
  - exact K.
  - intros b Hb x Hx. right. exact (IH2 b Hb x Hx).
Qed.
Lemma element_blocks_incl gs b : In b (element_blocks gs) -> incl b gs.
Proof.
  assert (W : forall l, incl (without_first_id l) l).
  { induction l as [|g l IH]; intros x Hx; [exact Hx|]. cbn [without_first_id] in Hx. destruct (tag_eqb _ _); [right; exact Hx|]. destruct Hx as [->|Hx]; [left; reflexivity|right; auto]. }
  assert (E : incl (element_attributes gs) gs) by (intros x Hx; apply filter_In in Hx as [Hx _]; apply W; exact Hx).
  unfold element_blocks. destruct (blocks_incl (element_attributes gs)) as [H1 H2]. destruct (blocks (element_attributes gs)) as [be [|b0 bs]]; [contradiction|]. cbn [fst snd] in *.
  intros [<-|Hb] x Hx; apply E.
  - apply in_app_or in Hx as [Hx|Hx]; [auto|]. exact (H2 b0 (or_introl eq_refl) x Hx).
  - exact (H2 b (or_intror Hb) x Hx).
Qed.

(** ** The elements of a document that was read *)
Section Read.
Context (O : oracles) (gs : list grp) (d : document) (HD : SaysDocument O gs d).
Lemma says_package p : In p (do_packages d) -> exists b, incl b gs /\ SaysPackage O b p.
Proof.
  destruct HD as [_ _ (es & F & E & _)]. rewrite E. unfold packages_of. rewrite in_flat_map. intros (e & He & Hp). destruct e; try contradiction Hp; destruct Hp as [<-|[]].
  destruct (Resave.forall2_right _ _ _ _ F He) as (b & Hb & Hs). exists b. split; [apply element_blocks_incl; exact Hb|exact Hs].
Qed.
Lemma says_file p : In p (do_files d) -> exists b, incl b gs /\ SaysFile O b p.
Proof.
  destruct HD as [_ _ (es & F & _ & E & _)]. rewrite E. unfold files_of. rewrite in_flat_map. intros (e & He & Hp). destruct e; try contradiction Hp; destruct Hp as [<-|[]].
  destruct (Resave.forall2_right _ _ _ _ F He) as (b & Hb & Hs). exists b. split; [apply element_blocks_incl; exact Hb|exact Hs].
Qed.
Lemma says_snippet p : In p (do_snippets d) -> exists b, incl b gs /\ SaysSnippet O b p.
Proof.
  destruct HD as [_ _ (es & F & _ & _ & E & _)]. rewrite E. unfold snippets_of. rewrite in_flat_map. intros (e & He & Hp). destruct e; try contradiction Hp; destruct Hp as [<-|[]].
  destruct (Resave.forall2_right _ _ _ _ F He) as (b & Hb & Hs). exists b. split; [apply element_blocks_incl; exact Hb|exact Hs].
Qed.
Lemma says_annotation p : In p (do_annotations d) -> exists b, incl b gs /\ SaysAnnotation b p.
Proof.
  destruct HD as [_ _ (es & F & _ & _ & _ & E & _)]. rewrite E. unfold annotations_of. rewrite in_flat_map. intros (e & He & Hp). destruct e; try contradiction Hp; destruct Hp as [<-|[]].
  destruct (Resave.forall2_right _ _ _ _ F He) as (b & Hb & Hs). exists b. split; [apply element_blocks_incl; exact Hb|exact Hs].
Qed.
Lemma says_extracted p : In p (do_extracted d) -> exists b, incl b gs /\ SaysExtracted b p.
Proof.
  destruct HD as [_ _ (es & F & _ & _ & _ & _ & E & _)]. rewrite E. unfold extracted_of. rewrite in_flat_map. intros (e & He & Hp). destruct e; try contradiction Hp; destruct Hp as [<-|[]].
  destruct (Resave.forall2_right _ _ _ _ F He) as (b & Hb & Hs). exists b. split; [apply element_blocks_incl; exact Hb|exact Hs].
Qed.
(** a relationship is stated, or says that a package of the document contains a file of the document *)
Lemma gathered_in owner l es r x : Gathered owner l es r -> In x r -> In x l \/ In (E_Relationship x) es
  \/ exists o f, (owner = Some o \/ exists p, In (E_Package p) es /\ pk_id p = o) /\ In (E_File f) es /\ x = contained o (fi_id f).
Proof.
  intro H. induction H; intro Hx; auto;
    try (destruct (IHGathered Hx) as [K|[K|(o' & f' & K & K2 & K3)]];
         [| |right; right; exists o', f'; split; [|split; [right; exact K2|exact K3]]]).
  all: try (left; exact K); try (right; left; right; exact K).
  all: try (destruct K as [K|(p' & K & Kp)]; [left; exact K|right; exists p'; split; [right; exact K|exact Kp]]).
  - destruct K as [K|(p' & K & Kp)]; [injection K as <-; right; exists p; split; [left; reflexivity|reflexivity]|right; exists p'; split; [right; exact K|exact Kp]].
  - apply in_app_or in K as [K|[<-|[]]]; [left; exact K|right; left; left; reflexivity].
  - apply in_app_or in K as [K|[<-|[]]]; [left; exact K|right; right; exists o, f; split; [left; reflexivity|split; [left; reflexivity|reflexivity]]].
Qed.
Lemma says_relationship r : In r (do_relationships d) ->
  (exists g, tagged T_Relationship gs g /\ SaysRelationship g r) \/ exists p f, In p (do_packages d) /\ In f (do_files d) /\ r = contained (pk_id p) (fi_id f).
Proof.
  destruct HD as [_ _ (es & F & EP & EF & _ & _ & _ & G)]. intro H. destruct (gathered_in _ _ _ _ _ G H) as [[]|[K|(o & f & [K|(p & Kp & <-)] & Kf & ->)]].
  - left. destruct (Resave.forall2_right _ _ _ _ F K) as (b & Hb & g & -> & Ht & Hs). exists g. split; [|exact Hs]. split; [|exact Ht].
    apply (element_blocks_incl _ _ Hb). left. reflexivity.
  - discriminate K.
  - right. exists p, f. rewrite EP, EF. unfold packages_of, files_of. rewrite !in_flat_map. split; [exists (E_Package p); split; [exact Kp|left; reflexivity]|]. split; [exists (E_File f); split; [exact Kf|left; reflexivity]|reflexivity].
Qed.

(** ** JSON *)
Lemma date_plain g x : SaysDate g x -> PlainDate x.
Proof. intro H. exact (StampMore.read_datetime_valid _ _ H). Qed.
Lemma optional_date t b o : Optional SaysDate t b o -> IfSome PlainDate o.
Proof. destruct o as [x|]; [|exact (fun _ => I)]. intro H. destruct (optional_in _ _ _ _ H) as (g & _ & Hd). exact (date_plain _ _ Hd). Qed.
Lemma says_readable g a : SaysActor g a -> ~ LooksLikeEmail a -> ReadableActor a.
Proof. intros H N. apply (Resave.actor_readable (JStr (tk_value (g_val g)))); [|exact N]. exists (tk_value (g_val g)). split; [reflexivity|exact H]. Qed.
Lemma optional_actor t b o : Optional SaysActorOrNot t b o -> (forall a, o = Some (AVal a) -> ~ LooksLikeEmail a) -> IfSome ReadableNA o.
Proof.
  destruct o as [[a|]|]; try (intros; exact I). intros H N. destruct (optional_in _ _ _ _ H) as (g & _ & Hs). unfold SaysActorOrNot in Hs.
  assert (K : exists a', AVal a = AVal a' /\ SaysActor g a') by (destruct (tk_type (g_val g)); try exact Hs; discriminate Hs). destruct K as (a' & E & Ha). injection E as <-.
  exact (says_readable _ _ Ha (N a eq_refl)).
Qed.
Lemma copyright_plain (o : option (nn pystr)) : CopyrightsPlain d -> In (word_text o) (copyright_texts d) -> IfSome PlainText o.
Proof. intros H K. destruct o as [[s| |]|]; try exact I. exact (H s K). Qed.
Lemma dotted_plain s c : In c s -> has_char c $"NONE" = false -> has_char c $"NOASSERTION" = false -> s <> $"NONE" /\ s <> $"NOASSERTION".
Proof. intros H A B. apply has_char_false in A. apply has_char_false in B. split; intros ->; contradiction. Qed.
Lemma url_plain s : ValidationSpec.UrlPrefix s -> s <> $"NONE" /\ s <> $"NOASSERTION".
Proof.
  intros (a & b & c & e & f & _ & _ & _ & _ & ->). apply (dotted_plain _ #"."); try reflexivity. rewrite !in_app_iff. right. right. right. left. left. reflexivity.
Qed.
Lemma location_plain s : ValidationSpec.DownloadLocation s -> s <> $"NONE" /\ s <> $"NOASSERTION".
Proof.
  assert (R : forall u, ValidationSpec.RepoLocation u -> In #"+" u).
  { assert (P : forall w p, ValidationSpec.SameWord w p -> In #"+" w -> In #"+" p).
    { intros w p H. induction H as [|x y w p Hx H IH]; intro K; [contradiction|]. destruct K as [->|K]; [left|right; auto].
      destruct Hx as [E|[[E _]|[[E _]|[E _]]]]; try (vm_compute in E; discriminate E). assert (E' : loc #"+" = #"+") by reflexivity. rewrite E' in E. clear E'.
      unfold loc in E. destruct (is_upper y) eqn:U; [|exact E].
      exfalso. unfold is_upper in U. rewrite andb_true_iff, !N.leb_le in U. change #"+" with 43%N in E. lia. }
    intros u [(r & l & -> & _)|[(p & a & b & -> & H & _)|(p & a & -> & H & _)]].
    - rewrite !in_app_iff. right. left. left. reflexivity.
    - apply in_or_app. left. apply (P _ _ H). cbn. auto.
    - apply in_or_app. left. apply (P _ _ H). cbn. auto 6. }
  intros [H|H]; [exact (url_plain _ H)|]. apply (dotted_plain _ #"+"); try reflexivity. destruct H as [H|(t & -> & H)]; [exact (R _ H)|apply in_or_app; left; exact (R _ H)].
Qed.
Context (HV : exists ver, Validation.validate_full_spdx_document O d ver = []).
Lemma well_formed : ValidationSpec.WellFormed O (ci_version (do_ci d)) d.
Proof. destruct HV as [ver V]. apply ValidationFacts.validate_spec in V as (_ & _ & W). exact W. Qed.

Context (Hsh : forall g, In g gs -> Good g /\ (tk_type (g_val g) = TT_LINE -> special (tk_value (g_val g)) = false \/ In (tk_value (g_val g)) [$"Tool:"; $"Organization:"; $"Person:"])).
Lemma tv_json : LicensesRead O d -> ActorsRead d -> OwnElements d -> CopyrightsPlain d -> JsonDocument O d.
Proof.
  intros HL HA HO HC. pose proof well_formed as W. destruct HV as [ver V]. destruct (Resave.valid_ids _ _ _ V HO) as (V1 & V2 & V3). constructor; try assumption.
  - destruct HD as [[_ _ _ _ [SC SN] SD _ _ _ _ _] _ _]. constructor; [exact SN| |].
    + apply Forall_forall. intros a Ha. destruct (each_in _ _ _ _ _ SC Ha) as (g & _ & Hs). apply (says_readable _ _ Hs). apply HA. left. exact Ha.
    + destruct (one_in _ _ _ _ SD) as (g & _ & Hs). exact (date_plain _ _ Hs).
  - apply Forall_forall. intros p Hp. destruct (says_package p Hp) as (b & Hb & X). destruct W as [_ WP _ _ _ _ _ _ _]. rewrite Forall_forall in WP. specialize (WP p Hp).
    constructor; try (eapply optional_date; eapply (sp_release _ _ _ X) || eapply (sp_built _ _ _ X) || eapply (sp_valid _ _ _ X)).
    + destruct (pk_download p) as [u| |] eqn:E; try exact I. exact (location_plain _ (ValidationSpec.vp_download _ _ _ _ WP u E)).
    + destruct (pk_homepage p) as [[u| |]|] eqn:E; try exact I. exact (url_plain _ (ValidationSpec.vp_homepage _ _ _ _ WP u E)).
    + apply (copyright_plain _ HC). apply in_or_app. left. apply (in_map (fun p => word_text (pk_copyright p)) _ p Hp).
    + apply (optional_actor _ _ _ (sp_supplier _ _ _ X)). intros a Ea. apply HA. right. left. exists p. tauto.
    + apply (optional_actor _ _ _ (sp_originator _ _ _ X)). intros a Ea. apply HA. right. left. exists p. tauto.
    + apply Resave.opt_license. intros e Ee. apply HL. left. exists p. tauto.
    + apply Resave.opt_license. intros e Ee. apply HL. left. exists p. tauto.
    + apply Resave.list_license. intros e Ee. apply HL. left. exists p. tauto.
  - apply Forall_forall. intros p Hp. destruct (says_file p Hp) as (b & Hb & X). constructor.
    + apply (sf_checksums _ _ _ X).
    + apply (copyright_plain _ HC). apply in_or_app. right. apply in_or_app. left. apply (in_map (fun p => word_text (fi_copyright p)) _ p Hp).
    + apply Resave.opt_license. intros e Ee. apply HL. right. left. exists p. tauto.
    + apply Resave.list_license. intros e Ee. apply HL. right. left. exists p. tauto.
  - apply Forall_forall. intros p Hp. constructor.
    + apply (copyright_plain _ HC). apply in_or_app. right. apply in_or_app. right. apply (in_map (fun p => word_text (sn_copyright p)) _ p Hp).
    + apply Resave.opt_license. intros e Ee. apply HL. right. right. exists p. tauto.
    + apply Resave.list_license. intros e Ee. apply HL. right. right. exists p. tauto.
  - apply Forall_forall. intros p Hp. destruct (says_extracted p Hp) as (b & Hb & X). pose proof (se_name _ _ X) as Hn. destruct (el_name p) as [[s|]|]; try exact I.
    destruct (optional_in _ _ _ _ Hn) as (g & [Hg Ht] & Hs). destruct (Hsh g (Hb g Hg)) as [G L]. apply good_iff in G as [G _]. rewrite Ht in G. unfold SaysName, SaysText, TextOf in Hs.
    destruct G as [G|[G|[]]]; rewrite <- G in Hs; [|discriminate Hs]. destruct Hs as (s' & E & ->). injection E as ->. intro K. rewrite K in L.
    destruct (L (eq_sym G)) as [L'|L']; [vm_compute in L'; discriminate L'|]. cbn [In] in L'. repeat (destruct L' as [L'|L']; [discriminate L'|]). exact L'.
  - apply Forall_forall. intros p Hp. destruct (says_annotation p Hp) as (b & Hb & X). constructor.
    + destruct (one_in _ _ _ _ (sa_annotator _ _ X)) as (g & _ & Hs). apply (says_readable _ _ Hs). apply HA. right. right. eauto.
    + destruct (one_in _ _ _ _ (sa_date _ _ X)) as (g & _ & Hs). exact (date_plain _ _ Hs).
Qed.
End Read.
