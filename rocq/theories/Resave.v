From Verif Require Import Py Data Oracles Basics Json JsonConv JsonParse Construct BasicsSpec JsonSpec JsonReadSpec ResaveSpec PyFacts DocUtils LoadingSpec.
From Verif Require ActorFacts StampMore JsonRead4 JsonShape ValidationSpec ValidationFacts ValidationMore DocUtilsFacts Validation Loading Files FilesFacts FilesSpec.

Section Read.
Context (O : oracles) (OR : forall s e, o_lic_parse O s = Raise e -> exists m, e = EExpr m).

Lemma word_plain j x : SaysWord j x -> PlainText x.
Proof. destruct x; cbn; tauto. Qed.
Lemma optword_plain j o : SaysOptWord j o -> IfSome PlainText o.
Proof. destruct o; cbn; [apply word_plain|tauto]. Qed.
Lemma optname_plain j o : SaysOptName j o -> IfSome PlainName o.
Proof. destruct o as [[]|]; cbn; tauto. Qed.
Lemma date_plain j d : SaysDate j d -> PlainDate d.
Proof. intros (s & _ & H). exact (StampMore.read_datetime_valid _ _ H). Qed.
Lemma maybe_date j o : Maybe SaysDate j o -> IfSome PlainDate o.
Proof. destruct o; cbn; [intros [_ H]; exact (date_plain _ _ H)|tauto]. Qed.
Lemma actor_readable j a : SaysActor j a -> ~ LooksLikeEmail a -> ReadableActor a.
Proof.
  intros (s & _ & H) N. destruct (ActorFacts.parse_actor_result _ _ H) as (H1 & H2 & H3 & H4). repeat split; try assumption; try apply H2.
  destruct (ac_type a) eqn:T, (ac_email a) eqn:M; try exact H4; intro X; apply N; (split; [congruence|split; [exact M|exact X]]).
Qed.
Lemma maybe_actor j o : Maybe SaysOptActor j o -> (forall a, o = Some (AVal a) -> ~ LooksLikeEmail a) -> IfSome ReadableNA o.
Proof. destruct o as [[]|]; cbn; try tauto. intros (_ & _ & H) N. exact (actor_readable _ _ H (N _ eq_refl)). Qed.
Lemma opt_license (o : option license) : (forall e, o = Some (NVal e) -> LicenseReads O (NVal e)) -> IfSome (LicenseReads O) o.
Proof. destruct o as [[]|]; cbn; try tauto. intro H. exact (H _ eq_refl). Qed.
Lemma list_license (l : list license) : (forall e, In (NVal e) l -> LicenseReads O (NVal e)) -> Forall (LicenseReads O) l.
Proof. intro H. apply Forall_forall. intros [e| |] Hi; [exact (H e Hi)|exact Logic.I|exact Logic.I]. Qed.
Lemma list_nonempty {A} (P : json -> A -> Prop) j (r : list A) : jtruthy j = true -> ListOf P j r -> r <> [].
Proof.
  intros T (l & Hi & H) ->. inversion H; subst. destruct j as [| | | |s|[|]|[|]]; cbn in Hi; try contradiction; try discriminate; try discriminate T.
  destruct s; [discriminate T|discriminate].
Qed.
Lemma forall2_right {A B} (P : A -> B -> Prop) l r b : Forall2 P l r -> In b r -> exists a, In a l /\ P a b.
Proof. induction 1; cbn; [tauto|]. intros [->|H1]; [eauto|]. destruct (IHForall2 H1) as (a & ? & ?). eauto. Qed.
Lemma entries_in {A} k (P : list (pystr * json) -> A -> Prop) kvs (r : list A) x : SaysEntries k P kvs r -> In x r -> exists kvs', P kvs' x.
Proof. intros (l & _ & H) Hi. destruct (forall2_right _ _ _ _ H Hi) as (j & _ & kvs' & _ & Hp). eauto. Qed.

Lemma own_in j l a : OwnAnnotations j l -> In a l -> exists p kvs, SaysAnnotation p kvs a.
Proof.
  intros (kvs & _ & [(_ & ->)|(_ & js & _ & H)]) Hi; [contradiction|]. destruct (forall2_right _ _ _ _ H Hi) as (x & _ & ak & _ & Hs). eauto.
Qed.
Lemma own_concat js ls a : Forall2 OwnAnnotations js ls -> In a (List.concat ls) -> exists p kvs, SaysAnnotation p kvs a.
Proof. intros H Hi. apply in_concat in Hi as (l & Hl & Ha). destruct (forall2_right _ _ _ _ H Hl) as (j & _ & Ho). exact (own_in _ _ _ Ho Ha). Qed.
Lemma annotations_plain kvs l a : SaysAnnotations kvs l -> In a l ->
  (exists j, SaysActor j (an_annotator a)) /\ (exists j, SaysDate j (an_date a)).
Proof.
  intros (own & reviews & rs & ps & fs & ss & pas & fas & sas & H1 & _ & H2 & _ & H3 & _ & H4 & _ & H5 & ->) Hi.
  assert (T : (exists p kvs, SaysAnnotation p kvs a) \/ exists p j, SaysReview p j a).
  { repeat (apply in_app_or in Hi as [Hi|Hi]).
    - left. exact (own_in _ _ _ H1 Hi).
    - right. destruct (forall2_right _ _ _ _ H2 Hi) as (x & _ & Hs). eauto.
    - left. exact (own_concat _ _ _ H3 Hi).
    - left. exact (own_concat _ _ _ H4 Hi).
    - left. exact (own_concat _ _ _ H5 Hi). }
  destruct T as [(p & k & [ ])|(p & j & k & _ & _ & _ & Ha & Hd & _)]; split; eexists; eassumption.
Qed.

Lemma dict_object j d : parse_dict O j = Ok d -> exists kvs, j = JObj kvs.
Proof. destruct j; intro H; try discriminate H; eauto. Qed.

Lemma resolves_plain d i : ValidationSpec.Resolves d i -> i <> $"NONE" /\ i <> $"NOASSERTION".
Proof.
  assert (K : forall s, ValidationSpec.InternalId s -> exists t, s = $"SPDXRef-" ++ t).
  { intros s [H|(t & -> & H)]; unfold ValidationSpec.Prefixed in H; destruct H as (t' & -> & _); [eauto|]. rewrite <- app_assoc. eauto. }
  assert (K' : forall s, ValidationSpec.DocRefId s -> exists t, s = $"DocumentRef-" ++ t).
  { intros s [H|(t & -> & H)]; unfold ValidationSpec.Prefixed in H; destruct H as (t' & -> & _); [eauto|]. rewrite <- app_assoc. eauto. }
  intros [[H _]|(a & b & -> & H & _)]; [destruct (K _ H) as [t ->]|destruct (K' _ H) as [t ->]]; split; discriminate.
Qed.
Lemma valid_ids ver d : Validation.validate_full_spdx_document O d ver = [] -> OwnElements d ->
  NoDup (element_ids d) /\ Forall (fun a => an_id a = ci_id (do_ci d) \/ In (an_id a) (element_ids d)) (do_annotations d)
  /\ Forall (fun r => PlainText (re_related r)) (do_relationships d).
Proof.
  intros V N. apply ValidationFacts.validate_spec in V as (_ & _ & W). destruct W as [_ _ _ _ WA WR _ _ WD]. split; [|split].
  - inversion WD as [|x l Hn Hd]; subst. unfold element_ids. refine (Permutation_NoDup _ Hd). rewrite !app_assoc. apply Permutation_app_tail, Permutation_app_comm.
  - rewrite Forall_forall in *. intros a Ha. destruct (WA a Ha) as [_ [[_ H]|H]]; [|destruct (N a Ha H)]. destruct H as [H|H]; [left; symmetry; exact H|right].
    unfold element_ids. rewrite !in_app_iff in *. tauto.
  - rewrite Forall_forall in *. intros r Hr. destruct (WR r Hr) as (_ & H & _). destruct (re_related r) as [i| |] eqn:E; cbn; try exact Logic.I. exact (resolves_plain _ _ (H i eq_refl)).
Qed.

Lemma read_document j d ver : parse_dict O j = Ok d -> Validation.validate_full_spdx_document O d ver = [] ->
  LicensesRead O d -> ActorsRead d -> OwnElements d -> JsonDocument O d.
Proof.
  intros P V HL HA HO. destruct (dict_object _ _ P) as [kvs ->]. apply (JsonRead4.document_says O OR) in P as (PC & PP & PF & PS & PE & PA & _).
  destruct (valid_ids _ _ V HO) as (V1 & V2 & V3). constructor; try assumption.
  - destruct PC as [_ _ _ _ _ _ _ (k & _ & (T & L) & D & _)]. constructor.
    + exact (list_nonempty _ _ _ T L).
    + apply Forall_forall. intros a Ha. destruct L as (l & _ & F). destruct (forall2_right _ _ _ _ F Ha) as (x & _ & Hx). apply (actor_readable _ _ Hx). apply HA. left. exact Ha.
    + exact (date_plain _ _ D).
  - apply Forall_forall. intros p Hp. destruct (entries_in _ _ _ _ _ PP Hp) as (k & X).
    destruct X. constructor; try (eapply word_plain; eassumption); try (eapply optword_plain; eassumption); try (eapply maybe_date; eassumption).
    + eapply maybe_actor; [eassumption|]. intros a Ea. apply HA. right. left. exists p. tauto.
    + eapply maybe_actor; [eassumption|]. intros a Ea. apply HA. right. left. exists p. tauto.
    + apply opt_license. intros e Ee. apply HL. left. exists p. tauto.
    + apply opt_license. intros e Ee. apply HL. left. exists p. tauto.
    + apply list_license. intros e Ee. apply HL. left. exists p. tauto.
  - apply Forall_forall. intros p Hp. destruct (entries_in _ _ _ _ _ PF Hp) as (k & X). destruct X as [_ _ [T L] _ _ _ _ ? _ _ _ _].
    constructor; try (eapply optword_plain; eassumption).
    + exact (list_nonempty _ _ _ T L).
    + apply opt_license. intros e Ee. apply HL. right. left. exists p. tauto.
    + apply list_license. intros e Ee. apply HL. right. left. exists p. tauto.
  - apply Forall_forall. intros p Hp. destruct (entries_in _ _ _ _ _ PS Hp) as (k & X). destruct X.
    constructor; try (eapply optword_plain; eassumption).
    + apply opt_license. intros e Ee. apply HL. right. right. exists p. tauto.
    + apply list_license. intros e Ee. apply HL. right. right. exists p. tauto.
  - apply Forall_forall. intros p Hp. destruct (entries_in _ _ _ _ _ PE Hp) as (k & X). destruct X. eapply optname_plain; eassumption.
  - apply Forall_forall. intros a Ha. destruct (annotations_plain _ _ _ PA Ha) as ((x & Hx) & (y & Hy)). constructor.
    + apply (actor_readable _ _ Hx). apply HA. right. right. eauto.
    + exact (date_plain _ _ Hy).
Qed.

(** the annotations of a document matter only through those of each element *)
Lemma same_about l m id : SameAnnotations l m -> about id l = about id m.
Proof. intros [_ H]. exact (H id). Qed.
Lemma filter_all {A} (f g : A -> bool) l : (forall x, In x l -> f x = g x) -> filter f l = filter g l.
Proof. induction l as [|x l IH]; intro H; [reflexivity|]. cbn. rewrite (H x (or_introl eq_refl)), IH; [reflexivity|]. intros y Hy. apply H. right. exact Hy. Qed.
Lemma same_rest d l m ids : SameAnnotations l m -> (forall a, In a l -> an_id a = d \/ In (an_id a) ids) ->
  about_none_of ids l = about_none_of ids m.
Proof.
  intros [P H] T. assert (K : forall r, (forall a, In a r -> an_id a = d \/ In (an_id a) ids) ->
    about_none_of ids r = if str_in d ids then [] else filter (fun a => str_eqb (an_id a) d) r).
  { intros r Hr. unfold about_none_of. destruct (str_in d ids) eqn:E.
    - rewrite (filter_all _ (fun _ => false)); [clear; induction r; auto|]. intros a Ha. destruct (Hr a Ha) as [->|Hi]; [rewrite E; reflexivity|].
      apply str_in_In in Hi. rewrite Hi. reflexivity.
    - apply filter_all. intros a Ha. destruct (Hr a Ha) as [->|Hi]; [rewrite E, str_eqb_refl; reflexivity|]. pose proof (proj2 (str_in_In _ _) Hi) as Hi'. rewrite Hi'.
      destruct (str_eqb (an_id a) d) eqn:E'; [|reflexivity]. apply str_eqb_eq in E'. congruence. }
  rewrite (K l T), (K m). { destruct (str_in d ids); [reflexivity|apply H]. }
  intros a Ha. apply T. apply (Permutation_in _ (Permutation_sym P)). exact Ha.
Qed.

Lemma map_result_ext {A B} (f g : A -> result B) l : (forall x, f x = g x) -> map_result f l = map_result g l.
Proof. intro H. induction l as [|x l IH]; [reflexivity|]. cbn. rewrite H, IH. reflexivity. Qed.
Lemma convert_list_ext {A} (f g : A -> result json) l : (forall x, f x = g x) -> convert_list f l = convert_list g l.
Proof. intro H. unfold convert_list. rewrite (map_result_ext _ _ _ H). reflexivity. Qed.
Lemma convert_same d anns : (forall a, In a (do_annotations d) -> an_id a = ci_id (do_ci d) \/ In (an_id a) (element_ids d)) ->
  SameAnnotations (do_annotations d) anns -> convert_document O (with_annotations d anns) = convert_document O d.
Proof.
  intros T H. unfold convert_document. f_equal. unfold document_props. cbn [with_annotations do_ci do_packages do_files do_snippets do_annotations do_relationships do_extracted].
  assert (EA : forall id, annotations_of id (with_annotations d anns) = annotations_of id d) by (intro id; symmetry; apply (same_about _ _ id H)).
  rewrite (convert_list_ext (convert_package O (with_annotations d anns)) (convert_package O d)) by (intro p; unfold convert_package, package_props; rewrite EA; reflexivity).
  rewrite (convert_list_ext (convert_file O (with_annotations d anns)) (convert_file O d)) by (intro p; unfold convert_file, file_props; rewrite EA; reflexivity).
  rewrite (convert_list_ext (convert_snippet O (with_annotations d anns)) (convert_snippet O d)) by (intro p; unfold convert_snippet, snippet_props; rewrite EA; reflexivity).
  assert (ED : document_annotations (with_annotations d anns) = document_annotations d).
  { symmetry. apply (same_rest (ci_id (do_ci d)) _ _ _ H). intros a Ha. destruct (T a Ha) as [E|E]; [left; exact E|right]. unfold element_ids in E. unfold get_contained_spdx_element_ids.
    rewrite !in_app_iff in *. tauto. }
  rewrite ED. reflexivity.
Qed.

Theorem resaved j d ver : parse_dict O j = Ok d -> Validation.validate_full_spdx_document O d ver = [] ->
  LicensesRead O d -> ActorsRead d -> OwnElements d ->
  exists j' anns, convert_document O d = Ok j' /\ parse_dict O j' = Ok (with_annotations d anns) /\ SameAnnotations (do_annotations d) anns
    /\ convert_document O (with_annotations d anns) = Ok j'.
Proof.
  intros P V HL HA HO. pose proof (read_document _ _ _ P V HL HA HO) as J. destruct (JsonShape.json_round_trip O d J) as (j' & anns & C & P' & S').
  exists j', anns. split; [exact C|]. split; [exact P'|]. split; [exact S'|]. rewrite convert_same; [exact C| |exact S'].
  destruct J as [_ _ _ _ _ _ _ T _]. rewrite Forall_forall in T. exact T.
Qed.

(** ** Without duplicates *)
Lemma dd_forall {A} (eqb : A -> A -> bool) (P : A -> Prop) l : Forall P l -> Forall P (create_list_without_duplicates eqb l).
Proof. rewrite !Forall_forall. intros H x Hx. apply H. exact (DocUtilsFacts.dedup_incl eqb l x Hx). Qed.
Lemma map_forall {A B} (f : A -> B) (P : A -> Prop) (Q : B -> Prop) l : (forall x, P x -> Q (f x)) -> Forall P l -> Forall Q (map f l).
Proof. intros H F. induction F; cbn; constructor; auto. Qed.
Lemma dedup_json leq d : JsonDocument O d -> JsonDocument O (create_document_without_duplicates leq d).
Proof.
  assert (EI : element_ids (create_document_without_duplicates leq d) = element_ids d) by (unfold element_ids; cbn; rewrite !map_map; reflexivity).
  intros [H1 H2 H3 H4 H5 H6 H7 H8 H9]. constructor; rewrite ?EI; try assumption; cbn [create_document_without_duplicates do_ci do_packages do_files do_snippets do_annotations do_relationships do_extracted].
  - destruct H1. constructor; try assumption; cbn [dedup_ci ci_creators]; [apply DocUtilsFacts.dedup_nonempty|apply dd_forall]; assumption.
  - refine (map_forall _ _ _ _ _ H2). intros p []. constructor; try assumption. cbn. apply dd_forall. assumption.
  - refine (map_forall _ _ _ _ _ H3). intros p []. constructor; try assumption; cbn; [apply DocUtilsFacts.dedup_nonempty|apply dd_forall]; assumption.
  - refine (map_forall _ _ _ _ _ H4). intros p []. constructor; try assumption. cbn. apply dd_forall. assumption.
  - refine (map_forall _ _ _ _ _ H6). intros e He. exact He.
Qed.
End Read.

(** ** Files *)
From Verif Require Import Files FilesSpec Loading Validation TvSpec TvWriter XmlSpec.
Section Converted.
Context (E : environment) (OR : forall s e, o_lic_parse (e_oracles E) s = Raise e -> exists m, e = EExpr m).
Local Notation O := (e_oracles E).
Lemma dict_file fs name x d : HasFormat name x -> In x [F_JSON; F_YAML; F_XML] -> parse_any_file E fs name = inl d -> exists j, parse_dict O j = Ok d.
Proof.
  intros Hx Hi. rewrite (FilesFacts.reads_format _ _ _ _ Hx). unfold parse_from_file. destruct (read_file E fs name) as [t|f]; cbn [andthen]; [|discriminate].
  destruct Hi as [<-|[<-|[<-|[]]]].
  - destruct (e_json_load E t) as [j|]; cbn [andthen]; [|discriminate]. unfold parse_json. destruct (parse_dict O (json_load j)) eqn:P; cbn; [|discriminate]. intro H. exists (json_load j). congruence.
  - destruct (e_yaml_load E t) as [j|]; cbn [andthen]; [|discriminate]. unfold parse_yaml. destruct (parse_dict O j) eqn:P; cbn; [|discriminate]. intro H. exists j. congruence.
  - destruct (e_xml_parse E t) as [j|]; cbn [andthen]; [|discriminate]. unfold parse_xml, bind.
    destruct (jget $"Document" (fix_list_like_fields j)) as [w|]; cbn; [|discriminate]. destruct (jtruthy w); cbn; [|discriminate].
    destruct (parse_dict O w) eqn:P; cbn; [|discriminate]. intro H. exists w. congruence.
Qed.
Lemma named o x : HasFormat o x -> o <> [] /\ o <> $"-".
Proof. intro H. apply CasingFacts.format_spec in H. split; intros ->; vm_compute in H; discriminate H. Qed.

Section Run.
Context (fs : files) (infile o : pystr) (version : option pystr) (d : document) (v : pystr).
Context (HR : parse_any_file E fs infile = inl d) (HC : Chosen version d v) (HS : Supported v) (HV : validate_full_spdx_document O d (Some v) = []).
Context (y : file_format) (HY : HasFormat o y) (HW : e_write_error E o = None) (HE : e_read_error E o = None).
Local Notation d' := (create_document_without_duplicates (o_lic_eqb O) d).
Local Notation r := (main E fs infile (Some o) version false false).
Lemma converted (P : document -> Prop) : (exists fs' d'', write_any_file E fs d o false = (fs', None) /\ parse_any_file E fs' o = inl d'' /\ P d'') ->
  r_exit r = Exit 0 /\ exists d'', parse_any_file E (r_files r) o = inl d'' /\ P d''.
Proof.
  intros (fs' & d'' & HW' & HP & H). destruct (named _ _ HY) as [N1 N2]. destruct (FilesFacts.converts E fs infile o version d v HR HC HS HV N1 N2 fs' HW') as [E1 E2].
  cbv zeta in *. split; [exact E1|]. exists d''. split; [|exact H]. exact (eq_trans (f_equal (fun f => parse_any_file E f o) E2) HP).
Qed.
Lemma to_json_like : In y [F_JSON; F_YAML] -> JsonDocument O d -> (forall j, convert_document O d' = Ok j -> Encodes E y j) ->
  r_exit r = Exit 0 /\ exists d'', parse_any_file E (r_files r) o = inl d''
    /\ exists anns, d'' = with_annotations d' anns /\ SameAnnotations (do_annotations d) anns.
Proof.
  intros Hy HJ HEnc. apply (dedup_json O (o_lic_eqb O)) in HJ. apply converted. destruct Hy as [Hy|[Hy|[]]].
  - rewrite <- Hy in HY, HEnc. destruct (FilesFacts.json_file E fs d o HY HW HE HJ HEnc) as (fs' & anns & H1 & H2 & H3). eauto 9.
  - rewrite <- Hy in HY, HEnc. destruct (FilesFacts.yaml_file E fs d o HY HW HE HJ HEnc) as (fs' & anns & H1 & H2 & H3). eauto 9.
Qed.
End Run.
Theorem json_like_conversion fs infile o version d v x y :
  HasFormat infile x -> In x [F_JSON; F_YAML; F_XML] -> HasFormat o y -> In y [F_JSON; F_YAML] ->
  e_write_error E o = None -> e_read_error E o = None ->
  parse_any_file E fs infile = inl d -> Chosen version d v -> Supported v -> validate_full_spdx_document O d (Some v) = [] ->
  LicensesRead O d -> ActorsRead d -> OwnElements d ->
  (forall j, convert_document O (create_document_without_duplicates (o_lic_eqb O) d) = Ok j -> Encodes E y j) ->
  let r := main E fs infile (Some o) version false false in
  r_exit r = Exit 0 /\ exists anns, SameAnnotations (do_annotations d) anns
    /\ parse_any_file E (r_files r) o = inl (with_annotations (create_document_without_duplicates (o_lic_eqb O) d) anns).
Proof.
  intros Hx Hxi Hy Hyi HW HE HR HC HS HV HL HA HO HEnc r. destruct (dict_file _ _ _ _ Hx Hxi HR) as (j & P).
  pose proof (read_document O OR _ _ _ P HV HL HA HO) as J.
  destruct (to_json_like fs infile o version d v HR HC HS HV y Hy HW HE Hyi J HEnc) as (E1 & d'' & P'' & anns & -> & S'). split; [exact E1|]. exists anns. split; [exact S'|exact P''].
Qed.
End Converted.

Section Others.
Context (E : environment) (fs : files) (infile o : pystr) (version : option pystr) (d : document) (v : pystr).
Local Notation O := (e_oracles E).
Context (HR : parse_any_file E fs infile = inl d) (HC : Chosen version d v) (HS : Supported v) (HV : validate_full_spdx_document O d (Some v) = []).
Context (HW : e_write_error E o = None) (HE : e_read_error E o = None).
Local Notation d' := (create_document_without_duplicates (o_lic_eqb O) d).
Local Notation r := (main E fs infile (Some o) version false false).
Lemma to_tag_value : HasFormat o F_TAG_VALUE -> TvDocument O d' -> (forall text, write_document O d' = Ok text -> e_text E text = (text, None)) ->
  r_exit r = Exit 0 /\ exists d'', parse_any_file E (r_files r) o = inl d'' /\ TvSame d' d''.
Proof.
  intros HY HT HX. apply (converted E fs infile o version d v HR HC HS HV _ HY). exact (FilesFacts.tag_value_file E fs d o HY HW HE HT HX).
Qed.
Lemma to_rdf : let L := e_rdf_library E in HasFormat o F_RDF_XML -> RdfSpec.RdfDocument O d' -> RdfSpec.LicenseGrammar O -> RdfSpec.RdfLibrary L (ci_namespace (do_ci d')) ->
  (forall ts, RdfWriter.write_graph O (e_label E) d' = Ok ts ->
     exists t g, e_rdf_serialize E ts = (t, None) /\ e_rdf_parse E t = inl g
       /\ RdfSpec.SameGraph (e_label E) ts (Rdf.g_triples g) /\ RdfSpec.Shortens L (Rdf.g_bound g) (ci_refs (do_ci d'))) ->
  r_exit r = Exit 0 /\ exists d'', parse_any_file E (r_files r) o = inl d'' /\ RdfSpec.SameDocument d' d''.
Proof.
  intros L HY HD HG HL HX. apply (converted E fs infile o version d v HR HC HS HV _ HY). exact (FilesFacts.rdf_file E fs d o HY HW HE HD HG HL HX).
Qed.
Lemma to_xml : HasFormat o F_XML -> XmlDocument O d' ->
  (forall j, convert_document O d' = Ok j ->
     exists t w, e_xml_unparse E (JObj [($"Document", j)]) = (t, None) /\ e_xml_parse E t = inl w /\ XmlImage (JObj [($"Document", j)]) w) ->
  r_exit r = Exit 0 /\ exists d'', parse_any_file E (r_files r) o = inl d'' /\ exists anns, d'' = with_annotations d' anns /\ SameAnnotations (do_annotations d) anns.
Proof.
  intros HY HD HX. apply (converted E fs infile o version d v HR HC HS HV _ HY).
  destruct (FilesFacts.xml_file E fs d o HY HW HE HD HX) as (fs' & anns & H1 & H2 & H3). eauto 9.
Qed.
End Others.
