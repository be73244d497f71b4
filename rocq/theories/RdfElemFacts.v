(** What the RDF writer says about packages, files, snippets and the other parts of a document. *)
From Verif Require Import Py PyFacts Data Oracles Basics Validation ValidationSpec BasicsSpec LocatorFacts Rdf RdfWriter RdfSpec
  RdfGraphFacts RdfWriteFacts.
From Verif Require JsonRound.
From Coq Require Import Lia.

(** the text of a timestamp *)
Definition stamp (d : datetime) : pystr := match datetime_to_iso_string d with Ok s => s | Raise _ => [] end.
Lemma stamp_ok d : PlainDate d -> datetime_to_iso_string d = Ok (stamp d) /\ stamp d <> [] /\ datetime_from_str (stamp d) = Ok d.
Proof.
  intro H. destruct (JsonRound.plain_date_iso d H) as (s & H1 & H2 & H3). unfold stamp. rewrite H2. auto.
Qed.

(** two adjacent writers written as one *)
Lemma w_seq_nested a b c n : w_seq (a ++ w_seq b :: c) n = w_seq (a ++ b ++ c) n.
Proof.
  rewrite !w_seq_app. destruct (w_seq a n) as [[x m]|e]; [|reflexivity]. cbn [bind].
  change (w_seq (w_seq b :: c)) with (w_app (w_seq b) (w_seq c)). unfold w_app.
  rewrite w_seq_app. destruct (w_seq b m) as [[y k]|e]; [|reflexivity]. cbn [bind].
  destruct (w_seq c k) as [[z j]|e]; reflexivity.
Qed.
Lemma w_app_ext a a' b n : (forall n, a n = a' n) -> w_app a b n = w_app a' b n.
Proof. intro H. unfold w_app. rewrite H. reflexivity. Qed.

Section Elements.
Variable O : oracles.
Variable lab : nat -> pystr.
Hypothesis lab_inj : forall i j, lab i = lab j -> i = j.
Variable ns : pystr.
Hypothesis HN : RdfNamespace ns.

Notation WritesL := (Writes lab).
Notation Writes1L := (Writes1 lab).
Notation some_blank := (some_blank lab).
Notation pcs := (list (pystr * (view -> list node -> Prop))).

Lemma writes_ext w w' par p C : (forall n, w n = w' n) -> WritesL w par p C -> WritesL w' par p C.
Proof. intros E H n Hn. rewrite <- E. apply H. exact Hn. Qed.
Lemma top_ext w w' A D : (forall n, w n = w' n) -> Top lab w A D -> Top lab w' A D.
Proof. intros E H n. rewrite <- E. apply H. Qed.
Lemma writes_date o par p : IfSome PlainDate o -> special (par, p, plain []) = false ->
  WritesL (add_datetime_to_graph o par p) par p (is (opt_nodes (fun d => plain (stamp d)) o)).
Proof.
  intros H Sp. destruct o as [d|]; [|apply writes_nil]. destruct (stamp_ok d H) as (E & _).
  apply (writes_ext (w_add par p (plain (stamp d)))).
  - intro n. unfold add_datetime_to_graph, w_get. rewrite E. reflexivity.
  - apply writes_is; [intros []|exact Sp].
Qed.
Lemma writes_date1 d par p : PlainDate d -> special (par, p, plain []) = false ->
  WritesL (w_get (datetime_to_iso_string d) (fun s => w_add par p (plain s))) par p (is [plain (stamp d)]).
Proof. intros H Sp. exact (writes_date (Some d) par p H Sp). Qed.

(** ** Verification codes *)
Definition code_says (v : verif_code) : pcs :=
  [(RDF_type, is [NUri (spdx "PackageVerificationCode")]);
   (spdx "packageVerificationCodeValue", is [plain (vc_value v)]);
   (spdx "packageVerificationCodeExcludedFile", is (map plain (vc_excluded v)))].
Definition CodeAt (V : view) (c : verif_code) (v : node) : Prop := some_blank v /\ says (code_says c) V v.
Lemma writes_code o par : IfSome RdfCode o ->
  WritesL (add_package_verification_code_to_graph lab o par) par (spdx "packageVerificationCode") (opt_item CodeAt o).
Proof.
  intro H. destruct o as [v|]; [|apply writes_nil]. cbn [IfSome] in H.
  apply (writes_fresh lab lab_inj par (spdx "packageVerificationCode")
    (fun b => [w_add b RDF_type (NUri (spdx "PackageVerificationCode"));
               w_add b (spdx "packageVerificationCodeValue") (plain (vc_value v));
               w_all (fun x => w_add b (spdx "packageVerificationCodeExcludedFile") (plain x)) (vc_excluded v)])
    (fun b => []) (code_says v) []).
  - intro b. repeat constructor; cbn [fst snd]; try (apply writes_is; solve [intros []|reflexivity]).
    apply writes_texts; [exact lab_inj|exact (rv_excluded _ H)|reflexivity].
  - intro b. constructor.
  - closed_nodup.
  - reflexivity.
Qed.

(** ** External package references *)
Definition package_ref_says (r : ext_pkg_ref) : pcs :=
  [(RDF_type, is [NUri (spdx "ExternalRef")]);
   (spdx "referenceCategory", is [enum_uri $"referenceCategory_" (ref_category_name (er_category r))]);
   (spdx "referenceType", is [reference_type_node r ns]);
   (spdx "referenceLocator", is [plain (er_locator r)]);
   (RDFS_comment, is (opt_nodes plain (er_comment r)))].
Definition PackageRefAt (V : view) (r : ext_pkg_ref) (v : node) : Prop := some_blank v /\ says (package_ref_says r) V v.
Lemma clean_truthy s : Clean s -> truthy_list s = true.
Proof. intros [H _]. destruct s; [congruence|reflexivity]. Qed.
Lemma writes_comment_if o par : IfSome Clean o ->
  WritesL (if truthy_opt o then add_optional_str o par RDFS_comment else w_nil) par RDFS_comment (is (opt_nodes plain o)).
Proof.
  intro H. destruct o as [s|]; [|apply writes_nil]. cbn [truthy_opt]. cbn [IfSome] in H. destruct s as [|c s]; [destruct H; congruence|].
  apply (writes_optional lab (fun x => x) (Some (c :: s))). reflexivity.
Qed.
Lemma writes_package_ref r par : RdfPackageRef r ->
  Writes1L (add_external_package_ref_to_graph lab r par ns) par (spdx "externalRef") (fun V => PackageRefAt V r).
Proof.
  intro H.
  apply (writes_fresh lab lab_inj par (spdx "externalRef")
    (fun b => [w_add b RDF_type (NUri (spdx "ExternalRef"));
     w_add b (spdx "referenceCategory") (enum_uri $"referenceCategory_" (ref_category_name (er_category r)));
     w_add b (spdx "referenceType") (reference_type_node r ns);
     w_add b (spdx "referenceLocator") (plain (er_locator r));
     (if truthy_opt (er_comment r) then add_optional_str (er_comment r) b RDFS_comment else w_nil)])
    (fun b => []) (package_ref_says r) []).
  - intro b. repeat constructor; cbn [fst snd].
    + apply writes_is; [intros []|reflexivity].
    + apply writes_is; [intros []|reflexivity].
    + apply writes_is; [|reflexivity]. unfold reference_type_node. destruct (str_in _ _); intros [].
    + apply writes_is; [intros []|reflexivity].
    + apply writes_comment_if. exact (rr_comment _ H).
  - intro b. constructor.
  - closed_nodup.
  - reflexivity.
Qed.

(** ** Ranges *)
Definition pointer_says (bytes : bool) (z : Z) (f : node) : pcs :=
  [(RDF_type, is [NUri (if bytes then ptr "ByteOffsetPointer" else ptr "LineCharPointer")]);
   (ptr "reference", is [f]);
   (if bytes then ptr "offset" else ptr "lineNumber", is [int_node z])].
Definition PointerAt (bytes : bool) (f : node) (V : view) (z : Z) (v : node) : Prop :=
  some_blank v /\ says (pointer_says bytes z f) V v.
Lemma writes_pointer bytes p z par f : ~ blank f -> (forall x, special (par, p, x) = false) ->
  Writes1L (add_pointer lab bytes p z par f) par p (fun V => PointerAt bytes f V z).
Proof.
  intros Hf Sp.
  apply (writes_fresh lab lab_inj par p
    (fun b => [w_add b RDF_type (NUri (if bytes then ptr "ByteOffsetPointer" else ptr "LineCharPointer"))])
    (fun b => [w_add b (ptr "reference") f; w_add b (if bytes then ptr "offset" else ptr "lineNumber") (int_node z)])
    [(RDF_type, is [NUri (if bytes then ptr "ByteOffsetPointer" else ptr "LineCharPointer")])]
    [(ptr "reference", is [f]); (if bytes then ptr "offset" else ptr "lineNumber", is [int_node z])]).
  - intro b. repeat constructor; cbn [fst snd]. apply writes_is; [intros []|destruct bytes; reflexivity].
  - intro b. repeat constructor; cbn [fst snd]; apply writes_is; try solve [intros []|reflexivity|exact Hf|destruct bytes; reflexivity].
  - destruct bytes; closed_nodup.
  - apply Sp.
Qed.
Definition range_says (bytes : bool) (r : Z * Z) (f : node) : pcs :=
  [(RDF_type, is [NUri (ptr "StartEndPointer")]);
   (ptr "startPointer", item (PointerAt bytes f) (fst r));
   (ptr "endPointer", item (PointerAt bytes f) (snd r))].
(** the bool says whether bytes or lines are counted *)
Definition RangeAt (f : node) (V : view) (r : bool * (Z * Z)) (v : node) : Prop :=
  some_blank v /\ says (range_says (fst r) (snd r) f) V v.
Lemma writes_range r par f bytes : ~ blank f ->
  Writes1L (add_range_to_graph lab (Some r) par f bytes) par (spdx "range") (fun V => RangeAt f V (bytes, r)).
Proof.
  intros Hf.
  apply (writes_ext (w_fresh lab (fun b => w_seq
    ([w_add b RDF_type (NUri (ptr "StartEndPointer")); add_pointer lab bytes (ptr "startPointer") (fst r) b f;
      add_pointer lab bytes (ptr "endPointer") (snd r) b f] ++ [w_add par (spdx "range") b])))).
  { intro n. unfold add_range_to_graph, w_fresh.
    change (w_seq (?a :: ?b)) with (w_seq ([a] ++ b)). symmetry.
    apply (w_seq_nested [w_add (NBlank (lab n)) RDF_type (NUri (ptr "StartEndPointer"))]
      [add_pointer lab bytes (ptr "startPointer") (fst r) (NBlank (lab n)) f;
       add_pointer lab bytes (ptr "endPointer") (snd r) (NBlank (lab n)) f] [w_add par (spdx "range") (NBlank (lab n))] (S n)). }
  apply (writes_fresh lab lab_inj par (spdx "range")
    (fun b => [w_add b RDF_type (NUri (ptr "StartEndPointer")); add_pointer lab bytes (ptr "startPointer") (fst r) b f;
               add_pointer lab bytes (ptr "endPointer") (snd r) b f]) (fun b => []) (range_says bytes r f) []).
  - intro b. repeat constructor; cbn [fst snd].
    + apply writes_is; [intros []|reflexivity].
    + apply writes_pointer; [exact Hf|reflexivity].
    + apply writes_pointer; [exact Hf|reflexivity].
  - intro b. constructor.
  - closed_nodup.
  - reflexivity.
Qed.

(** ** Top-level nodes *)
Lemma filter_quiet t : quiet t -> filter special t = [].
Proof. induction 1 as [|x t H _ IH]; cbn [filter]; [reflexivity|]. rewrite H. exact IH. Qed.
(** the type of a node, then its properties *)
Lemma top_element T u ws (l : pcs) : In #"#" u -> special (NUri u, RDF_type, NUri T) = true ->
  Forall2 (fun w pc => WritesL w (NUri u) (fst pc) (snd pc)) ws l -> NoDup (RDF_type :: map fst l) ->
  (forall p, In p (map fst l) -> ~ In p deaf) ->
  Top lab (w_seq (w_add (NUri u) RDF_type (NUri T) :: ws)) (fun s q => s = NUri u)
    (fun V sp => sp = [(NUri u, RDF_type, NUri T)] /\ says l V (NUri u)).
Proof.
  intros Hu Sp HW ND Df n. inversion ND as [|? ? NT NDl]; subst.
  destruct (says_seq lab lab_inj (NUri u) ws l n HW NDl (hash_good lab n u Hu)) as (ts & n' & E & H1 & F & Q & K).
  exists ((NUri u, RDF_type, NUri T) :: ts), n'. split.
  { change (w_seq (?a :: ws)) with (w_app a (w_seq ws)). unfold w_app, w_add. cbn [bind]. rewrite E. reflexivity. }
  split; [exact H1|]. split.
  { constructor; [left; reflexivity|]. refine (frame_impl lab (among (NUri u) (map fst l)) (fun s _ => s = NUri u) n n' ts _ F). intros s q [-> _]. reflexivity. }
  intros V Lo Ag. cbn [filter]. rewrite Sp, (filter_quiet ts Q). split; [reflexivity|]. apply K.
  - apply (local_skip lab V n n' [] ts (NUri u) RDF_type (NUri T)); [intros; discriminate|exact Lo].
  - intros p Hp. rewrite Ag; [|reflexivity|apply Df; exact Hp]. apply (objects_skip []). right. intros <-. exact (NT Hp).
Qed.
(** the properties of a node, then a link to it *)
Lemma top_linked u doc dp ws (l : pcs) : In #"#" u -> In dp deaf -> special (NUri doc, dp, NUri u) = true ->
  Forall2 (fun w pc => WritesL w (NUri u) (fst pc) (snd pc)) ws l -> NoDup (map fst l) ->
  (forall p, In p (map fst l) -> ~ In p deaf) ->
  Top lab (w_seq (ws ++ [w_add (NUri doc) dp (NUri u)])) (fun s q => s = NUri u \/ (s = NUri doc /\ q = dp))
    (fun V sp => sp = [(NUri doc, dp, NUri u)] /\ says l V (NUri u)).
Proof.
  intros Hu Hd Sp HW ND Df n.
  destruct (says_seq lab lab_inj (NUri u) ws l n HW ND (hash_good lab n u Hu)) as (ts & n' & E & H1 & F & Q & K).
  exists (ts ++ [(NUri doc, dp, NUri u)]), n'. split.
  { rewrite w_seq_app, E. reflexivity. }
  split; [exact H1|]. split.
  { apply frame_app; [refine (frame_impl lab (among (NUri u) (map fst l)) (fun s q => s = NUri u \/ (s = NUri doc /\ q = dp)) n n' ts _ F); intros s q [-> _]; auto|]. constructor; [|constructor]. left. right. split; reflexivity. }
  intros V Lo Ag. rewrite filter_app, (filter_quiet ts Q). cbn [filter app]. rewrite Sp. split; [reflexivity|].
  apply K.
  - rewrite <- (app_nil_r ts). eapply local_skip; [|exact Lo]. intros; discriminate.
  - intros p Hp. rewrite Ag; [|left; reflexivity|apply Df; exact Hp]. rewrite objects_skip, app_nil_r; [reflexivity|].
    right. intros ->. exact (Df _ Hp Hd).
Qed.
(** a blank node with a type and properties, then a link to it *)
Lemma top_fresh u p T (ws : node -> list writer) (l : pcs) : In #"#" u ->
  (forall b, Forall2 (fun w pc => WritesL w b (fst pc) (snd pc)) (ws b) l) -> NoDup (RDF_type :: map fst l) ->
  Top lab (w_fresh lab (fun b => w_seq (w_add b RDF_type (NUri T) :: ws b ++ [w_add (NUri u) p b]))) (fun s q => s = NUri u /\ q = p)
    (fun V sp => exists b, sp = filter special [(b, RDF_type, NUri T); (NUri u, p, b)] /\ some_blank b /\ says l V b).
Proof.
  intros Hu HW ND n. inversion ND as [|? ? NT NDl]; subst.
  assert (Hb : good lab (S n) (NBlank (lab n))) by (apply blank_good; [exact lab_inj|lia]).
  destruct (writes_seq lab lab_inj (NBlank (lab n)) _ l (HW _) NDl (S n) Hb) as (ts & n' & E & H1 & F & Q & K).
  exists ((NBlank (lab n), RDF_type, NUri T) :: ts ++ [(NUri u, p, NBlank (lab n))]), n'. split.
  { unfold w_fresh. change (w_seq (?a :: ?b)) with (w_app a (w_seq b)). unfold w_app, w_add at 1. cbn [bind].
    rewrite w_seq_app, E. reflexivity. }
  split; [lia|]. split.
  { constructor.
    - right. left. exists n. split; [lia|reflexivity].
    - apply Forall_app. split.
      + eapply Forall_impl; [|exact F]. intros [[s q] o]; cbn [fst snd]. intros [[-> _]|[W|W]]; auto.
        * right. left. exists n. split; [lia|reflexivity].
        * right. left. apply (own_le lab n n' (S n) n'); auto.
      + constructor; [|constructor]. left. split; reflexivity. }
  intros V Lo Ag. exists (NBlank (lab n)). split.
  { change (?a :: ts ++ ?b) with ([a] ++ ts ++ b). rewrite !filter_app, (filter_quiet ts Q).
    change (?a :: [?b]) with ([a] ++ [b]). rewrite filter_app. reflexivity. }
  split; [exists n; reflexivity|].
  assert (L1 : local lab V n n' ((NBlank (lab n), RDF_type, NUri T) :: ts ++ [])).
  { eapply (local_skip lab V n n' ((NBlank (lab n), RDF_type, NUri T) :: ts) [] (NUri u)); [intros; discriminate|exact Lo]. }
  rewrite app_nil_r in L1.
  assert (L2 : local lab V (S n) n' ts).
  { apply (local_skip lab V (S n) n' [] ts (NBlank (lab n)) RDF_type (NUri T)).
    - intros k Hk E'. injection E' as E'. apply lab_inj in E'. lia.
    - intros k q Hk. apply L1. lia. }
  specialize (K V L2). unfold says. rewrite Forall_forall in K |- *. intros pc Hpc. rewrite (L1 n (fst pc)) by lia.
  pose proof (objects_skip [] (NBlank (lab n)) RDF_type (NUri T) ts (NBlank (lab n)) (fst pc)) as X.
  cbn [app] in X. rewrite X.
  - apply K. exact Hpc.
  - right. intro E'. apply NT. rewrite E'. apply in_map. exact Hpc.
Qed.

Lemma fresh_special u p T (ws : node -> list writer) (l : pcs) :
  (forall b, Forall2 (fun w pc => WritesL w b (fst pc) (snd pc)) (ws b) l) -> NoDup (map fst l) -> forall n ts n',
  w_fresh lab (fun b => w_seq (w_add b RDF_type (NUri T) :: ws b ++ [w_add (NUri u) p b])) n = Ok (ts, n') ->
  n < n' /\ filter special ts = filter special [(NBlank (lab n), RDF_type, NUri T); (NUri u, p, NBlank (lab n))].
Proof.
  intros HW ND n ts n' E.
  assert (Hb : good lab (S n) (NBlank (lab n))) by (apply blank_good; [exact lab_inj|lia]).
  destruct (writes_seq lab lab_inj (NBlank (lab n)) _ l (HW _) ND (S n) Hb) as (t & m & E1 & H1 & _ & Q & _).
  assert (E2 : w_fresh lab (fun b => w_seq (w_add b RDF_type (NUri T) :: ws b ++ [w_add (NUri u) p b])) n
    = Ok ((NBlank (lab n), RDF_type, NUri T) :: t ++ [(NUri u, p, NBlank (lab n))], m)).
  { unfold w_fresh. change (w_seq (?a :: ?b)) with (w_app a (w_seq b)). unfold w_app, w_add at 1. cbn [bind].
    rewrite w_seq_app, E1. reflexivity. }
  rewrite E in E2. injection E2 as -> ->.
  split; [lia|]. change (?a :: t ++ ?b) with ([a] ++ t ++ b). rewrite !filter_app, (filter_quiet t Q).
  change (?a :: [?b]) with ([a] ++ [b]). rewrite filter_app. reflexivity.
Qed.

(** ** Files *)
Definition file_uri (id : pystr) : pystr := ns ++ $"#" ++ id.
Definition file_says (f : file) : pcs :=
  [(spdx "fileName", is [plain (fi_name f)]);
   (spdx "fileType", is (map (fun t => enum_uri $"fileType_" (file_type_name t)) (fi_types f)));
   (spdx "checksum", items (ChecksumAt lab) (fi_checksums f));
   (spdx "licenseConcluded", opt_item (LicenseAt O lab ns) (fi_concluded f));
   (spdx "licenseInfoInFile", items (LicenseAt O lab ns) (fi_info f));
   (spdx "licenseComments", is (opt_nodes plain (fi_lic_comment f)));
   (spdx "copyrightText", is (opt_nodes (fun x => plain (nn_text (fun x => x) x)) (fi_copyright f)));
   (RDFS_comment, is (opt_nodes plain (fi_comment f)));
   (spdx "noticeText", is (opt_nodes plain (fi_notice f)));
   (spdx "fileContributor", is (map plain (fi_contributors f)));
   (spdx "attributionText", is (map plain (fi_attribution f)))].
Lemma file_type_uri_inj a b : enum_uri $"fileType_" (file_type_name a) = enum_uri $"fileType_" (file_type_name b) -> a = b.
Proof.
  intro H. assert (E : file_type_eqb a b = true).
  { assert (X : forallb (fun a => forallb (fun b => implb (node_eqb (enum_uri $"fileType_" (file_type_name a)) (enum_uri $"fileType_" (file_type_name b)))
      (file_type_eqb a b)) file_type_all) file_type_all = true) by (vm_compute; reflexivity).
    rewrite forallb_forall in X. assert (Ha : In a file_type_all) by (destruct a; cbn; tauto). specialize (X a Ha).
    rewrite forallb_forall in X. assert (Hb : In b file_type_all) by (destruct b; cbn; tauto). specialize (X b Hb).
    rewrite H, node_eqb_refl in X. exact X. }
  unfold file_type_eqb in E. destruct (file_type_eq_dec a b); [assumption|discriminate].
Qed.
Ltac piece :=
  match goal with
  | |- Writes _ (w_add _ _ _) _ _ _ => apply writes_is; [solve [intros []|assumption]|reflexivity]
  | |- Writes _ (add_optional_str _ _ _) _ _ _ => apply (writes_optional lab (fun x => x)); reflexivity
  | |- Writes _ (add_optional_literal _ _ _ _) _ _ _ => apply writes_optional; reflexivity
  | |- Writes _ (w_all (fun x => w_add _ _ (plain x)) _) _ _ _ => apply writes_texts; [exact lab_inj| |reflexivity]
  | |- Writes _ (w_all (fun c => add_checksum_to_graph _ c _) _) _ _ _ => apply writes_checksums; exact lab_inj
  | |- Writes _ (add_opt_license _ _ _ _ _ _) _ _ _ => apply writes_opt_license; [exact lab_inj| |reflexivity]
  | |- Writes _ (add_licenses _ _ _ _ _ _) _ _ _ => apply writes_licenses; [exact lab_inj|exact HN| |reflexivity]
  | |- Writes _ (add_datetime_to_graph _ _ _) _ _ _ => apply writes_date; [|reflexivity]
  end.
Ltac not_deaf := apply str_in_all; vm_compute; reflexivity.
Lemma top_file f ext : RdfFile O f ->
  Top lab (add_file_to_graph O lab f ns ext) (fun s q => s = NUri (file_uri (fi_id f)))
    (fun V sp => sp = [(NUri (file_uri (fi_id f)), RDF_type, NUri (spdx "File"))] /\ says (file_says f) V (NUri (file_uri (fi_id f)))).
Proof.
  intro H. unfold add_file_to_graph. rewrite add_namespace_internal by exact (rf_id _ _ H).
  apply (top_element (spdx "File") (file_uri (fi_id f)) _ (file_says f)).
  - apply in_hash.
  - reflexivity.
  - unfold file_says. repeat (apply Forall2_cons; [cbn [fst snd]|]); [..|constructor]; try piece.
    + apply writes_map; [exact lab_inj|exact (rf_types _ _ H)|exact file_type_uri_inj|intros a []|reflexivity].
    + exact (rf_concluded _ _ H).
    + exact (rf_info _ _ H).
    + exact (rf_contributors _ _ H).
    + exact (rf_attribution _ _ H).
  - closed_nodup.
  - not_deaf.
Qed.

(** ** Packages *)
Definition nn_node (x : nn pystr) : node :=
  match x with NNone => NUri (spdx "none") | NNoAssertion => NUri (spdx "noassertion") | NVal s => plain s end.
Definition na_node (x : na pystr) : node := match x with ANoAssertion => NUri (spdx "noassertion") | AVal s => plain s end.
Definition package_says (p : package) : pcs :=
  [(spdx "name", is [plain (pk_name p)]);
   (spdx "versionInfo", is (opt_nodes plain (pk_version p)));
   (spdx "packageFileName", is (opt_nodes plain (pk_file_name p)));
   (spdx "supplier", is (opt_nodes (fun a => plain (na_text actor_str a)) (pk_supplier p)));
   (spdx "originator", is (opt_nodes (fun a => plain (na_text actor_str a)) (pk_originator p)));
   (spdx "downloadLocation", is [nn_node (pk_download p)]);
   (spdx "filesAnalyzed", is [NLit (if pk_files_analyzed p then $"true" else $"false") (KTyped XSD_boolean)]);
   (spdx "packageVerificationCode", opt_item CodeAt (pk_verif p));
   (spdx "checksum", items (ChecksumAt lab) (pk_checksums p));
   (DOAP_homepage, is (opt_nodes (fun x => plain (nn_text (fun x => x) x)) (pk_homepage p)));
   (spdx "sourceInfo", is (opt_nodes plain (pk_source_info p)));
   (spdx "licenseConcluded", opt_item (LicenseAt O lab ns) (pk_concluded p));
   (spdx "licenseInfoFromFiles", items (LicenseAt O lab ns) (pk_info p));
   (spdx "licenseDeclared", opt_item (LicenseAt O lab ns) (pk_declared p));
   (spdx "licenseComments", is (opt_nodes plain (pk_lic_comment p)));
   (spdx "copyrightText", is (opt_nodes (fun x => plain (nn_text (fun x => x) x)) (pk_copyright p)));
   (spdx "summary", is (opt_nodes plain (pk_summary p)));
   (spdx "description", is (opt_nodes plain (pk_description p)));
   (RDFS_comment, is (opt_nodes plain (pk_comment p)));
   (spdx "externalRef", items PackageRefAt (pk_refs p));
   (spdx "attributionText", is (map plain (pk_attribution p)));
   (spdx "primaryPackagePurpose", is (opt_nodes (fun u => enum_uri $"purpose_" (purpose_name u)) (pk_purpose p)));
   (spdx "releaseDate", is (opt_nodes (fun d => plain (stamp d)) (pk_release p)));
   (spdx "builtDate", is (opt_nodes (fun d => plain (stamp d)) (pk_built p)));
   (spdx "validUntilDate", is (opt_nodes (fun d => plain (stamp d)) (pk_valid_until p)))].
Lemma top_package p ext : RdfPackage O p ->
  Top lab (add_package_to_graph O lab p ns ext) (fun s q => s = NUri (file_uri (pk_id p)))
    (fun V sp => sp = [(NUri (file_uri (pk_id p)), RDF_type, NUri (spdx "Package"))]
                 /\ says (package_says p) V (NUri (file_uri (pk_id p)))).
Proof.
  intro H. unfold add_package_to_graph. rewrite add_namespace_internal by exact (rp_id _ _ H).
  apply (top_element (spdx "Package") (file_uri (pk_id p)) _ (package_says p)).
  - apply in_hash.
  - reflexivity.
  - unfold package_says. repeat (apply Forall2_cons; [cbn [fst snd]|]); [..|constructor]; try piece.
    + destruct (pk_download p); (apply writes_is; [intros []|reflexivity]).
    + apply writes_code. exact (rp_verif _ _ H).
    + exact (rp_concluded _ _ H).
    + exact (rp_info _ _ H).
    + exact (rp_declared _ _ H).
    + apply writes_blanks; [exact lab_inj| |intros V a v [K _]; exact K].
      eapply Forall_impl; [|exact (rp_refs _ _ H)]. intros r Hr. apply writes_package_ref. exact Hr.
    + exact (rp_attribution _ _ H).
    + apply (writes_opt lab (fun u => w_add (NUri (ns ++ $"#" ++ pk_id p)) (spdx "primaryPackagePurpose") (enum_uri $"purpose_" (purpose_name u)))).
      intros u _. apply writes_is; [intros []|reflexivity].
    + exact (rp_release _ _ H).
    + exact (rp_built _ _ H).
    + exact (rp_valid_until _ _ H).
  - closed_nodup.
  - not_deaf.
Qed.

(** ** Ids of other elements *)
Variable refs : list ext_doc_ref.
Hypothesis Hrefs : Forall (RdfDocRef ns) refs.
Hypothesis Hdist : NoDup (map edr_id refs).
(** the URI written for an id *)
Inductive UriOf : pystr -> pystr -> Prop :=
| Uri_internal id : RdfId id -> UriOf id (ns ++ $"#" ++ id)
| Uri_external r b : In r refs -> RdfId b -> UriOf (edr_id r ++ $":" ++ b) (edr_uri r ++ $"#" ++ b).
Definition uri_of (id : pystr) : pystr := add_namespace_to_spdx_id id ns (external_doc_ref_to_namespace refs).
Lemma ext_assoc r : In r refs -> assoc (edr_id r) (external_doc_ref_to_namespace refs) = Some (edr_uri r).
Proof.
  unfold external_doc_ref_to_namespace. clear Hrefs.
  assert (X : forall l m, ~ In (edr_id r) (map edr_id l) ->
    assoc (edr_id r) (fold_left (fun m r => dict_set (edr_id r) (edr_uri r) m) l m) = assoc (edr_id r) m).
  { induction l as [|q l IH]; intros m N; cbn [fold_left map] in *; [reflexivity|]. rewrite IH.
    - apply assoc_dict_set_other. intro E. apply N. left. auto.
    - intro K. apply N. right. exact K. }
  assert (Y : forall l m, NoDup (map edr_id l) -> In r l ->
    assoc (edr_id r) (fold_left (fun m r => dict_set (edr_id r) (edr_uri r) m) l m) = Some (edr_uri r)).
  { induction l as [|q l IH]; intros m ND Hin; [destruct Hin|]. cbn [fold_left map] in *. inversion ND; subst.
    destruct Hin as [->|Hin]; [|apply IH; auto]. rewrite X by assumption. apply assoc_dict_set_same. }
  intro Hr. apply Y; auto.
Qed.
Lemma uri_of_spec id : RdfRef refs id -> UriOf id (uri_of id).
Proof.
  unfold uri_of. intros [H|(r & b & Hr & Hb & ->)].
  - rewrite add_namespace_internal by exact H. constructor. exact H.
  - rewrite (add_namespace_external r b); [constructor; assumption| |exact Hb|apply ext_assoc; exact Hr].
    rewrite Forall_forall in Hrefs. destruct (docref_not _ (rx_id _ _ (Hrefs r Hr))) as (K & _). exact K.
Qed.
Lemma uri_of_hash id : RdfRef refs id -> In #"#" (uri_of id).
Proof. intro H. destruct (uri_of_spec id H); apply in_hash. Qed.

(** ** Snippets *)
Definition snippet_says (x : snippet) (lines : Z * Z) : pcs :=
  [(spdx "snippetFromFile", is [NUri (uri_of (sn_file x))]);
   (spdx "range", items (RangeAt (NUri (uri_of (sn_file x)))) [(true, sn_bytes x); (false, lines)]);
   (spdx "licenseConcluded", opt_item (LicenseAt O lab ns) (sn_concluded x));
   (spdx "licenseInfoInSnippet", items (LicenseAt O lab ns) (sn_info x));
   (spdx "licenseComments", is (opt_nodes plain (sn_lic_comment x)));
   (spdx "copyrightText", is (opt_nodes (fun x => plain (nn_text (fun x => x) x)) (sn_copyright x)));
   (RDFS_comment, is (opt_nodes plain (sn_comment x)));
   (spdx "name", is (opt_nodes plain (sn_name x)));
   (spdx "attributionText", is (map plain (sn_attribution x)))].
Lemma top_snippet x lines : RdfSnippet O refs x -> sn_lines x = Some lines ->
  Top lab (add_snippet_to_graph O lab x ns (external_doc_ref_to_namespace refs)) (fun s q => s = NUri (file_uri (sn_id x)))
    (fun V sp => sp = [(NUri (file_uri (sn_id x)), RDF_type, NUri (spdx "Snippet"))]
                 /\ says (snippet_says x lines) V (NUri (file_uri (sn_id x)))).
Proof.
  intros H El. unfold add_snippet_to_graph. rewrite El. rewrite (add_namespace_internal (sn_id x)) by exact (rs_id _ _ _ H).
  fold (uri_of (sn_file x)). fold (file_uri (sn_id x)).
  set (s := NUri (file_uri (sn_id x))). set (f := NUri (uri_of (sn_file x))).
  match goal with |- Top _ (w_seq (?a :: ?b :: ?r1 :: ?r2 :: ?rest)) _ _ =>
    apply (top_ext (w_seq (a :: b :: w_seq [r1; r2] :: rest)));
    [intro n; apply (w_seq_nested [a; b] [r1; r2] rest n)|] end.
  apply (top_element (spdx "Snippet") (file_uri (sn_id x)) _ (snippet_says x lines)).
  - apply in_hash.
  - reflexivity.
  - unfold snippet_says. repeat (apply Forall2_cons; [cbn [fst snd]|]); [..|constructor]; try piece.
    + apply (writes_blanks lab lab_inj (fun r => add_range_to_graph lab (Some (snd r)) s f (fst r)) s (spdx "range")
        (RangeAt f) [(true, sn_bytes x); (false, lines)]).
      * constructor; [|constructor; [|constructor]]; apply writes_range; intros [].
      * intros V a v [K _]. exact K.
    + exact (rs_concluded _ _ _ H).
    + exact (rs_info _ _ _ H).
    + exact (rs_attribution _ _ _ H).
  - closed_nodup.
  - not_deaf.
Qed.

(** ** Annotations and relationships *)
Definition annotation_says (a : annotation) : pcs :=
  [(spdx "annotationType", is [enum_uri $"annotationType_" (annotation_type_name (an_type a))]);
   (spdx "annotator", is [plain (actor_str (an_annotator a))]);
   (spdx "annotationDate", is [plain (stamp (an_date a))]);
   (RDFS_comment, is [plain (an_comment a)])].
Lemma top_annotation a : RdfAnnotation refs a ->
  Top lab (add_annotation_to_graph lab a ns (external_doc_ref_to_namespace refs))
    (fun s q => s = NUri (uri_of (an_id a)) /\ q = spdx "annotation")
    (fun V sp => exists b, sp = [(NUri (uri_of (an_id a)), spdx "annotation", b)] /\ some_blank b /\ says (annotation_says a) V b).
Proof.
  intro H. unfold add_annotation_to_graph. fold (uri_of (an_id a)).
  apply (top_fresh (uri_of (an_id a)) (spdx "annotation") (spdx "Annotation")
    (fun b => [w_add b (spdx "annotationType") (enum_uri $"annotationType_" (annotation_type_name (an_type a)));
     w_add b (spdx "annotator") (plain (actor_str (an_annotator a)));
     w_get (datetime_to_iso_string (an_date a)) (fun d => w_add b (spdx "annotationDate") (plain d));
     w_add b RDFS_comment (plain (an_comment a))]) (annotation_says a)).
  - apply uri_of_hash. exact (ra_id _ _ H).
  - intro b. unfold annotation_says. repeat (apply Forall2_cons; [cbn [fst snd]|]); [..|constructor]; try piece.
    apply writes_date1; [exact (ra_date _ _ H)|reflexivity].
  - closed_nodup.
Qed.
Definition related_node (x : nn pystr) : node :=
  match x with NNone => NUri (spdx "none") | NNoAssertion => NUri (spdx "noassertion") | NVal id => NUri (uri_of id) end.
Definition relationship_says (r : relationship) : pcs :=
  [(spdx "relationshipType", is [enum_uri $"relationshipType_" (rel_type_name (re_type r))]);
   (spdx "relatedSpdxElement", is [related_node (re_related r)]);
   (RDFS_comment, is (opt_nodes plain (re_comment r)))].
Lemma top_relationship r : RdfRelationship refs r ->
  Top lab (add_relationship_to_graph lab r ns (external_doc_ref_to_namespace refs))
    (fun s q => s = NUri (uri_of (re_id r)) /\ q = spdx "relationship")
    (fun V sp => exists b, sp = [(NUri (uri_of (re_id r)), spdx "relationship", b)] /\ some_blank b /\ says (relationship_says r) V b).
Proof.
  intro H. unfold add_relationship_to_graph. fold (uri_of (re_id r)).
  apply (top_fresh (uri_of (re_id r)) (spdx "relationship") (spdx "Relationship")
    (fun b => [w_add b (spdx "relationshipType") (enum_uri $"relationshipType_" (rel_type_name (re_type r)));
     w_add b (spdx "relatedSpdxElement") (related_node (re_related r));
     (if truthy_opt (re_comment r) then add_optional_str (re_comment r) b RDFS_comment else w_nil)]) (relationship_says r)).
  - apply uri_of_hash. exact (rl_id _ _ H).
  - intro b. unfold relationship_says. repeat (apply Forall2_cons; [cbn [fst snd]|]); [..|constructor]; try piece.
    + destruct (re_related r); (apply writes_is; [intros []|reflexivity]).
    + apply writes_comment_if. exact (rl_comment _ _ H).
  - closed_nodup.
Qed.

(** ** Extracted licensing info *)
Definition extracted_says (e : extracted) (id : pystr) : pcs :=
  [(RDF_type, is [NUri (spdx "ExtractedLicensingInfo")]);
   (spdx "licenseId", is [plain id]);
   (spdx "extractedText", is (opt_nodes plain (el_text e)));
   (spdx "name", is (opt_nodes na_node (el_name e)));
   (RDFS_seeAlso, is (map plain (el_xrefs e)));
   (RDFS_comment, is (opt_nodes plain (el_comment e)))].
Lemma top_extracted e id doc : RdfExtracted e -> el_id e = Some id ->
  Top lab (add_extracted_licensing_info_to_graph lab e (NUri doc) ns)
    (fun s q => s = NUri (file_uri id) \/ (s = NUri doc /\ q = spdx "hasExtractedLicensingInfo"))
    (fun V sp => sp = [(NUri doc, spdx "hasExtractedLicensingInfo", NUri (file_uri id))] /\ says (extracted_says e id) V (NUri (file_uri id))).
Proof.
  intros H Ei. destruct (re_id_some _ H) as (i & Ei' & Hne & _). rewrite Ei in Ei'. injection Ei' as <-.
  unfold add_extracted_licensing_info_to_graph. rewrite Ei. destruct id as [|c id]; [congruence|].
  set (s := NUri (file_uri (c :: id))).
  match goal with |- Top _ (w_seq [?a; w_seq ?b]) _ _ =>
    apply (top_ext (w_seq (a :: b))); [intro n; symmetry; apply (w_seq_nested [a] b [] n)|] end.
  apply (top_linked (file_uri (c :: id)) doc (spdx "hasExtractedLicensingInfo")
    [w_add s RDF_type (NUri (spdx "ExtractedLicensingInfo")); add_optional_str (Some (c :: id)) s (spdx "licenseId");
     add_optional_str (el_text e) s (spdx "extractedText"); add_literal_or_no_assertion (el_name e) s (spdx "name");
     w_all (fun x => w_add s RDFS_seeAlso (plain x)) (el_xrefs e); add_optional_str (el_comment e) s RDFS_comment]
    (extracted_says e (c :: id))).
  - apply in_hash.
  - apply str_in_In. vm_compute. reflexivity.
  - reflexivity.
  - unfold extracted_says. repeat (apply Forall2_cons; [cbn [fst snd]|]); [..|constructor]; try piece.
    + destruct (el_name e) as [[t|]|]; [| |apply writes_nil]; (apply writes_is; [intros []|reflexivity]).
    + exact (re_xrefs _ H).
  - closed_nodup.
  - not_deaf.
Qed.

(** ** External document references *)
Definition doc_ref_says (r : ext_doc_ref) : pcs :=
  [(RDF_type, is [NUri (spdx "ExternalDocumentRef")]);
   (spdx "spdxDocument", is [NUri (edr_uri r)]);
   (spdx "checksum", item (ChecksumAt lab) (edr_checksum r))].
Lemma top_doc_ref r doc :
  Top lab (add_external_document_ref_to_graph lab r (NUri doc) ns)
    (fun s q => s = NUri (file_uri (edr_id r)) \/ (s = NUri doc /\ q = spdx "externalDocumentRef"))
    (fun V sp => sp = [(NUri doc, spdx "externalDocumentRef", NUri (file_uri (edr_id r)))]
                 /\ says (doc_ref_says r) V (NUri (file_uri (edr_id r)))).
Proof.
  set (s := NUri (file_uri (edr_id r))).
  apply (top_linked (file_uri (edr_id r)) doc (spdx "externalDocumentRef")
    [w_add s RDF_type (NUri (spdx "ExternalDocumentRef")); w_add s (spdx "spdxDocument") (NUri (edr_uri r));
     add_checksum_to_graph lab (edr_checksum r) s] (doc_ref_says r)).
  - apply in_hash.
  - apply str_in_In. vm_compute. reflexivity.
  - reflexivity.
  - unfold doc_ref_says. repeat (apply Forall2_cons; [cbn [fst snd]|]); [..|constructor]; try piece.
    apply writes_checksum. exact lab_inj.
  - closed_nodup.
  - not_deaf.
Qed.
End Elements.
