(** Proofs about the JSON-LD converter. *)
From Verif Require Import Py PyFacts Data Oracles Basics Json JsonFacts DocUtils Payload Bump Jsonld JsonldSpec.
From Verif Require JsonRead.

(** ** The loops *)
Fixpoint items (l : list pyobj) : result (list json) :=
  match l with
  | [] => Ok []
  | x :: l' => if xtruthy x then do j <- convert_to_json_ld x; do js <- items l'; Ok (j :: js) else items l'
  end.
Fixpoint loop (attrs : list (pystr * pyobj)) (acc : list (pystr * json)) : result (list (pystr * json)) :=
  match attrs with
  | [] => Ok acc
  | (a, x) :: r =>
      if xtruthy x then do j <- convert_to_json_ld x; loop r (dict_set (json_ld_key a) j acc) else loop r acc
  end.
Lemma convert_list l : convert_to_json_ld (XList l) = match l with [] => Ok JNull | _ => do js <- items l; Ok (JArr js) end.
Proof. destruct l; reflexivity. Qed.
Lemma convert_obj cls attrs : convert_to_json_ld (XObj cls attrs) = (do kvs <- loop attrs [($"@type", JStr cls)]; Ok (JObj kvs)).
Proof. reflexivity. Qed.

(** an attribute as a field: left out, or converted *)
Definition Field (x : pyobj) (f : option json) : Prop :=
  (xtruthy x = false /\ f = None) \/ (xtruthy x = true /\ exists j, convert_to_json_ld x = Ok j /\ f = Some j).
Inductive Fields : list (pystr * pyobj) -> list (pystr * option json) -> Prop :=
| fields_nil : Fields [] []
| fields_skip a x l fs : xtruthy x = false -> Fields l fs -> Fields ((a, x) :: l) fs
| fields_cons a x k f l fs : json_ld_key a = k -> Field x f -> Fields l fs -> Fields ((a, x) :: l) ((k, f) :: fs).
Definition present (fs : list (pystr * option json)) : list (pystr * json) :=
  flat_map (fun f => match snd f with Some j => [(fst f, j)] | None => [] end) fs.
Lemma present_keys fs k : In k (map fst (present fs)) -> In k (map fst fs).
Proof.
  induction fs as [|[k' [j|]] fs IH]; cbn; [tauto| |]; intro H.
  - destruct H as [H|H]; auto.
  - right. auto.
Qed.
Lemma loop_fields l fs : Fields l fs -> forall acc, NoDup (map fst acc ++ map fst fs) -> loop l acc = Ok (acc ++ present fs).
Proof.
  induction 1 as [|a x l fs T F IH|a x k f l fs K X F IH]; intros acc N.
  - cbn. rewrite app_nil_r. reflexivity.
  - cbn. rewrite T. auto.
  - cbn [loop]. cbn [map fst] in N. destruct X as [[T E]|[T (j & C & E)]]; rewrite T; subst f.
    + cbn [present flat_map snd]. cbn [app]. apply IH. exact (NoDup_remove_1 _ _ _ N).
    + rewrite C. cbn [bind]. rewrite K, dict_set_fresh.
      2:{ intro I. apply NoDup_remove_2 in N. apply N, in_or_app. auto. }
      rewrite IH.
      * cbn [present flat_map snd fst]. rewrite <- app_assoc. reflexivity.
      * rewrite map_app, <- app_assoc. cbn. exact N.
Qed.
Lemma object_fields cls l fs : Fields l fs -> NoDup ($"@type" :: map fst fs) -> convert_to_json_ld (XObj cls l) = Ok (object cls fs).
Proof. intros F N. rewrite convert_obj, (loop_fields _ _ F) by exact N. reflexivity. Qed.

Lemma loop_raises l a x e : In (a, x) l -> xtruthy x = true -> convert_to_json_ld x = Raise e -> forall acc, exists e', loop l acc = Raise e'.
Proof.
  induction l as [|[b y] l IH]; cbn [In loop]; [tauto|]. intros [I|I] T C acc.
  - assert (b = a /\ y = x) as [-> ->] by (split; congruence). rewrite T, C. cbn. eauto.
  - destruct (xtruthy y); [|exact (IH I T C acc)]. destruct (convert_to_json_ld y); cbn; [|eauto]. exact (IH I T C _).
Qed.
Lemma object_raises cls l a x e : In (a, x) l -> xtruthy x = true -> convert_to_json_ld x = Raise e ->
  exists e', convert_to_json_ld (XObj cls l) = Raise e'.
Proof. intros I T C. rewrite convert_obj. destruct (loop_raises _ _ _ _ I T C [($"@type", JStr cls)]) as [e' E]. rewrite E. cbn. eauto. Qed.

(** ** Kinds of fields *)
Lemma field_text s : Field (XStr s) (text s).
Proof. destruct s; [left; auto|]. right. split; [reflexivity|]. eexists. split; reflexivity. Qed.
Lemma field_text_if o : Field (xopt XStr o) (text_if o).
Proof. destruct o; [apply field_text|left; auto]. Qed.
Lemma field_number z : Field (XInt z) (number z).
Proof. destruct z; [left; auto| |]; right; (split; [reflexivity|]; eexists; split; reflexivity). Qed.
Lemma items_texts l : items (map XStr l) = Ok (map JStr (filter (fun s => match s with [] => false | _ => true end) l)).
Proof. induction l as [|[|c s] l IH]; cbn; [reflexivity|exact IH|]. rewrite IH. reflexivity. Qed.
Lemma field_texts l : Field (xtexts l) (texts l).
Proof.
  destruct l as [|s l]; [left; auto|]. right. split; [reflexivity|]. unfold xtexts. rewrite convert_list.
  eexists. split; [|reflexivity]. pose proof (items_texts (s :: l)) as E. cbn [map] in E |- *. rewrite E. reflexivity.
Qed.
Lemma field_array {A} (f : A -> pyobj) (g : A -> json) l :
  (forall a, xtruthy (f a) = true) -> (forall a, In a l -> convert_to_json_ld (f a) = Ok (g a)) -> Field (XList (map f l)) (array (map g l)).
Proof.
  intros T H. destruct l as [|a l]; [left; auto|]. right. split; [reflexivity|]. rewrite convert_list. cbn [map].
  assert (E : items (map f (a :: l)) = Ok (map g (a :: l))).
  { clear - T H. induction (a :: l) as [|x r IH]; [reflexivity|]. cbn [map items]. rewrite T, (H x (or_introl eq_refl)). cbn.
    rewrite IH by (intros; apply H; right; assumption). reflexivity. }
  cbn [map] in E. rewrite E. eexists. split; reflexivity.
Qed.
Definition KnownWord (words : list (pystr * pystr)) (n : pystr) : Prop := In n (map fst words).
Definition right_words (words : list (pystr * pystr)) : bool := forallb (fun p => str_eqb (snake_to_camel (fst p)) (snd p)) words.
Lemma field_word words n : right_words words = true -> KnownWord words n -> Field (XEnum n) (word words n).
Proof.
  intros R K. right. split; [reflexivity|]. exists (JStr (snake_to_camel n)). split; [reflexivity|].
  unfold word. induction words as [|[m w] words IH]; [destruct K|]. cbn in R. apply andb_prop in R as [R1 R2]. cbn.
  destruct (str_eqb n m) eqn:E.
  - apply str_eqb_eq in E. subst m. apply str_eqb_eq in R1. rewrite R1. reflexivity.
  - apply IH; [exact R2|]. destruct K as [K|K]; [|exact K]. cbn in K. subst m. rewrite str_eqb_refl in E. discriminate.
Qed.
Definition KnownWordIf words (o : option pystr) : Prop := match o with Some n => KnownWord words n | None => True end.
Lemma field_word_if words o : right_words words = true -> KnownWordIf words o -> Field (xopt XEnum o) (word_if words o).
Proof. destruct o; cbn; [apply field_word|left; auto]. Qed.
Lemma field_time o t : Time o t -> Field (xopt XDate o) t.
Proof. destruct 1 as [|d s E]; [left; auto|]. right. split; [reflexivity|]. cbn. rewrite E. eexists. split; reflexivity. Qed.
Lemma field_none : Field XNone None.
Proof. left. auto. Qed.
Lemma field_some x j : xtruthy x = true -> convert_to_json_ld x = Ok j -> Field x (Some j).
Proof. intros T C. right. eauto. Qed.

Lemma words_right : forallb right_words [hash_words; purpose_words; annotation_words; identifier_words; reference_words; relationship_words;
  completeness_words; scope_words; linkage_words; condition_words] = true.
Proof. vm_compute. reflexivity. Qed.
Lemma right_word words : In words [hash_words; purpose_words; annotation_words; identifier_words; reference_words; relationship_words;
  completeness_words; scope_words; linkage_words; condition_words] -> right_words words = true.
Proof. intro I. pose proof words_right as W. rewrite forallb_forall in W. auto. Qed.
Ltac right_word := apply right_word; cbn [In]; tauto.


(** The fields of an object one by one: a field whose key is not the next one in the table is never set. *)
Ltac field :=
  first [ apply field_text | apply field_text_if | apply field_texts | apply field_number
        | apply field_word; [right_word|assumption] | apply field_word_if; [right_word|assumption]
        | apply field_time; assumption | assumption ].
Ltac fields :=
  repeat first [ apply fields_nil
               | apply fields_cons; [vm_compute; reflexivity|field|]
               | apply fields_skip; [reflexivity|] ].
Ltac distinct := apply nodupb_spec; vm_compute; reflexivity.

(** ** Objects inside the elements *)
Lemma hash_converted h : KnownWord hash_words (h3_alg h) -> convert_to_json_ld (hash_object h) = Ok (hash_entry h).
Proof. intro K. apply object_fields; [fields|distinct]. Qed.
Lemma extref_converted r : KnownWord reference_words (xr_type r) -> convert_to_json_ld (extref_object r) = Ok (reference_entry r).
Proof. intro K. apply object_fields; [fields|distinct]. Qed.
Lemma extid_converted i : KnownWord identifier_words (xi_type i) -> convert_to_json_ld (extid_object i) = Ok (identifier_entry i).
Proof. intro K. apply object_fields; [fields|distinct]. Qed.
Lemma nsmap_converted m : convert_to_json_ld (nsmap_object m) = Ok (namespace_entry m).
Proof. apply object_fields; [fields|distinct]. Qed.
Lemma field_hashes l : Forall (fun h => KnownWord hash_words (h3_alg h)) l -> Field (XList (map hash_object l)) (array (map hash_entry l)).
Proof. intro F. apply field_array; [reflexivity|]. intros a I. apply hash_converted. rewrite Forall_forall in F. auto. Qed.
Lemma extmap_converted m : Forall (fun h => KnownWord hash_words (h3_alg h)) (em_verified m) -> convert_to_json_ld (extmap_object m) = Ok (import_entry m).
Proof. intro K. apply field_hashes in K. apply object_fields; [fields|distinct]. Qed.
Lemma field_range r : Field (xopt range_object r) (range_entry r).
Proof.
  destruct r as [[b e]|]; [|left; auto]. apply field_some; [reflexivity|]. apply object_fields; [fields|distinct].
Qed.
Lemma field_profile : Field (XList [XEnum $"CORE"; XEnum $"SOFTWARE"; XEnum $"LICENSING"]) (texts [$"core"; $"software"; $"licensing"]).
Proof. right. split; [reflexivity|]. eexists. split; vm_compute; reflexivity. Qed.
Lemma field_version : Field (XVersion $"3.0.0") (text $"3.0.0").
Proof. right. split; [reflexivity|]. eexists. split; reflexivity. Qed.
Lemma cinfo_converted c t : Time (Some (c3_created c)) t -> convert_to_json_ld (cinfo_object c) = Ok (object $"CreationInfo"
      [($"specVersion", text $"3.0.0"); ($"created", t); ($"createdBy", texts (c3_created_by c));
       ($"profile", texts [$"core"; $"software"; $"licensing"]); ($"dataLicense", text (c3_data_license c));
       ($"createdUsing", texts (c3_created_using c))]).
Proof.
  intro T. apply field_time in T. cbn [xopt] in T. pose proof field_profile as P. pose proof field_version as V.
  apply object_fields; [fields|distinct].
Qed.
Definition cinfo_if (st : bstate) (o : option nat) : pyobj := match o with Some c => cinfo_at st c | None => XNone end.
Lemma field_creation st o ci : Creation st o ci -> Field (cinfo_if st o) ci.
Proof.
  destruct 1 as [|a c t N T]; [left; auto|]. cbn. unfold cinfo_at. rewrite N. apply field_some; [reflexivity|]. exact (cinfo_converted _ _ T).
Qed.

(** ** Elements *)
Definition KnownHashes (l : list hash3) : Prop := Forall (fun h => KnownWord hash_words (h3_alg h)) l.
(** the names of the members of enumerations are known; creation infos exist *)
Definition Known (n : nat) (e : element3) : Prop :=
  match e with
  | E3Actor a => Forall (fun i => KnownWord identifier_words (xi_type i)) (a3_extids a) /\ (forall c, a3_ci a = Some c -> c < n)
  | E3Package p => KnownHashes (p3_verified p) /\ Forall (fun r => KnownWord reference_words (xr_type r)) (p3_extrefs p)
                   /\ Forall (fun i => KnownWord identifier_words (xi_type i)) (p3_extids p) /\ KnownWordIf purpose_words (p3_purpose p)
  | E3File f => KnownHashes (f3_verified f)
  | E3Snippet s => True
  | E3Relationship r => KnownWord relationship_words (r3_type r) /\ KnownWordIf completeness_words (r3_completeness r)
                        /\ KnownWordIf scope_words (r3_scope r) /\ KnownWordIf linkage_words (r3_linkage r)
                        /\ KnownWordIf condition_words (r3_conditionality r)
  | E3Annotation a => KnownWord annotation_words (n3_type a) /\ n3_ci a < n
  | E3Document d => Forall (fun m => KnownHashes (em_verified m)) (d3_imports d) /\ d3_ci d < n
  end.

Lemma field_extids l : Forall (fun i => KnownWord identifier_words (xi_type i)) l -> Field (XList (map extid_object l)) (array (map identifier_entry l)).
Proof. intro F. apply field_array; [reflexivity|]. intros a I. apply extid_converted. rewrite Forall_forall in F. auto. Qed.
Lemma field_extrefs l : Forall (fun i => KnownWord reference_words (xr_type i)) l -> Field (XList (map extref_object l)) (array (map reference_entry l)).
Proof. intro F. apply field_array; [reflexivity|]. intros a I. apply extref_converted. rewrite Forall_forall in F. auto. Qed.
Lemma field_nsmaps l : Field (XList (map nsmap_object l)) (array (map namespace_entry l)).
Proof. apply field_array; [reflexivity|]. intros a I. apply nsmap_converted. Qed.
Lemma field_extmaps l : Forall (fun m => KnownHashes (em_verified m)) l -> Field (XList (map extmap_object l)) (array (map import_entry l)).
Proof. intro F. apply field_array; [reflexivity|]. intros a I. apply extmap_converted. rewrite Forall_forall in F. apply F. exact I. Qed.

Lemma entry_converted st e j : Known (List.length (b_cis st)) e -> Entry st e j -> convert_to_json_ld (element_object st e) = Ok j.
Proof.
  intros K E. destruct E as [a ci C|p b r v B R V|f|s|r D|r D|a ci C|d ci C]; cbn [Known] in K.
  - destruct K as [K _]. apply field_extids in K. apply field_creation in C. unfold cinfo_if in C.
    cbn [element_object]. unfold actor_class. apply object_fields; [unfold element_attrs; fields|distinct].
  - destruct K as (K1 & K2 & K3 & K4). apply field_hashes in K1. apply field_extrefs in K2. apply field_extids in K3.
    cbn [element_object]. apply object_fields; [unfold element_attrs, artifact_attrs, software_attrs; cbn [app]; fields|distinct].
  - apply field_hashes in K.
    cbn [element_object]. apply object_fields; [unfold element_attrs, artifact_attrs, software_attrs; cbn [app]; fields|distinct].
  - pose proof (field_range (s3_bytes s)) as B. pose proof (field_range (s3_lines s)) as L.
    cbn [element_object]. apply object_fields; [unfold element_attrs, artifact_attrs, software_attrs; cbn [app]; fields|distinct].
  - destruct K as (K1 & K2 & K3 & K4 & K5).
    cbn [element_object]. rewrite D. apply object_fields; [unfold element_attrs, relationship_attrs; cbn [app]; fields|distinct].
  - destruct K as (K1 & K2 & K3 & K4 & K5).
    cbn [element_object]. rewrite D. apply object_fields; [unfold element_attrs, relationship_attrs; cbn [app]; fields|distinct].
  - destruct K as [K _]. apply field_creation in C. cbn [cinfo_if] in C.
    cbn [element_object]. apply object_fields; [unfold element_attrs; cbn [app]; fields|distinct].
  - destruct K as [K _]. apply field_creation in C. cbn [cinfo_if] in C. apply field_extmaps in K. pose proof (field_nsmaps (d3_namespaces d)) as N.
    cbn [element_object]. apply object_fields; [unfold element_attrs; cbn [app]; fields|distinct].
Qed.
