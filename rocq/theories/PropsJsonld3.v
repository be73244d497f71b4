(** Property theorems: objects of the SPDX 3 model as JSON-LD (C67). *)
From Verif Require Import Py Data Oracles Basics Json DocUtils Payload Bump Typing Typing3 Typing3Spec Jsonld JsonldSpec Jsonld3 Jsonld3Spec.
From Verif Require Samples Jsonld3Facts Jsonld3Bump PropsTyping3.

(** ** C67 *)
(** Constructors make sound instances of sound arguments of the right types, ... *)
Theorem C67_constructed :
  forall (rs : nat -> choice) (d : decl) (ps : list param3) (kwargs : list (pystr * pyval)) (v : pyval),
  In d classes3 -> d_init d = Some ps -> WellCalled3 ps kwargs ->
  (forall f h w, Field classes3 d f h -> Given ps kwargs f w -> Typed3 classes3 h w) -> (forall f w, In (f, w) kwargs -> Sound w) ->
  new3 classes3 rs (d_name d) kwargs = Ok v -> Sound v.
Proof. exact Jsonld3Facts.constructed_sound. Qed.
Print Assumptions C67_constructed.
(** ... and so does the conversion from SPDX 2: its payload has as many elements as there are values, and they are written in the same way. *)
Theorem C67_converted :
  forall (d : document) (st : bstate) (doc : nat), bump_spdx_document d = Ok (st, doc) ->
  exists vs, Forall (fun v => Sound v /\ exists c i, v = VObj c i) vs /\ List.length vs = List.length (payload_elements st)
             /\ convert_payload_to_json_ld st = convert_elements vs.
Proof. exact Jsonld3Bump.bumped_payload. Qed.
Print Assumptions C67_converted.
Theorem C67_converted_elements :
  forall (d : document) (st : bstate) (doc : nat), bump_spdx_document d = Ok (st, doc) ->
  exists vs, Forall2 (fun e v => element_object st e = object_of v /\ Sound v /\ exists c i, v = VObj c i) (payload_elements st) vs.
Proof. exact Jsonld3Bump.bumped_sound. Qed.
Print Assumptions C67_converted_elements.
(** An instance of any class is written as what there is to show of it: its class, then each field that has a value, at every depth. *)
Theorem C67_written :
  forall (c : pystr) (i : instance) (j : json), Sound (VObj c i) ->
  (convert_to_json_ld (object_of (VObj c i)) = Ok j <-> Shown (VObj c i) (Some j)).
Proof. exact Jsonld3Facts.element_shown. Qed.
Print Assumptions C67_written.
(** It can be written unless there is a dictionary with entries in it, or a point in time that cannot be written. *)
Theorem C67_can_be_written :
  forall (c : pystr) (i : instance), Sound (VObj c i) ->
  ((exists j, convert_to_json_ld (object_of (VObj c i)) = Ok j) <-> forall x, Inside x (VObj c i) -> ~ Unwritable x).
Proof. exact Jsonld3Facts.element_written. Qed.
Print Assumptions C67_can_be_written.
Theorem C67_cause :
  forall (v : pyval) (e : exn), Sound v -> convert_to_json_ld (object_of v) = Raise e ->
  exists x, Inside x v /\ ((exists kv l, x = VDict (kv :: l) /\ exists m, e = EType m) \/ exists d, x = VDatetime d /\ datetime_to_iso_string d = Raise e).
Proof. exact Jsonld3Facts.raise_cause. Qed.
Print Assumptions C67_cause.
(** A reader finds the class and every field under its key; there are no other keys, and none twice. *)
Theorem C67_fields :
  forall (d : decl) (i : instance) (j : json), Sound (VObj (d_name d) i) -> In d classes3 -> convert_to_json_ld (object_of (VObj (d_name d) i)) = Ok j ->
  exists kvs, j = JObj kvs /\ NoDup (map fst kvs) /\ assoc $"@type" kvs = Some (JStr (d_name d))
    /\ (forall f k v, In (f, v) i -> In (f, k) field_keys -> Shown v (assoc k kvs))
    /\ (forall k, In k (map fst kvs) -> k = $"@type" \/ exists f, In f (map fst i) /\ In (f, k) field_keys).
Proof. exact Jsonld3Facts.shown_lookup. Qed.
Print Assumptions C67_fields.
(** Different fields have different keys, and different members of an enumeration have different words. *)
Theorem C67_keys : forall (f g k : pystr), In (f, k) field_keys -> In (g, k) field_keys -> f = g.
Proof. exact Jsonld3Facts.key_field. Qed.
Print Assumptions C67_keys.
Theorem C67_every_field_has_a_key :
  forall (d : decl) (names : list pystr) (f : pystr), In d classes3 -> FieldNames d names -> In f names -> exists k, In (f, k) field_keys.
Proof. exact Jsonld3Facts.names_keys. Qed.
Print Assumptions C67_every_field_has_a_key.
Theorem C67_words :
  forall (c : pystr) (words : list (pystr * pystr)) (n m w : pystr), In (c, words) enumeration_words -> In (n, w) words -> In (m, w) words -> n = m.
Proof. exact Jsonld3Facts.member_word. Qed.
Print Assumptions C67_words.
(** A payload is written element by element. *)
Theorem C67_payload :
  forall (es : list pyval) (js : list json), Forall (fun v => Sound v /\ exists c i, v = VObj c i) es ->
  (convert_elements es = Ok js <-> Forall2 (fun v j => Shown v (Some j)) es js).
Proof. exact Jsonld3Facts.elements_shown. Qed.
Print Assumptions C67_payload.

(** ** Cases *)
Import Jsonld3Facts.
(** an instance with these fields; the others have the values for absent arguments *)
Definition made (d : decl) (given : list (pystr * pyval)) : pyval :=
  match new3 classes3 PropsTyping3.first_items (d_name d) given with Ok v => v | Raise _ => VNone end.
Definition C67_dataset : list (pystr * pyval) :=
  [($"spdx_id", VStr $"https://e.org/d"); ($"name", VStr $"d"); ($"originated_by", VList [VStr $"https://e.org/a"; VStr $""]); ($"download_location", VStr $"https://e.org/dl");
   ($"primary_purpose", member $"SoftwarePurpose" $"DATA"); ($"built_time", VDatetime Samples.sample_date); ($"release_time", VDatetime Samples.sample_date);
   ($"dataset_type", VList [member $"DatasetType" $"TEXT"; member $"DatasetType" $"NO_ASSERTION"]); ($"dataset_size", VInt 0);
   ($"sensitive_personal_information", VBool true); ($"dataset_availability", member $"DatasetAvailabilityType" $"DIRECT_DOWNLOAD");
   ($"verified_using", VList [VObj $"Hash" [($"comment", VNone); ($"algorithm", member $"HashAlgorithm" $"SHA3_256"); ($"hash_value", VStr $"ab")]])].
Definition show_entries (r : result json) : list (pystr * json) := match r with Ok (JObj l) => l | _ => [] end.
Example C67_sample : Sound (made D_Dataset C67_dataset)
  /\ show_entries (convert_to_json_ld (object_of (made D_Dataset C67_dataset)))
     = [($"@type", JStr $"Dataset"); ($"@id", JStr $"https://e.org/d"); ($"name", JStr $"d");
        ($"verifiedUsing", JArr [JObj [($"@type", JStr $"Hash"); ($"algorithm", JStr $"sha3256"); ($"hashValue", JStr $"ab")]]);
        ($"originatedBy", JArr [JStr $"https://e.org/a"]); ($"builtTime", JStr $"2023-02-28T23:59:07Z"); ($"releaseTime", JStr $"2023-02-28T23:59:07Z");
        ($"primaryPurpose", JStr $"data"); ($"downloadLocation", JStr $"https://e.org/dl"); ($"datasetType", JArr [JStr $"text"; JStr $"noAssertion"]);
        ($"sensitivePersonalInformation", JBool true); ($"datasetAvailability", JStr $"directDownload")].
Proof. split; [apply soundb_ok|]; vm_compute; reflexivity. Qed.
(** The hypothesis of C67_converted is met by C57_sample (PropsSpdx3.v). *)
(** An instance with a dictionary that is not empty is never written, although the constructor accepts it. *)
Theorem C67_dictionaries_refuted :
  (forall c i f kv l, Sound (VObj c i) -> In (f, VDict (kv :: l)) i -> exists e, convert_to_json_ld (object_of (VObj c i)) = Raise e)
  /\ exists kwargs i f kv l, new3 classes3 PropsTyping3.first_items $"Build" kwargs = Ok (VObj $"Build" i) /\ Sound (VObj $"Build" i) /\ In (f, VDict (kv :: l)) i.
Proof.
  split; [exact dictionary_fails|].
  set (kw := [($"spdx_id", VStr $"https://e.org/b"); ($"build_type", VStr $"t"); ($"parameters", VDict [(VStr $"k", VStr $"v")])]).
  assert (T : match new3 classes3 PropsTyping3.first_items $"Build" kw with
              | Ok (VObj c i) => str_eqb c $"Build" && soundb (VObj $"Build" i)
                                 && match assoc $"parameters" i with Some (VDict (_ :: _)) => true | _ => false end
              | _ => false
              end = true) by (vm_compute; reflexivity).
  destruct (new3 classes3 PropsTyping3.first_items $"Build" kw) as [v|] eqn:E; [|discriminate]. destruct v as [| | | | | | | | | |c i]; try discriminate.
  apply andb_prop in T as [T T3]. apply andb_prop in T as [T1 T2]. apply PyFacts.str_eqb_eq in T1. subst c.
  destruct (assoc $"parameters" i) as [v|] eqn:A; [|discriminate]. destruct v as [| | | | | | | | |l|]; try discriminate. destruct l as [|kv l]; [discriminate|].
  exists kw, i, $"parameters", kv, l. split; [exact E|]. split; [apply soundb_ok; exact T2|]. apply PyFacts.assoc_In. exact A.
Qed.
Print Assumptions C67_dictionaries_refuted.
(** What is known to be false, or to be 0, is written as what is not known. *)
Definition C67_license (osi : pyval) : pyval :=
  made D_CustomLicense [($"license_id", VStr $"LicenseRef-1"); ($"license_name", VStr $"n"); ($"license_text", VStr $"t"); ($"is_osi_approved", osi)].
Theorem C67_false_refuted :
  exists v w : pyval, Sound v /\ Sound w /\ v <> w /\ is_ok (convert_to_json_ld (object_of v)) = true
    /\ convert_to_json_ld (object_of v) = convert_to_json_ld (object_of w).
Proof.
  exists (C67_license (VBool false)), (C67_license VNone). split; [apply soundb_ok; vm_compute; reflexivity|]. split; [apply soundb_ok; vm_compute; reflexivity|].
  split; [|split; vm_compute; reflexivity]. intro E.
  assert (B : forall a b, a = b -> match a, b with VObj _ i, VObj _ k => match assoc $"is_osi_approved" i, assoc $"is_osi_approved" k with
                                                                        | Some (VBool _), Some VNone => false | _, _ => true end | _, _ => true end = true).
  { intros a b <-. destruct a; try reflexivity. destruct (assoc $"is_osi_approved" fields) as [[]|]; reflexivity. }
  specialize (B _ _ E). vm_compute in B. discriminate B.
Qed.
Print Assumptions C67_false_refuted.
