(** Property theorems: parsing of JSON-like dictionaries (C15, C16, C46), control characters (C17), XML lists (C18). *)
From Verif Require Import Py Data Oracles Basics Json JsonConv JsonParse BasicsSpec JsonSpec Loading LoadingSpec Samples.
From Verif Require JsonErrors JsonMore LoadingFacts.

(** ** C15 *)
(** The listed relationships come first and unchanged; then the DESCRIBES relationships for the ids of
    documentDescribes that the listed ones do not state (directly, or inverted as DESCRIBED_BY); then, package by
    package, the CONTAINS relationships for the ids of hasFiles that are not stated yet. *)
Theorem C15_relationships :
  forall (kvs : list (pystr * json)) (rjs : list json) (listed : list relationship) (doc : pystr) (ids : list pystr)
         (pjs : list json) (pkgs : list (pystr * list pystr)),
  ArrayAt $"relationships" kvs rjs -> Forall2 (fun j r => parse_relationship j = Ok r) rjs listed ->
  assoc $"SPDXID" kvs = Some (JStr doc) -> ArrayAt $"documentDescribes" kvs (map JStr ids) ->
  ArrayAt $"packages" kvs pjs -> Forall2 PackageEntry pkgs pjs ->
  let described := missing listed doc RT_DESCRIBES RT_DESCRIBED_BY ids in
  let contained := flat_map (fun p => missing (listed ++ described) (fst p) RT_CONTAINS RT_CONTAINED_BY (snd p)) pkgs in
  parse_all_relationships (JObj kvs) = Ok (listed ++ described ++ contained).
Proof. exact JsonMore.relationships_spec. Qed.
Print Assumptions C15_relationships.
(** If the package ids are distinct then no relationship is added twice, none is added that is listed (with or without
    comment), and afterwards everything is stated. *)
Theorem C15_added_once :
  forall (listed : list relationship) (doc : pystr) (ids : list pystr) (pkgs : list (pystr * list pystr)),
  let described := missing listed doc RT_DESCRIBES RT_DESCRIBED_BY ids in
  let contained := flat_map (fun p => missing (listed ++ described) (fst p) RT_CONTAINS RT_CONTAINED_BY (snd p)) pkgs in
  NoDup (map fst pkgs) ->
  NoDup (described ++ contained)
  /\ (forall r, In r (described ++ contained) ->
      forall r', In r' listed -> ~ (re_id r' = re_id r /\ re_type r' = re_type r /\ re_related r' = re_related r))
  /\ (forall x, In x ids -> states (listed ++ described ++ contained) doc RT_DESCRIBES RT_DESCRIBED_BY x = true)
  /\ (forall p x, In p pkgs -> In x (snd p) ->
      states (listed ++ described ++ contained) (fst p) RT_CONTAINS RT_CONTAINED_BY x = true).
Proof. exact JsonMore.implicit_once. Qed.
Print Assumptions C15_added_once.
Definition package_entry (id : pystr) (files : list pystr) : json :=
  JObj [($"SPDXID", JStr id); ($"hasFiles", JArr (map JStr files))].
(** Two package entries with the same id give the same relationship twice. *)
Theorem C15_repeated_packages_refuted :
  exists kvs r, parse_all_relationships (JObj kvs) = Ok [r; r].
Proof.
  exists [($"SPDXID", JStr $"SPDXRef-DOCUMENT"); ($"packages", JArr [package_entry $"SPDXRef-P" [$"SPDXRef-F"]; package_entry $"SPDXRef-P" [$"SPDXRef-F"]])],
    (rel $"SPDXRef-P" RT_CONTAINS $"SPDXRef-F").
  vm_compute. reflexivity.
Qed.
Print Assumptions C15_repeated_packages_refuted.
Definition relationship_entry (a t b : pystr) : json :=
  JObj [($"spdxElementId", JStr a); ($"relationshipType", JStr t); ($"relatedSpdxElement", JStr b)].
Example C15_sample :
  parse_all_relationships (JObj
    [($"SPDXID", JStr $"D"); ($"documentDescribes", JArr [JStr $"P"; JStr $"Q"; JStr $"P"]);
     ($"relationships", JArr [relationship_entry $"P" $"DESCRIBED_BY" $"D"; relationship_entry $"P" $"CONTAINS" $"F"]);
     ($"packages", JArr [package_entry $"P" [$"F"; $"G"]; package_entry $"Q" []])])
  = Ok [rel $"P" RT_DESCRIBED_BY $"D"; rel $"P" RT_CONTAINS $"F"; rel $"D" RT_DESCRIBES $"Q"; rel $"P" RT_CONTAINS $"G"].
Proof. vm_compute. reflexivity. Qed.

(** ** C16 *)
(** A document is returned only if every part and every entry was parsed without any message; it has exactly one
    element for each entry. *)
Theorem C16_no_partial_document :
  forall (O : oracles) (kvs : list (pystr * json)) (d : document), parse_dict O (JObj kvs) = Ok d ->
  parse_creation_info (JObj kvs) = Ok (do_ci d)
  /\ parse_all_annotations (JObj kvs) = Ok (do_annotations d)
  /\ parse_all_relationships (JObj kvs) = Ok (do_relationships d)
  /\ (exists l, EntriesAt $"packages" kvs l /\ Forall2 (Parses (parse_package O)) l (do_packages d))
  /\ (exists l, EntriesAt $"files" kvs l /\ Forall2 (Parses (silent (parse_file O))) l (do_files d))
  /\ (exists l, EntriesAt $"snippets" kvs l /\ Forall2 (Parses (silent (parse_snippet O))) l (do_snippets d))
  /\ (exists l, EntriesAt $"hasExtractedLicensingInfos" kvs l /\ Forall2 (Parses (silent parse_extracted)) l (do_extracted d)).
Proof. exact JsonErrors.no_partial_document. Qed.
Print Assumptions C16_no_partial_document.
(** The parsing error has the messages of all parts and all entries, in order. *)
Theorem C16_all_reported :
  forall (O : oracles) (kvs : list (pystr * json)) (ms : list pystr), parse_dict O (JObj kvs) = Raise (EParsing ms) ->
  ms <> [] /\ exists ps fs ss es,
      EntriesAt $"packages" kvs ps /\ EntriesAt $"files" kvs fs /\ EntriesAt $"snippets" kvs ss
      /\ EntriesAt $"hasExtractedLicensingInfos" kvs es
      /\ ms = complaints (silent parse_creation_info (JObj kvs))
              ++ flat_map (fun j => complaints (parse_package O j)) ps
              ++ flat_map (fun j => complaints (silent (parse_file O) j)) fs
              ++ complaints (silent parse_all_annotations (JObj kvs))
              ++ flat_map (fun j => complaints (silent (parse_snippet O) j)) ss
              ++ complaints (silent parse_all_relationships (JObj kvs))
              ++ flat_map (fun j => complaints (silent parse_extracted j)) es.
Proof. exact JsonErrors.all_reported. Qed.
Print Assumptions C16_all_reported.
(** Not every malformed input is reported that way: entries that are not objects, and values that cannot be iterated
    over, end parsing with another exception. *)
Theorem C16_only_parsing_errors_refuted :
  exists O j k m n, parse_dict O j = Raise (EAttr m) /\ parse_dict O k = Raise (EType n).
Proof.
  exists sample_oracles, (JObj [($"packages", JArr [JStr $"SPDXRef-A"])]), (JObj [($"packages", JInt 5)]).
  eexists. eexists. split; vm_compute; reflexivity.
Qed.
Print Assumptions C16_only_parsing_errors_refuted.
Definition bad_license (id : pystr) : json := JObj [($"licenseId", JStr id); ($"name", JInt 3)].
Example C16_sample :
  match parse_dict sample_oracles (JObj [($"hasExtractedLicensingInfos", JArr [bad_license $"a"; JObj []; bad_license $"b"])]) with
  | Raise (EParsing ms) => List.length ms = 3
  | _ => False
  end.
Proof. vm_compute. reflexivity. Qed.
Example C16_sample_ok : is_ok (do j <- convert_document sample_oracles (sample_document $"SPDX-2.3"); parse_dict sample_oracles j) = true.
Proof. vm_compute. reflexivity. Qed.

(** ** C46 *)
(** What the converter writes is read back. *)
Theorem C46_ranges_round_trip :
  forall s : snippet, parse_ranges (convert_ranges s) =
  Ok {| rg_byte := Some (JInt (fst (sn_bytes s)), JInt (snd (sn_bytes s)));
        rg_line := match sn_lines s with Some (a, b) => Some (JInt a, JInt b) | None => None end |}.
Proof. exact JsonMore.ranges_round_trip. Qed.
Print Assumptions C46_ranges_round_trip.
(** Exactly the lists of ranges are accepted whose pointers are of one and the same kind in every range; the last byte
    range and the last line range count. *)
Theorem C46_ranges_accepted :
  forall (items : list json) (r : ranges), parse_ranges (JArr items) = Ok r <->
  exists ks, Forall2 IsRange items ks /\ rg_byte r = last_of true ks /\ rg_line r = last_of false ks.
Proof. exact JsonMore.parse_ranges_spec. Qed.
Print Assumptions C46_ranges_accepted.
(** Any other list of objects is reported. *)
Theorem C46_ranges_rejected :
  forall items : list json, Forall ObjectRange items -> ~ (exists ks, Forall2 IsRange items ks) ->
  exists m, parse_ranges (JArr items) = Raise (EParsing [m]).
Proof. exact JsonMore.parse_ranges_rejects. Qed.
Print Assumptions C46_ranges_rejected.
Definition range_entry (a b : list (pystr * json)) : json := JObj [($"startPointer", JObj a); ($"endPointer", JObj b)].
Example C46_sample :
  is_ok (parse_ranges (JArr [range_entry [($"offset", JInt 1)] [($"offset", JInt 9)]; range_entry [($"lineNumber", JInt 1)] [($"lineNumber", JInt 2)]])) = true
  /\ is_ok (parse_ranges (JArr [range_entry [($"offset", JInt 1)] [($"lineNumber", JInt 9)]])) = false
  /\ is_ok (parse_ranges (JArr [range_entry [($"offset", JInt 1)] []])) = false.
Proof. split; [|split]; vm_compute; reflexivity. Qed.

(** ** C17 *)
(** The loaded value is the one the specification describes. *)
Theorem C17_loaded : forall j x : json, json_load j = x <-> Loaded false j x.
Proof. exact LoadingFacts.load_spec. Qed.
Print Assumptions C17_loaded.
(** No string value in an object has a backspace or form feed any more. *)
Theorem C17_no_control_characters : forall j : json, PlainObjects (json_load j).
Proof. exact LoadingFacts.load_clean. Qed.
Print Assumptions C17_no_control_characters.
(** Nothing else changes. *)
Theorem C17_plain_unchanged : forall j : json, PlainObjects j -> json_load j = j.
Proof. exact LoadingFacts.load_id. Qed.
Print Assumptions C17_plain_unchanged.
Theorem C17_idempotent : forall j : json, json_load (json_load j) = json_load j.
Proof. exact LoadingFacts.load_idem. Qed.
Print Assumptions C17_idempotent.
(** Keys and strings outside of objects keep these characters. *)
Theorem C17_everywhere_refuted :
  exists k s, ~ NoControl k /\ ~ NoControl s /\ json_load (JArr [JStr s; JObj [(k, JNull)]]) = JArr [JStr s; JObj [(k, JNull)]].
Proof.
  exists [BACKSPACE], [FORM_FEED]. repeat split; [intros [H _]|intros [_ H]]; apply H; left; reflexivity.
Qed.
Print Assumptions C17_everywhere_refuted.
Example C17_sample :
  json_load (JObj [($"a", JArr [JStr (8%N :: $"x"); JObj [($"b", JStr ($"y" ++ [12%N]))]]); ($"a", JStr ($"z" ++ [12%N]))])
  = JObj [($"a", JStr $"z")].
Proof. vm_compute. reflexivity. Qed.

(** ** C18 *)
Theorem C18_list_fields_are_lists : forall j : json, ListFieldsAreLists (fix_list_like_fields j).
Proof. exact LoadingFacts.fix_lists. Qed.
Print Assumptions C18_list_fields_are_lists.
Theorem C18_repaired : forall j x : json, fix_list_like_fields j = x <-> Repaired j x.
Proof. exact LoadingFacts.fix_iff. Qed.
Print Assumptions C18_repaired.
Theorem C18_lists_unchanged : forall j : json, ListFieldsAreLists j -> fix_list_like_fields j = j.
Proof. exact LoadingFacts.fix_id. Qed.
Print Assumptions C18_lists_unchanged.
Theorem C18_idempotent : forall j : json, fix_list_like_fields (fix_list_like_fields j) = fix_list_like_fields j.
Proof. exact LoadingFacts.fix_idem. Qed.
Print Assumptions C18_idempotent.
Example C18_sample :
  fix_list_like_fields (JObj [($"Document", JObj [($"packages", JObj [($"checksums", JNull); ($"name", JStr $"p")])])])
  = JObj [($"Document", JObj [($"packages", JArr [JObj [($"checksums", JArr []); ($"name", JStr $"p")]])])].
Proof. vm_compute. reflexivity. Qed.
