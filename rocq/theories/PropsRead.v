(** Property theorems: reading of JSON entries (C51), and complements to C10, C14 and C18. *)
From Verif Require Import Py Data Oracles Basics BasicsSpec Json JsonConv JsonParse JsonSpec JsonReadSpec Loading Samples.
From Verif Require StampMore JsonRead JsonRead2 JsonRead3 JsonRead4 ReadFacts TvMore.

(** ** C10 *)
(** What is read from a text is always a moment of the calendar, ... *)
Theorem C10_only_valid :
  forall (s : pystr) (d : datetime), datetime_from_str s = Ok d -> ValidDatetime d /\ dt_us d = 0%Z /\ dt_off d = None.
Proof. exact StampMore.read_datetime_valid. Qed.
Print Assumptions C10_only_valid.
(** ... so it can be written, and what is written is read as the same moment again. *)
Theorem C10_read_again :
  forall (s : pystr) (d : datetime), datetime_from_str s = Ok d ->
  exists t, datetime_to_iso_string d = Ok t /\ datetime_from_str t = Ok d.
Proof. exact ReadFacts.read_again. Qed.
Print Assumptions C10_read_again.
Example C10_read_sample : is_ok (datetime_from_str $"2024-02-29T07:05:09Z") = true /\ is_ok (datetime_from_str $"2023-02-29T07:05:09Z") = false.
Proof. split; vm_compute; reflexivity. Qed.

(** ** C14 *)
(** Checksum algorithms are spelled as in the JSON schema. *)
Theorem C14_checksum :
  forall (c : checksum) (j : json), convert_checksum c = Ok j ->
  j = JObj [($"algorithm", JStr (algorithm_json_name (ck_alg c))); ($"checksumValue", JStr (ck_value c))].
Proof. exact ReadFacts.algorithm_json. Qed.
Print Assumptions C14_checksum.
Example C14_checksum_sample : is_ok (convert_checksum {| ck_alg := CA_BLAKE2B_256; ck_value := $"ab" |}) = true.
Proof. vm_compute. reflexivity. Qed.

(** ** C18 *)
(** An XML file whose top level tag is not Document is rejected with a parsing error. *)
Theorem C18_other_top_level :
  forall (O : oracles) (kvs : list (pystr * json)), assoc $"Document" kvs = None ->
  parse_xml O (JObj kvs) = Raise (EParsing [$"Did not find the XML top level tag ""Document""."]).
Proof. exact ReadFacts.xml_missing. Qed.
Print Assumptions C18_other_top_level.
Example C18_other_sample : assoc $"Document" [($"SpdxDocument", JObj [])] = None.
Proof. reflexivity. Qed.

(** ** C51 *)
(** An entry is read, without any message, as an element if and only if the element is what the entry says key by key. *)
Theorem C51_package :
  forall O : oracles, (forall s e, o_lic_parse O s = Raise e -> exists m, e = EExpr m) ->
  forall (kvs : list (pystr * json)) (p : package), parse_package O (JObj kvs) = ([], Ok p) <-> SaysPackage O kvs p.
Proof. exact JsonRead.package_iff. Qed.
Print Assumptions C51_package.
Theorem C51_file :
  forall O : oracles, (forall s e, o_lic_parse O s = Raise e -> exists m, e = EExpr m) ->
  forall (kvs : list (pystr * json)) (f : file), parse_file O (JObj kvs) = Ok f <-> SaysFile O kvs f.
Proof. exact JsonRead2.file_iff. Qed.
Print Assumptions C51_file.
Theorem C51_snippet :
  forall O : oracles, (forall s e, o_lic_parse O s = Raise e -> exists m, e = EExpr m) ->
  forall (kvs : list (pystr * json)) (s : snippet), parse_snippet O (JObj kvs) = Ok s <-> SaysSnippet O kvs s.
Proof. exact JsonRead2.snippet_iff. Qed.
Print Assumptions C51_snippet.
Theorem C51_extracted_license :
  forall (kvs : list (pystr * json)) (e : extracted), parse_extracted (JObj kvs) = Ok e <-> SaysExtracted kvs e.
Proof. exact JsonRead2.extracted_iff. Qed.
Print Assumptions C51_extracted_license.
Theorem C51_relationship :
  forall (kvs : list (pystr * json)) (r : relationship), parse_relationship (JObj kvs) = Ok r <-> SaysRelationship kvs r.
Proof. exact JsonRead2.relationship_iff. Qed.
Print Assumptions C51_relationship.
Theorem C51_annotation :
  forall (parent : json) (kvs : list (pystr * json)) (a : annotation),
  parse_annotation parent (JObj kvs) = Ok a <-> SaysAnnotation parent kvs a.
Proof. exact JsonRead2.annotation_iff. Qed.
Print Assumptions C51_annotation.
Theorem C51_creation_info :
  forall (kvs : list (pystr * json)) (c : creation_info), parse_creation_info (JObj kvs) = Ok c <-> SaysCreation kvs c.
Proof. exact JsonRead2.creation_iff. Qed.
Print Assumptions C51_creation_info.
(** All annotations, with those of the elements and the reviews of old documents. *)
Theorem C51_annotations :
  forall (kvs : list (pystr * json)) (l : list annotation), parse_all_annotations (JObj kvs) = Ok l <-> SaysAnnotations kvs l.
Proof. exact JsonRead3.annotations_iff. Qed.
Print Assumptions C51_annotations.
(** A whole document. *)
Theorem C51_document :
  forall O : oracles, (forall s e, o_lic_parse O s = Raise e -> exists m, e = EExpr m) ->
  forall (kvs : list (pystr * json)) (d : document),
  parse_dict O (JObj kvs) = Ok d <->
  SaysCreation kvs (do_ci d)
  /\ SaysEntries $"packages" (SaysPackage O) kvs (do_packages d)
  /\ SaysEntries $"files" (SaysFile O) kvs (do_files d)
  /\ SaysEntries $"snippets" (SaysSnippet O) kvs (do_snippets d)
  /\ SaysEntries $"hasExtractedLicensingInfos" SaysExtracted kvs (do_extracted d)
  /\ SaysAnnotations kvs (do_annotations d)
  /\ SaysRelationships kvs (do_relationships d).
Proof. exact JsonRead4.document_says. Qed.
Print Assumptions C51_document.
(** A document whose relationships are given in all three ways: listed, under documentDescribes and under hasFiles. *)
Definition C51_text : list (pystr * json) :=
  [($"SPDXID", JStr $"SPDXRef-DOCUMENT"); ($"spdxVersion", JStr $"SPDX-2.3"); ($"name", JStr $"d"); ($"documentNamespace", JStr $"https://e.org/d");
   ($"dataLicense", JStr $"CC0-1.0");
   ($"creationInfo", JObj [($"created", JStr $"2020-01-02T03:04:05Z"); ($"creators", JArr [JStr $"Tool: t"])]);
   ($"documentDescribes", JArr [JStr $"SPDXRef-B"; JStr $"SPDXRef-A"; JStr $"SPDXRef-B"]);
   ($"packages", JArr [JObj [($"SPDXID", JStr $"SPDXRef-A"); ($"name", JStr $"a"); ($"downloadLocation", JStr $"NONE");
                             ($"hasFiles", JArr [JStr $"SPDXRef-F"; JStr $"SPDXRef-G"])]]);
   ($"relationships", JArr [JObj [($"spdxElementId", JStr $"SPDXRef-A"); ($"relationshipType", JStr $"DESCRIBED_BY"); ($"relatedSpdxElement", JStr $"SPDXRef-DOCUMENT")];
                            JObj [($"spdxElementId", JStr $"SPDXRef-A"); ($"relationshipType", JStr $"CONTAINS"); ($"relatedSpdxElement", JStr $"SPDXRef-G"); ($"comment", JStr $"c")]])].
Example C51_sample_relationships :
  exists listed, List.length listed = 2%nat /\ match parse_dict sample_oracles (JObj C51_text) with
  | Ok d => do_relationships d = listed ++ [simple $"SPDXRef-DOCUMENT" RT_DESCRIBES $"SPDXRef-B"; simple $"SPDXRef-A" RT_CONTAINS $"SPDXRef-F"]
  | Raise _ => False
  end.
Proof. eexists [_; _]. split; [reflexivity|]. vm_compute. reflexivity. Qed.
(** A package entry with a lower case algorithm, a text for filesAnalyzed and an unknown key is read; *)
Definition C51_entry (algorithm : pystr) : list (pystr * json) :=
  [($"SPDXID", JStr $"SPDXRef-A"); ($"name", JStr $"a"); ($"downloadLocation", JStr $"NONE"); ($"filesAnalyzed", JStr $"False");
   ($"checksums", JArr [JObj [($"algorithm", JStr algorithm); ($"checksumValue", JStr $"ab")]]);
   ($"licenseConcluded", JStr $"noassertion"); ($"supplier", JStr $""); ($"unknown", JNull)].
Example C51_sample_reads :
  (forall s e, o_lic_parse sample_oracles s = Raise e -> exists m, e = EExpr m) /\
  match parse_package sample_oracles (JObj (C51_entry $"sha3-256")) with
  | ([], Ok p) => pk_files_analyzed p = false /\ pk_download p = NNone /\ pk_concluded p = Some NNoAssertion /\ pk_supplier p = None
      /\ pk_checksums p = [{| ck_alg := CA_SHA3_256; ck_value := $"ab" |}]
  | _ => False
  end.
Proof. split; [exact TvMore.sample_raises|]. vm_compute. repeat split. Qed.
(** with an algorithm that does not exist it is not. *)
Example C51_sample_rejects : ~ exists p, SaysPackage sample_oracles (C51_entry $"sha3") p.
Proof.
  intros (p & H). apply C51_package in H; [|exact TvMore.sample_raises].
  assert (K : fst (parse_package sample_oracles (JObj (C51_entry $"sha3"))) <> [] \/ is_ok (snd (parse_package sample_oracles (JObj (C51_entry $"sha3")))) = false).
  { right. vm_compute. reflexivity. }
  rewrite H in K. destruct K as [K|K]; [apply K; reflexivity|discriminate K].
Qed.
Example C51_sample_document :
  exists kvs, match parse_dict sample_oracles (JObj kvs) with Ok d => List.length (do_annotations d) = 2 /\ List.length (do_packages d) = 1 | _ => False end.
Proof.
  exists [($"spdxVersion", JStr $"SPDX-2.3"); ($"SPDXID", JStr $"SPDXRef-DOCUMENT"); ($"name", JStr $"doc"); ($"documentNamespace", JStr $"https://x"); ($"dataLicense", JStr $"CC0-1.0");
    ($"creationInfo", JObj [($"creators", JArr [JStr $"Tool: t"]); ($"created", JStr $"2024-02-29T07:05:09Z")]);
    ($"packages", JArr [JObj (($"annotations", JArr [JObj [($"annotationType", JStr $"OTHER"); ($"annotator", JStr $"Tool: t"); ($"annotationDate", JStr $"2024-02-29T07:05:09Z"); ($"comment", JStr $"c")]]) :: C51_entry $"MD5")]);
    ($"revieweds", JArr [JObj [($"reviewer", JStr $"Person: p"); ($"reviewDate", JStr $"2024-02-29T07:05:09Z"); ($"comment", JStr $"r")]])].
  vm_compute. split; reflexivity.
Qed.
