(** Reading the serialised forms: spdx/parser/json/json_parser.py, spdx/parser/xml/xml_parser.py,
    spdx/parser/yaml/yaml_parser.py.

    The decoders json.load, yaml.safe_load and xmltodict.parse are outside the repository.  Their input to the code
    below is a JSON-like value; for json.load the objects of that value are the lists of pairs in the order of the
    text, possibly with repeated names. *)
From Verif Require Import Py Data Oracles Json JsonParse.

(** json_parser.py:12-16: str.translate(CONTROL_CHARS_MAP) *)
Definition translate_control (s : pystr) : pystr := filter (fun c => negb ((c =? 8)%N || (c =? 12)%N)) s.

(** json_parser.py:19-25  remove_control_chars_from_value *)
Fixpoint remove_control_chars (j : json) : json :=
  match j with
  | JStr s => JStr (translate_control s)
  | JArr l => JArr (map remove_control_chars l)
  | _ => j
  end.

(** a dict comprehension over pairs: the last value of a repeated key wins, its position is that of the first *)
Definition dict_of (pairs : list (pystr * json)) : list (pystr * json) :=
  fold_left (fun acc kv => dict_set (fst kv) (snd kv) acc) pairs [].

(** json_parser.py:28-34  json.load with object_pairs_hook=remove_json_control_chars_hook; the decoder calls the hook
    for inner objects first *)
Fixpoint json_load (j : json) : json :=
  match j with
  | JObj kvs => JObj (dict_of (map (fun kv => (fst kv, remove_control_chars (json_load (snd kv)))) kvs))
  | JArr l => JArr (map json_load l)
  | _ => j
  end.

(** xml_parser.py:11-36 *)
Definition LIST_LIKE_FIELDS : list pystr :=
  [ $"creators"; $"externalDocumentRefs"; $"hasExtractedLicensingInfos"; $"seeAlsos"; $"annotations"; $"relationships";
    $"snippets"; $"reviewers"; $"fileTypes"; $"licenseInfoFromFiles"; $"licenseInfoInFiles"; $"artifactOf";
    $"fileContributors"; $"fileDependencies"; $"files"; $"documentDescribes"; $"packages"; $"checksums"; $"hasFiles";
    $"externalRefs"; $"ranges"; $"licenseInfoInSnippets"; $"packageVerificationCodeExcludedFiles";
    $"attributionTexts" ].

Definition is_list (j : json) : bool := match j with JArr _ => true | _ => false end.

(** xml_parser.py:51-71  _fix_list_like_fields.  The keys of a dict are distinct, so the entries of the new dict are
    those of the old one in the same order. *)
Fixpoint fix_list_like_fields (j : json) : json :=
  match j with
  | JObj kvs =>
      JObj (map (fun kv =>
                   (fst kv,
                    if str_in (fst kv) LIST_LIKE_FIELDS && negb (is_list (snd kv))
                    then if jtruthy (snd kv) then JArr [fix_list_like_fields (snd kv)] else JArr []
                    else fix_list_like_fields (snd kv))) kvs)
  | JArr l => JArr (map fix_list_like_fields l)
  | _ => j
  end.

(** json_parser.py:32-36, yaml_parser.py:12-16, xml_parser.py:39-48, after decoding *)
Definition parse_json (O : oracles) (decoded : json) : result document := parse_dict O (json_load decoded).
Definition parse_yaml (O : oracles) (decoded : json) : result document := parse_dict O decoded.
Definition parse_xml (O : oracles) (decoded : json) : result document :=
  do d <- jget $"Document" (fix_list_like_fields decoded);
  if negb (jtruthy d) then Raise (EParsing [$"Did not find the XML top level tag ""Document""."])
  else parse_dict O d.
