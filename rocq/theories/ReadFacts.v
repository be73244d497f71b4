(** Small facts for PropsRead. *)
From Verif Require Import Py PyFacts Data Oracles Basics BasicsSpec StampFacts Json JsonConv JsonParse JsonSpec JsonReadSpec Loading StampMore JsonRead.

Lemma read_again s d : datetime_from_str s = Ok d -> exists t, datetime_to_iso_string d = Ok t /\ datetime_from_str t = Ok d.
Proof.
  intro H. destruct (read_datetime_valid s d H) as (V & U & N). destruct (stamp_naive d V N) as (t & W & R). exists t. split; [exact W|].
  rewrite R. destruct d. cbn in U, N |- *. subst. reflexivity.
Qed.
Lemma fix_missing k kvs : assoc k kvs = None -> exists kvs', fix_list_like_fields (JObj kvs) = JObj kvs' /\ assoc k kvs' = None.
Proof.
  intro H. cbn [fix_list_like_fields]. eexists. split; [reflexivity|]. induction kvs as [|[k' v] kvs IH]; [reflexivity|]. cbn [assoc map fst snd] in *.
  destruct (str_eqb k k'); [discriminate|]. apply IH. exact H.
Qed.
Lemma xml_missing O kvs : assoc $"Document" kvs = None -> parse_xml O (JObj kvs) = Raise (EParsing [$"Did not find the XML top level tag ""Document""."]).
Proof.
  intro H. destruct (fix_missing _ _ H) as (kvs' & E & N). unfold parse_xml. rewrite E. rewrite jget_at. unfold value_at. rewrite N. reflexivity.
Qed.
Lemma algorithm_json c j : convert_checksum c = Ok j ->
  j = JObj [($"algorithm", JStr (algorithm_json_name (ck_alg c))); ($"checksumValue", JStr (ck_value c))].
Proof. destruct c as [a v]. intro H. destruct a; lazy in H; injection H as <-; reflexivity. Qed.
