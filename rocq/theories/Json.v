(** JSON-like Python values: what json.load, yaml.safe_load and xmltodict.parse hand to the parser, and what the
    converters produce.  External to the repository; objects keep their insertion order like Python dicts.
    Floats are kept as their repr, since no code of the repository computes with them. *)
From Verif Require Import Py.

Inductive json :=
| JNull
| JBool (b : bool)
| JInt (z : Z)
| JFloat (repr : pystr)
| JStr (s : pystr)
| JArr (l : list json)
| JObj (kvs : list (pystr * json)).

(** bool(value) *)
Definition jtruthy (j : json) : bool :=
  match j with
  | JNull => false
  | JBool b => b
  | JInt z => negb (Z.eqb z 0)
  | JFloat r => negb (str_in r [$"0.0"; $"-0.0"])
  | JStr s => truthy_list s
  | JArr l => truthy_list l
  | JObj kvs => truthy_list kvs
  end.

(** type(value).__name__ *)
Definition jtype (j : json) : pystr :=
  match j with
  | JNull => $"NoneType" | JBool _ => $"bool" | JInt _ => $"int" | JFloat _ => $"float" | JStr _ => $"str"
  | JArr _ => $"list" | JObj _ => $"dict"
  end.

(** value.get(key, default): AttributeError unless the value is a dict *)
Definition jget_default (k : pystr) (dflt : json) (j : json) : result json :=
  match j with
  | JObj kvs => Ok (match assoc k kvs with Some v => v | None => dflt end)
  | _ => Raise (EAttr (jtype j ++ $" object has no attribute get"))
  end.
(** value.get(key) *)
Definition jget (k : pystr) (j : json) : result json := jget_default k JNull j.

(** iterating over a value: list items, dict keys, characters; TypeError otherwise *)
Definition jiter (j : json) : result (list json) :=
  match j with
  | JArr l => Ok l
  | JObj kvs => Ok (map (fun kv => JStr (fst kv)) kvs)
  | JStr s => Ok (map (fun c => JStr [c]) s)
  | _ => Raise (EType (jtype j ++ $" object is not iterable"))
  end.

(** [key in value] for a string key *)
Definition jin (k : pystr) (j : json) : result bool :=
  match j with
  | JObj kvs => Ok (match assoc k kvs with Some _ => true | None => false end)
  | JArr l => Ok (existsb (fun x => match x with JStr s => str_eqb s k | _ => false end) l)
  | JStr s => Ok (contains k s)
  | _ => Raise (EType ($"argument of type " ++ jtype j ++ $" is not iterable"))
  end.

(** [value[key]] for a string key *)
Definition jitem (k : pystr) (j : json) : result json :=
  match j with
  | JObj kvs => match assoc k kvs with Some v => Ok v | None => Raise (EKey k) end
  | _ => Raise (EType (jtype j ++ $" object is not subscriptable with a string"))
  end.
