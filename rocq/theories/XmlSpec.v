(** Specification of the XML form: what xmltodict makes of a JSON-like value that it writes and reads again. *)
From Verif Require Import Py Data Oracles Basics Json JsonConv BasicsSpec JsonSpec.
From Verif Require LoadingSpec.

(** XmlImage j v: xmltodict.parse(xmltodict.unparse(j, pretty=True)) gives v.  Values become texts without white space
    at their ends; what is empty becomes None; a list with one item becomes the item; an empty list disappears.  Lists
    in lists, names that start with '@' or '#', and texts that XML cannot hold (control characters, carriage returns)
    are not covered: there is no rule for them. *)
Inductive XmlImage : json -> json -> Prop :=
| X_null : XmlImage JNull JNull
| X_true : XmlImage (JBool true) (JStr $"true")
| X_false : XmlImage (JBool false) (JStr $"false")
| X_int : forall z, XmlImage (JInt z) (JStr (str_of_Z z))
| X_text : forall s, strip s <> [] -> XmlImage (JStr s) (JStr (strip s))
| X_blank : forall s, strip s = [] -> XmlImage (JStr s) JNull
| X_object : forall kvs kvs', XmlMembers kvs kvs' -> kvs' <> [] -> XmlImage (JObj kvs) (JObj kvs')
| X_empty : forall kvs, XmlMembers kvs [] -> XmlImage (JObj kvs) JNull
with XmlMembers : list (pystr * json) -> list (pystr * json) -> Prop :=
| XM_nil : XmlMembers [] []
| XM_value : forall k v v' r r', XmlImage v v' -> XmlMembers r r' -> XmlMembers ((k, v) :: r) ((k, v') :: r')
| XM_none : forall k r r', XmlMembers r r' -> XmlMembers ((k, JArr []) :: r) r'
| XM_one : forall k x x' r r', XmlImage x x' -> XmlMembers r r' -> XmlMembers ((k, JArr [x]) :: r) ((k, x') :: r')
| XM_many : forall k l l' r r', 2 <= List.length l -> XmlItems l l' -> XmlMembers r r' -> XmlMembers ((k, JArr l) :: r) ((k, JArr l') :: r')
with XmlItems : list json -> list json -> Prop :=
| XI_nil : XmlItems [] []
| XI_cons : forall x x' l l', XmlImage x x' -> XmlItems l l' -> XmlItems (x :: l) (x' :: l').

(** a document that survives the XML form: one that survives the JSON form, whose texts are not empty and have no white
    space at their ends, which has no licensing info without any value, and whose snippet ranges are not negative *)
Record XmlDocument (O : oracles) (d : document) : Prop := {
  xd_json : JsonDocument O d;
  xd_texts : forall j s, convert_document O d = Ok j -> Within (JStr s) j -> s <> [] /\ Trimmed s;
  xd_objects : forall j, convert_document O d = Ok j -> ~ Within (JObj []) j;
  xd_ranges : Forall (fun s => 0 <= fst (sn_bytes s) /\ 0 <= snd (sn_bytes s)
                       /\ IfSome (fun r => 0 <= fst r /\ 0 <= snd r) (sn_lines s))%Z (do_snippets d) }.
