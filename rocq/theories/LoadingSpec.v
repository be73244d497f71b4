(** Specifications for reading the serialised forms. *)
From Verif Require Import Py Data Json JsonSpec.

(** ** Control characters *)
Definition BACKSPACE : char := 8%N.
Definition FORM_FEED : char := 12%N.
(** t is s without its backspaces and form feeds *)
Inductive Stripped : pystr -> pystr -> Prop :=
| S_nil : Stripped [] []
| S_drop : forall c s t, c = BACKSPACE \/ c = FORM_FEED -> Stripped s t -> Stripped (c :: s) t
| S_keep : forall c s t, c <> BACKSPACE -> c <> FORM_FEED -> Stripped s t -> Stripped (c :: s) (c :: t).
(** kvs is the dict with these pairs: keys in the order of their first occurrence, each with its last value *)
Definition DictOf (pairs kvs : list (pystr * json)) : Prop :=
  map fst kvs = firsts [] (map fst pairs) /\ forall k, assoc k kvs = assoc k (rev pairs).
(** Loaded b j j': loading j gives j'; b tells whether j is inside an object *)
Inductive Loaded : bool -> json -> json -> Prop :=
| L_null : forall b, Loaded b JNull JNull
| L_bool : forall b x, Loaded b (JBool x) (JBool x)
| L_int : forall b z, Loaded b (JInt z) (JInt z)
| L_float : forall b r, Loaded b (JFloat r) (JFloat r)
| L_inside : forall s t, Stripped s t -> Loaded true (JStr s) (JStr t)
| L_outside : forall s, Loaded false (JStr s) (JStr s)
| L_array : forall b l l', Forall2 (Loaded b) l l' -> Loaded b (JArr l) (JArr l')
| L_object : forall b pairs pairs' kvs,
    Forall2 (fun p p' => fst p = fst p' /\ Loaded true (snd p) (snd p')) pairs pairs' -> DictOf pairs' kvs ->
    Loaded b (JObj pairs) (JObj kvs).
Definition NoControl (s : pystr) : Prop := ~ In BACKSPACE s /\ ~ In FORM_FEED s.
(** the objects have distinct keys, at any depth; the strings in objects have no backspace and no form feed, at any
    depth (keys aside) *)
Definition PlainObjects (j : json) : Prop :=
  forall kvs, Within (JObj kvs) j ->
    NoDup (map fst kvs) /\ forall s, Within (JStr s) (JObj kvs) -> NoControl s.

(** ** XML *)
Definition ListField (k : pystr) : Prop := In k
  [ $"creators"; $"externalDocumentRefs"; $"hasExtractedLicensingInfos"; $"seeAlsos"; $"annotations"; $"relationships";
    $"snippets"; $"reviewers"; $"fileTypes"; $"licenseInfoFromFiles"; $"licenseInfoInFiles"; $"artifactOf";
    $"fileContributors"; $"fileDependencies"; $"files"; $"documentDescribes"; $"packages"; $"checksums"; $"hasFiles";
    $"externalRefs"; $"ranges"; $"licenseInfoInSnippets"; $"packageVerificationCodeExcludedFiles";
    $"attributionTexts" ].
Definition Array (j : json) : Prop := exists l, j = JArr l.
(** Repaired j j': j' is j where single values of list fields have been put into lists *)
Inductive Repaired : json -> json -> Prop :=
| R_leaf : forall j, (forall l, j <> JArr l) -> (forall kvs, j <> JObj kvs) -> Repaired j j
| R_array : forall l l', Forall2 Repaired l l' -> Repaired (JArr l) (JArr l')
| R_object : forall kvs kvs', Forall2 RepairedEntry kvs kvs' -> Repaired (JObj kvs) (JObj kvs')
with RepairedEntry : pystr * json -> pystr * json -> Prop :=
| E_same : forall k v v', ~ ListField k \/ Array v -> Repaired v v' -> RepairedEntry (k, v) (k, v')
| E_empty : forall k v, ListField k -> ~ Array v -> jtruthy v = false -> RepairedEntry (k, v) (k, JArr [])
| E_single : forall k v v', ListField k -> ~ Array v -> jtruthy v = true -> Repaired v v' -> RepairedEntry (k, v) (k, JArr [v']).
(** every list field at any depth is a list *)
Definition ListFieldsAreLists (j : json) : Prop :=
  forall kvs k v, Within (JObj kvs) j -> In (k, v) kvs -> ListField k -> Array v.
