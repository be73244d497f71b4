(** RDF graphs as the RDF reader and writer see them: the parts of rdflib (graphs, terms) that spdx/parser/rdf and
    spdx/writer/rdf use, the RDF vocabulary (spdx/rdfschema/namespace.py), and the library calls that are not modelled.

    A graph is a set of triples; the model keeps it as a list without repetitions, whose order is the order in which
    rdflib iterates.  That order is unspecified, so theorems quantify over all of them. *)
From Verif Require Import Py Data.

(** ** Terms *)

(** The Python value of a typed literal: its text, a bool, an int, None (the text does not fit the type, or the type is
    unknown to rdflib), or another object with its truth value and its conversion by int(). *)
Inductive pyval := VText | VBool (b : bool) | VInt (z : Z) | VNone | VOther (truthy : bool) (int : result Z).

(** rdflib.URIRef, rdflib.BNode and rdflib.Literal.  Literals are identified by text, language and datatype. *)
Inductive lit_kind := KPlain | KLang (tag : pystr) | KTyped (datatype : pystr).
Inductive node :=
| NUri (s : pystr)
| NBlank (label : pystr)
| NLit (text : pystr) (k : lit_kind).

Definition lit_kind_eq_dec (a b : lit_kind) : {a = b} + {a <> b}.
Proof. decide equality; apply char_list_eq_dec. Defined.
Definition node_eq_dec (a b : node) : {a = b} + {a <> b}.
Proof. decide equality; try apply char_list_eq_dec; apply lit_kind_eq_dec. Defined.
Definition node_eqb (a b : node) : bool := if node_eq_dec a b then true else false.

(** Subject, predicate and object; predicates are URIs. *)
Definition triple : Type := node * pystr * node.
Definition triple_eq_dec (a b : triple) : {a = b} + {a <> b}.
Proof. decide equality; [apply node_eq_dec|]. decide equality; [apply char_list_eq_dec|apply node_eq_dec]. Defined.

(** A graph with the prefixes bound in it (graph.bind), oldest first. *)
Record graph := { g_triples : list triple; g_bound : list (pystr * pystr) }.

(** ** Library calls *)
Record rdf_library := {
  (** NamespaceManager(graph).normalizeUri(uri), given the prefixes bound in the graph *)
  r_normalize : list (pystr * pystr) -> pystr -> pystr;
  (** URIRef(uri).fragment, i.e. urllib.parse.urlparse(uri).fragment *)
  r_fragment : pystr -> result pystr;
  (** urllib.parse.urldefrag(uri) *)
  r_defrag : pystr -> result (pystr * pystr);
  (** Literal(text, datatype=datatype).value *)
  r_value : pystr -> pystr -> pyval;
  (** how deep parse_license_expression can call itself before RecursionError is raised *)
  r_depth : nat
}.

Section Terms.
Variable L : rdf_library.

(** the text of a node: all three classes are subclasses of str *)
Definition node_str (n : node) : pystr := match n with NUri s => s | NBlank s => s | NLit t _ => t end.
Definition lit_value (t : pystr) (k : lit_kind) : pyval := match k with KTyped d => r_value L d t | _ => VText end.
(** bool(node): Literal.__bool__ is bool(self.value), or len(self) != 0 for None; the others are strings *)
Definition node_truthy (n : node) : bool :=
  match n with
  | NLit t k =>
      match lit_value t k with
      | VBool b => b
      | VInt z => negb (Z.eqb z 0)
      | VOther b _ => b
      | VText | VNone => truthy_list t
      end
  | _ => truthy_list (node_str n)
  end.
(** node.toPython() if it is a str: the text of a URIRef or BNode, the value of a Literal, or a Literal without value *)
Definition py_text (n : node) : option pystr :=
  match n with
  | NLit t k => match lit_value t k with VText | VNone => Some t | _ => None end
  | _ => Some (node_str n)
  end.
(** node.toPython() == s; a Literal without value is not equal to any str *)
Definition py_is (n : node) (s : pystr) : bool :=
  match n with
  | NLit t k => match lit_value t k with VText => str_eqb t s | _ => false end
  | _ => str_eqb (node_str n) s
  end.
(** str(node.toPython()); of other objects the text of the literal stands for their str() *)
Definition py_str (n : node) : pystr :=
  match n with
  | NLit t k => match lit_value t k with
                | VBool true => $"True" | VBool false => $"False" | VInt z => str_of_Z z | _ => t
                end
  | _ => node_str n
  end.
(** int(s) for a str: blanks around it, a sign, decimal digits (underscores between digits are not modelled) *)
Definition int_of_text (s : pystr) : result Z :=
  let bad := Raise (EValue ($"invalid literal for int() with base 10: " ++ s)) in
  match strip s with
  | c :: t =>
      let v := if N.eqb c #"-" || N.eqb c #"+" then dec_val t else dec_val (c :: t) in
      match v with
      | Some n => Ok (if N.eqb c #"-" then (- Z.of_N n)%Z else Z.of_N n)
      | None => bad
      end
  | [] => bad
  end.
(** int(node.toPython()) *)
Definition py_int (n : node) : result Z :=
  match n with
  | NLit t k =>
      match lit_value t k with
      | VText | VNone => int_of_text t
      | VBool true => Ok 1%Z
      | VBool false => Ok 0%Z
      | VInt z => Ok z
      | VOther _ r => r
      end
  | _ => int_of_text (node_str n)
  end.
(** node.fragment: only URIRef has this attribute *)
Definition fragment_of (n : node) : result pystr :=
  match n with NUri s => r_fragment L s | _ => Raise (EAttr $"object has no attribute 'fragment'") end.
End Terms.

(** node == URIRef(s) *)
Definition is_uri (n : node) (s : pystr) : bool := match n with NUri t => str_eqb t s | _ => false end.

(** ** Graph queries *)
(** graph.triples((s, p, None)) and graph.objects(s, p) *)
Definition objects (ts : list triple) (s : node) (p : pystr) : list node :=
  map snd (filter (fun t => node_eqb (fst (fst t)) s && str_eqb (snd (fst t)) p) ts).
(** graph.triples((None, p, o)) and graph.subjects(p, o) *)
Definition subjects (ts : list triple) (p : pystr) (o : node) : list node :=
  map (fun t => fst (fst t)) (filter (fun t => str_eqb (snd (fst t)) p && node_eqb (snd t) o) ts).
(** graph.triples((None, p, None)) *)
Definition pairs (ts : list triple) (p : pystr) : list (node * node) :=
  map (fun t => (fst (fst t), snd t)) (filter (fun t => str_eqb (snd (fst t)) p) ts).
(** graph.value(..., any=True): the first match *)
Definition any_value (l : list node) : option node := match l with [] => None | x :: _ => Some x end.
(** graph.value(..., any=False): inr tt stands for UniquenessError *)
Definition only_value (l : list node) : option node + unit :=
  match l with [] => inl None | [x] => inl (Some x) | _ => inr tt end.
(** graph.add *)
Definition add_triple (ts : list triple) (t : triple) : list triple := if in_dec triple_eq_dec t ts then ts else ts ++ [t].

(** ** Vocabulary *)
(** rdfschema/namespace.py:6-9 *)
Definition SPDX_NAMESPACE : pystr := $"http://spdx.org/rdf/terms#".
Definition POINTER_NAMESPACE : pystr := $"http://www.w3.org/2009/pointers#".
Definition REFERENCE_NAMESPACE : pystr := $"http://spdx.org/rdf/references/".
Definition LICENSE_NAMESPACE : pystr := $"http://spdx.org/licenses/".
(** SPDX_NAMESPACE.name, POINTER_NAMESPACE.name *)
Definition spdx (name : string) : pystr := SPDX_NAMESPACE ++ lit name.
Definition ptr (name : string) : pystr := POINTER_NAMESPACE ++ lit name.
(** rdflib.RDF.type, RDFS.comment, RDFS.seeAlso, DOAP.homepage, XSD.boolean, XSD.integer *)
Definition RDF_type : pystr := $"http://www.w3.org/1999/02/22-rdf-syntax-ns#type".
Definition RDFS_comment : pystr := $"http://www.w3.org/2000/01/rdf-schema#comment".
Definition RDFS_seeAlso : pystr := $"http://www.w3.org/2000/01/rdf-schema#seeAlso".
Definition DOAP_homepage : pystr := $"http://usefulinc.com/ns/doap#homepage".
Definition XSD_boolean : pystr := $"http://www.w3.org/2001/XMLSchema#boolean".
Definition XSD_integer : pystr := $"http://www.w3.org/2001/XMLSchema#integer".
