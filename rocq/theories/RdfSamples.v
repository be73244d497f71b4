(** Concrete libraries for the examples that accompany the theorems about RDF. *)
From Verif Require Import Py Data Oracles Samples Rdf.

(** ** A license library that knows precedence: expressions are blank-separated tokens *)
(** the lists of tokens between occurrences of [sep] *)
Fixpoint cut (sep : pystr) (l : list pystr) : list (list pystr) :=
  match l with
  | [] => [[]]
  | x :: l' =>
      if str_eqb x sep then [] :: cut sep l'
      else match cut sep l' with y :: r => (x :: y) :: r | [] => [[x]] end
  end.
Definition read_atom (l : list pystr) : option lexpr :=
  match l with
  | [k] => Some (LSym k)
  | [k; w; x] => if str_eqb w $"WITH" then Some (LWith k x) else None
  | _ => None
  end.
Fixpoint all_read {A} (l : list (option A)) : option (list A) :=
  match l with
  | [] => Some []
  | Some a :: l' => match all_read l' with Some r => Some (a :: r) | None => None end
  | None :: _ => None
  end.
Definition read_and (l : list pystr) : option lexpr :=
  match all_read (map read_atom (cut $"AND" l)) with
  | Some [a] => Some a
  | Some r => Some (LAnd r)
  | None => None
  end.
Definition read_or (l : list pystr) : option lexpr :=
  match all_read (map read_and (cut $"OR" l)) with
  | Some [a] => Some a
  | Some r => Some (LOr r)
  | None => None
  end.
Definition grammar_read (s : pystr) : result lexpr :=
  match read_or (split_on #" " s) with Some e => Ok e | None => Raise (EExpr $"cannot parse") end.
(** compound members are put in parentheses (which the reader above does not know) *)
Fixpoint grammar_print (e : lexpr) : pystr :=
  let member x := match x with LAnd _ | LOr _ => $"(" ++ grammar_print x ++ $")" | _ => grammar_print x end in
  let fix items (l : list lexpr) : list pystr := match l with [] => [] | x :: l' => member x :: items l' end in
  match e with
  | LSym k => k
  | LWith a b => a ++ $" WITH " ++ b
  | LAnd l => join $" AND " (items l)
  | LOr l => join $" OR " (items l)
  end.
Definition rdf_oracles : oracles :=
  {| o_invalid_symbols := fun e => filter (fun k => contains $"LicenseRef-" k) (lexpr_syms e);
     o_strict_parse_error := fun _ => None;
     o_lic_str := grammar_print;
     o_lic_parse := grammar_read;
     o_lic_eqb := lexpr_eqb;
     o_isabsuri := fun s => contains $"://" s;
     o_has_scheme := fun s => contains $"://" s;
     o_isuri := fun s => contains $":" s;
     o_repr := fun _ => $"..." |}.

(** ** An RDF library *)
(** the text before and after the first '#' *)
Fixpoint cut_hash (s : pystr) : pystr * pystr :=
  match s with
  | [] => ([], [])
  | c :: s' => if N.eqb c #"#" then ([], s') else let (a, b) := cut_hash s' in (c :: a, b)
  end.
(** the namespace the URI starts with is replaced by its prefix, otherwise the URI is put in angle brackets *)
Fixpoint shorten (bound : list (pystr * pystr)) (uri : pystr) : pystr :=
  match bound with
  | [] => $"<" ++ uri ++ $">"
  | (p, ns) :: b => if startswith ns uri then p ++ $":" ++ skipn (List.length ns) uri else shorten b uri
  end.
Definition sample_library : rdf_library :=
  {| r_normalize := shorten;
     r_fragment := fun s => Ok (snd (cut_hash s));
     r_defrag := fun s => Ok (cut_hash s);
     r_value := fun dt t =>
       if str_eqb dt XSD_boolean then VBool (str_eqb t $"true")
       else match int_of_text t with Ok z => VInt z | Raise _ => VNone end;
     r_depth := 50 |}.
Definition sample_label (n : nat) : pystr := $"N" ++ str_of_N (N.of_nat n).

(** ** A document *)
Definition rdf_package (id : pystr) : package :=
  {| pk_id := id; pk_name := $"pkg"; pk_download := NVal $"https://example.com/pkg.tar.gz"; pk_version := Some $"1.0";
     pk_file_name := Some $"./pkg.tar.gz"; pk_supplier := Some (AVal sample_org); pk_originator := Some ANoAssertion;
     pk_files_analyzed := true; pk_verif := Some {| vc_value := sha1; vc_excluded := [$"./doc.spdx"; $"./b"] |};
     pk_checksums := [sample_sha1; {| ck_alg := CA_BLAKE2B_256; ck_value := sha1 ++ $"000000000000000000000000" |}];
     pk_homepage := Some (NVal $"https://example.com"); pk_source_info := Some $"source";
     pk_concluded := Some (NVal (LOr [LAnd [LSym $"MIT"; LSym $"LicenseRef-1"]; LSym $"GPL-2.0"]));
     pk_info := [NVal (LSym $"MIT"); NNoAssertion];
     pk_declared := Some (NVal (LWith $"GPL-2.0" $"Classpath-exception-2.0")); pk_lic_comment := None;
     pk_copyright := Some (NVal $"Copyright Jane"); pk_summary := None; pk_description := Some $"described";
     pk_comment := None;
     pk_refs := [{| er_category := RC_PACKAGE_MANAGER; er_type := $"purl"; er_locator := $"pkg:pypi/x@1"; er_comment := None |};
                 {| er_category := RC_OTHER; er_type := $"mine"; er_locator := $"x"; er_comment := Some $"c" |}];
     pk_attribution := [$"thanks"]; pk_purpose := Some PP_LIBRARY; pk_release := Some sample_date; pk_built := None;
     pk_valid_until := None |}.
Definition rdf_document : document :=
  {| do_ci := sample_ci $"SPDX-2.3"; do_packages := [rdf_package $"SPDXRef-Package-A"; rdf_package $"SPDXRef-Package-B"];
     do_files := do_files (sample_document $"SPDX-2.3"); do_snippets := do_snippets (sample_document $"SPDX-2.3");
     do_annotations := do_annotations (sample_document $"SPDX-2.3");
     do_relationships := {| re_id := $"SPDXRef-Package-A"; re_type := RT_OTHER; re_related := NNone; re_comment := Some $"c" |}
                         :: do_relationships (sample_document $"SPDX-2.3");
     do_extracted := [sample_extracted] |}.
