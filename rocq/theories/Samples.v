(** A concrete document and concrete library behaviours, used by the examples that accompany the theorems. *)
From Verif Require Import Py Data Oracles.

(** Structural equality of license expressions *)
Fixpoint lexpr_eqb (a b : lexpr) : bool :=
  let fix all2 (l m : list lexpr) : bool :=
    match l, m with
    | [], [] => true
    | x :: l', y :: m' => lexpr_eqb x y && all2 l' m'
    | _, _ => false
    end in
  match a, b with
  | LSym x, LSym y => str_eqb x y
  | LWith x e, LWith y f => str_eqb x y && str_eqb e f
  | LAnd l, LAnd m => all2 l m
  | LOr l, LOr m => all2 l m
  | _, _ => false
  end.
(** the symbols of an expression *)
Fixpoint lexpr_syms (e : lexpr) : list pystr :=
  let fix all (l : list lexpr) : list pystr := match l with [] => [] | x :: l' => lexpr_syms x ++ all l' end in
  match e with LSym k => [k] | LWith a b => [a; b] | LAnd l => all l | LOr l => all l end.
(** a printer good enough for the samples: symbols and binary conjunctions of symbols *)
Definition lexpr_print (e : lexpr) : pystr :=
  match e with
  | LSym k => k
  | LWith a b => a ++ $" WITH " ++ b
  | LAnd [LSym a; LSym b] => a ++ $" AND " ++ b
  | _ => $"?"
  end.
(** and a parser for it *)
Definition lexpr_read (s : pystr) : result lexpr :=
  match split_on #" " s with
  | [k] => Ok (LSym k)
  | [a; op; b] => if str_eqb op $"AND" then Ok (LAnd [LSym a; LSym b]) else Ok (LWith a b)
  | _ => Raise (EExpr $"?")
  end.

Definition sample_oracles : oracles :=
  {| o_invalid_symbols := fun e => filter (fun k => contains $"LicenseRef-" k) (lexpr_syms e);
     o_strict_parse_error := fun _ => None;
     o_lic_str := lexpr_print;
     o_lic_parse := lexpr_read;
     o_lic_eqb := lexpr_eqb;
     o_isabsuri := fun s => contains $"://" s;
     o_has_scheme := fun s => contains $"://" s;
     o_isuri := fun s => contains $":" s;
     o_repr := fun _ => $"..." |}.

Definition sha1 : pystr := $"85ed0817af83a24ad8da68c2b5094de69833983c".
Definition sample_date : datetime :=
  {| dt_year := 2023; dt_month := 2; dt_day := 28; dt_hour := 23; dt_min := 59; dt_sec := 7; dt_us := 0; dt_off := None |}.
Definition sample_person : actor := {| ac_type := AT_PERSON; ac_name := $"Jane Doe"; ac_email := Some $"jane@example.com" |}.
Definition sample_org : actor := {| ac_type := AT_ORGANIZATION; ac_name := $"Some Org"; ac_email := None |}.
Definition sample_tool : actor := {| ac_type := AT_TOOL; ac_name := $"tools-python"; ac_email := None |}.
Definition sample_sha1 : checksum := {| ck_alg := CA_SHA1; ck_value := sha1 |}.
Definition sample_ext : ext_doc_ref :=
  {| edr_id := $"DocumentRef-ext"; edr_uri := $"https://example.com/ext"; edr_checksum := sample_sha1 |}.

Definition sample_ci (v : pystr) : creation_info :=
  {| ci_version := v; ci_id := $"SPDXRef-DOCUMENT"; ci_name := $"sample"; ci_namespace := $"https://example.com/doc";
     ci_creators := [sample_person; sample_tool]; ci_created := sample_date; ci_creator_comment := Some $"a comment";
     ci_data_license := $"CC0-1.0"; ci_refs := [sample_ext]; ci_list_version := Some {| v_major := 3; v_minor := 19 |};
     ci_doc_comment := None |}.
Definition sample_package (id : pystr) : package :=
  {| pk_id := id; pk_name := $"pkg"; pk_download := NVal $"https://example.com/pkg.tar.gz"; pk_version := Some $"1.0";
     pk_file_name := Some $"./pkg.tar.gz"; pk_supplier := Some (AVal sample_org); pk_originator := Some ANoAssertion;
     pk_files_analyzed := true; pk_verif := Some {| vc_value := sha1; vc_excluded := [$"./doc.spdx"] |};
     pk_checksums := [sample_sha1]; pk_homepage := Some NNone; pk_source_info := Some $"source";
     pk_concluded := Some (NVal (LSym $"MIT")); pk_info := [NVal (LSym $"MIT"); NNoAssertion];
     pk_declared := Some (NVal (LAnd [LSym $"MIT"; LSym $"LicenseRef-1"])); pk_lic_comment := None;
     pk_copyright := Some (NVal $"Copyright Jane"); pk_summary := None; pk_description := Some $"described";
     pk_comment := None;
     pk_refs := [{| er_category := RC_PACKAGE_MANAGER; er_type := $"purl"; er_locator := $"pkg:pypi/x@1"; er_comment := None |}];
     pk_attribution := [$"thanks"]; pk_purpose := None; pk_release := None; pk_built := None; pk_valid_until := None |}.
Definition sample_file (id : pystr) : file :=
  {| fi_name := $"./src/a.py"; fi_id := id; fi_checksums := [sample_sha1]; fi_types := [FT_SOURCE; FT_TEXT];
     fi_concluded := Some (NVal (LSym $"MIT")); fi_info := [NVal (LSym $"LicenseRef-1")]; fi_lic_comment := None;
     fi_copyright := Some NNone; fi_comment := Some $"file comment"; fi_notice := None;
     fi_contributors := [$"Jane"; $"Joe"]; fi_attribution := [] |}.
Definition sample_snippet (id f : pystr) : snippet :=
  {| sn_id := id; sn_file := f; sn_bytes := (1, 20)%Z; sn_lines := Some (3, 4)%Z; sn_concluded := Some NNoAssertion;
     sn_info := [NVal (LSym $"MIT")]; sn_lic_comment := None; sn_copyright := Some (NVal $"c"); sn_comment := None;
     sn_name := Some $"snip"; sn_attribution := [] |}.
Definition rel (a : pystr) (t : rel_type) (b : pystr) : relationship :=
  {| re_id := a; re_type := t; re_related := NVal b; re_comment := None |}.
Definition sample_annotation (id : pystr) : annotation :=
  {| an_id := id; an_type := ANT_REVIEW; an_annotator := sample_person; an_date := sample_date; an_comment := $"reviewed" |}.
Definition sample_extracted : extracted :=
  {| el_id := Some $"LicenseRef-1"; el_text := Some $"license text"; el_name := Some (AVal $"My License");
     el_xrefs := [$"https://example.com/license"]; el_comment := None |}.

Definition sample_document (v : pystr) : document :=
  {| do_ci := sample_ci v;
     do_packages := [sample_package $"SPDXRef-Package-A"; sample_package $"SPDXRef-Package-B"];
     do_files := [sample_file $"SPDXRef-File-1"; sample_file $"SPDXRef-File-2"];
     do_snippets := [sample_snippet $"SPDXRef-Snippet-1" $"SPDXRef-File-1"];
     do_annotations := [sample_annotation $"SPDXRef-Package-A"; sample_annotation $"SPDXRef-DOCUMENT"];
     do_relationships := [rel $"SPDXRef-DOCUMENT" RT_DESCRIBES $"SPDXRef-Package-A";
                          rel $"SPDXRef-Package-A" RT_CONTAINS $"SPDXRef-File-1";
                          rel $"SPDXRef-Package-B" RT_DEPENDS_ON $"DocumentRef-ext:SPDXRef-Package"];
     do_extracted := [sample_extracted] |}.
