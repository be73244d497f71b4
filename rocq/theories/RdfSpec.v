(** Specifications for the RDF form of documents. *)
From Verif Require Import Py Data Oracles Basics ValidationSpec BasicsSpec Rdf.
From Verif Require JsonSpec.
From Coq Require Export Permutation.
Export JsonSpec (IfSome, PlainDate, ReadableNA).

(** ** Graphs *)
Definition Reserved (s : pystr) : Prop := s = $"NONE" \/ s = $"NOASSERTION".
(** labels of blank nodes: all different, not empty, not reserved and without colon *)
Definition Labels (lab : nat -> pystr) : Prop :=
  (forall i j, lab i = lab j -> i = j) /\ (forall i, lab i <> [] /\ ~ In #":" (lab i) /\ ~ Reserved (lab i)).
Definition rename_node (f : pystr -> pystr) (n : node) : node := match n with NBlank b => NBlank (f b) | _ => n end.
Definition rename (f : pystr -> pystr) (t : triple) : triple :=
  let '(s, p, o) := t in (rename_node f s, p, rename_node f o).
(** g is the graph ts, whose blank nodes are labelled by lab, with other labels and in any order *)
Definition SameGraph (lab : nat -> pystr) (ts g : list triple) : Prop :=
  NoDup g /\ exists f, Labels (fun n => f (lab n)) /\ forall t, In t g <-> In t (map (rename f) ts).

(** ** Texts *)
Definition Unspaced (s : pystr) : Prop := Forall (fun c => is_space c = false) s.
(** not empty, no white space at either end *)
Definition Clean (s : pystr) : Prop := s <> [] /\ Trimmed s.
Definition CleanNN (x : nn pystr) : Prop := match x with NVal s => Clean s /\ ~ Reserved s | _ => True end.

(** ** License expressions *)
(** a license key that the license library reads as that license *)
Definition Key (O : oracles) (k : pystr) : Prop :=
  k <> [] /\ Unspaced k /\ ~ In #"#" k /\ o_lic_parse O k = Ok (LSym k).
Inductive Atom (O : oracles) : lexpr -> Prop :=
| Atom_sym k : Key O k -> Atom O (LSym k)
| Atom_with k x : Key O k -> ~ In #"#" x -> o_lic_parse O (k ++ $" WITH " ++ x) = Ok (LWith k x) -> Atom O (LWith k x).
(** an atom or a conjunction of different atoms *)
Definition Conj (O : oracles) (e : lexpr) : Prop :=
  Atom O e \/ exists l, e = LAnd l /\ 2 <= List.length l /\ NoDup l /\ Forall (Atom O) l.
(** disjunctive normal form *)
Definition Dnf (O : oracles) (e : lexpr) : Prop :=
  Conj O e \/ exists l, e = LOr l /\ 2 <= List.length l /\ NoDup l /\ Forall (Conj O) l.
Definition DnfLicense (O : oracles) (l : license) : Prop := match l with NVal e => Dnf O e | _ => True end.
(** The license library writes atoms and conjunctions of atoms in the usual way, and reads expressions of which the
    members have been joined by AND or by OR as it should. *)
Record LicenseGrammar (O : oracles) : Prop := {
  lg_sym : forall k, o_lic_str O (LSym k) = k;
  lg_with : forall k x, o_lic_str O (LWith k x) = k ++ $" WITH " ++ x;
  lg_and : forall l, 2 <= List.length l -> Forall (Atom O) l ->
    o_lic_str O (LAnd l) = join $" AND " (map (o_lic_str O) l)
    /\ o_lic_parse O (join $" AND " (map (o_lic_str O) l)) = Ok (LAnd l);
  lg_or : forall l, 2 <= List.length l -> Forall (Conj O) l ->
    o_lic_parse O (join $" OR " (map (o_lic_str O) l)) = Ok (LOr l) }.
(** the same expression up to the order of the members of conjunctions and disjunctions *)
Inductive SameExpr : lexpr -> lexpr -> Prop :=
| Same_sym k : SameExpr (LSym k) (LSym k)
| Same_with k x : SameExpr (LWith k x) (LWith k x)
| Same_and l l' m : Forall2 SameExpr l l' -> Permutation l' m -> SameExpr (LAnd l) (LAnd m)
| Same_or l l' m : Forall2 SameExpr l l' -> Permutation l' m -> SameExpr (LOr l) (LOr m).
Inductive SameLicense : license -> license -> Prop :=
| Same_expr e e' : SameExpr e e' -> SameLicense (NVal e) (NVal e')
| Same_noassertion : SameLicense NNoAssertion NNoAssertion
| Same_none : SameLicense NNone NNone.
(** the truth value of an expression, given which licenses are granted *)
Fixpoint Holds (v : pystr -> Prop) (e : lexpr) : Prop :=
  let fix all (l : list lexpr) : Prop := match l with [] => True | x :: l' => Holds v x /\ all l' end in
  let fix some (l : list lexpr) : Prop := match l with [] => False | x :: l' => Holds v x \/ some l' end in
  match e with LSym k => v k | LWith k x => v (k ++ $" WITH " ++ x) | LAnd l => all l | LOr l => some l end.

(** ** The same data up to order *)
Definition SameList {A} (R : A -> A -> Prop) (l m : list A) : Prop := exists l', Permutation l l' /\ Forall2 R l' m.
Inductive SameOpt {A} (R : A -> A -> Prop) : option A -> option A -> Prop :=
| Same_None : SameOpt R None None
| Same_Some a b : R a b -> SameOpt R (Some a) (Some b).
Record SameCode (v w : verif_code) : Prop := {
  sv_value : vc_value v = vc_value w;
  sv_excluded : Permutation (vc_excluded v) (vc_excluded w) }.
Record SamePackage (p q : package) : Prop := {
  sp_id : pk_id p = pk_id q;
  sp_name : pk_name p = pk_name q;
  sp_download : pk_download p = pk_download q;
  sp_version : pk_version p = pk_version q;
  sp_file_name : pk_file_name p = pk_file_name q;
  sp_supplier : pk_supplier p = pk_supplier q;
  sp_originator : pk_originator p = pk_originator q;
  sp_analyzed : pk_files_analyzed p = pk_files_analyzed q;
  sp_verif : SameOpt SameCode (pk_verif p) (pk_verif q);
  sp_checksums : Permutation (pk_checksums p) (pk_checksums q);
  sp_homepage : pk_homepage p = pk_homepage q;
  sp_source_info : pk_source_info p = pk_source_info q;
  sp_concluded : SameOpt SameLicense (pk_concluded p) (pk_concluded q);
  sp_info : SameList SameLicense (pk_info p) (pk_info q);
  sp_declared : SameOpt SameLicense (pk_declared p) (pk_declared q);
  sp_lic_comment : pk_lic_comment p = pk_lic_comment q;
  sp_copyright : pk_copyright p = pk_copyright q;
  sp_summary : pk_summary p = pk_summary q;
  sp_description : pk_description p = pk_description q;
  sp_comment : pk_comment p = pk_comment q;
  sp_refs : Permutation (pk_refs p) (pk_refs q);
  sp_attribution : Permutation (pk_attribution p) (pk_attribution q);
  sp_purpose : pk_purpose p = pk_purpose q;
  sp_release : pk_release p = pk_release q;
  sp_built : pk_built p = pk_built q;
  sp_valid_until : pk_valid_until p = pk_valid_until q }.
Record SameFile (f g : file) : Prop := {
  sf_name : fi_name f = fi_name g;
  sf_id : fi_id f = fi_id g;
  sf_checksums : Permutation (fi_checksums f) (fi_checksums g);
  sf_types : Permutation (fi_types f) (fi_types g);
  sf_concluded : SameOpt SameLicense (fi_concluded f) (fi_concluded g);
  sf_info : SameList SameLicense (fi_info f) (fi_info g);
  sf_lic_comment : fi_lic_comment f = fi_lic_comment g;
  sf_copyright : fi_copyright f = fi_copyright g;
  sf_comment : fi_comment f = fi_comment g;
  sf_notice : fi_notice f = fi_notice g;
  sf_contributors : Permutation (fi_contributors f) (fi_contributors g);
  sf_attribution : Permutation (fi_attribution f) (fi_attribution g) }.
Record SameSnippet (x y : snippet) : Prop := {
  ss_id : sn_id x = sn_id y;
  ss_file : sn_file x = sn_file y;
  ss_bytes : sn_bytes x = sn_bytes y;
  ss_lines : sn_lines x = sn_lines y;
  ss_concluded : SameOpt SameLicense (sn_concluded x) (sn_concluded y);
  ss_info : SameList SameLicense (sn_info x) (sn_info y);
  ss_lic_comment : sn_lic_comment x = sn_lic_comment y;
  ss_copyright : sn_copyright x = sn_copyright y;
  ss_comment : sn_comment x = sn_comment y;
  ss_name : sn_name x = sn_name y;
  ss_attribution : Permutation (sn_attribution x) (sn_attribution y) }.
Record SameExtracted (e f : extracted) : Prop := {
  se_id : el_id e = el_id f;
  se_text : el_text e = el_text f;
  se_name : el_name e = el_name f;
  se_xrefs : Permutation (el_xrefs e) (el_xrefs f);
  se_comment : el_comment e = el_comment f }.
Record SameCreationInfo (c k : creation_info) : Prop := {
  sc_version : ci_version c = ci_version k;
  sc_id : ci_id c = ci_id k;
  sc_name : ci_name c = ci_name k;
  sc_namespace : ci_namespace c = ci_namespace k;
  sc_creators : Permutation (ci_creators c) (ci_creators k);
  sc_created : ci_created c = ci_created k;
  sc_creator_comment : ci_creator_comment c = ci_creator_comment k;
  sc_data_license : ci_data_license c = ci_data_license k;
  sc_refs : Permutation (ci_refs c) (ci_refs k);
  sc_list_version : ci_list_version c = ci_list_version k;
  sc_doc_comment : ci_doc_comment c = ci_doc_comment k }.
Record SameDocument (d e : document) : Prop := {
  sd_ci : SameCreationInfo (do_ci d) (do_ci e);
  sd_packages : SameList SamePackage (do_packages d) (do_packages e);
  sd_files : SameList SameFile (do_files d) (do_files e);
  sd_snippets : SameList SameSnippet (do_snippets d) (do_snippets e);
  sd_annotations : Permutation (do_annotations d) (do_annotations e);
  sd_relationships : Permutation (do_relationships d) (do_relationships e);
  sd_extracted : SameList SameExtracted (do_extracted d) (do_extracted e) }.

(** ** Which documents survive the RDF form *)
(** "SPDXRef-" and the letters, digits, dots and hyphens of an id *)
Definition RdfId (s : pystr) : Prop := Prefixed $"SPDXRef-" IdChar s.
(** an id of this document or of one of the listed external documents *)
Definition RdfRef (refs : list ext_doc_ref) (s : pystr) : Prop :=
  RdfId s \/ exists r b, In r refs /\ RdfId b /\ s = edr_id r ++ $":" ++ b.
Record RdfCode (v : verif_code) : Prop := {
  rv_value : Clean (vc_value v);
  rv_excluded : NoDup (vc_excluded v) }.
Record RdfPackageRef (r : ext_pkg_ref) : Prop := {
  rr_locator : Clean (er_locator r);
  rr_comment : IfSome Clean (er_comment r);
  rr_type : Unspaced (er_type r) }.
Record RdfPackage (O : oracles) (p : package) : Prop := {
  rp_id : RdfId (pk_id p);
  rp_name : Clean (pk_name p);
  rp_download : CleanNN (pk_download p);
  rp_version : IfSome Clean (pk_version p);
  rp_file_name : IfSome Clean (pk_file_name p);
  rp_supplier : IfSome ReadableNA (pk_supplier p);
  rp_originator : IfSome ReadableNA (pk_originator p);
  rp_verif : IfSome RdfCode (pk_verif p);
  rp_checksums : Forall (fun c => Clean (ck_value c)) (pk_checksums p);
  rp_homepage : IfSome (fun h => exists s, h = NVal s /\ Clean s) (pk_homepage p);
  rp_source_info : IfSome Clean (pk_source_info p);
  rp_concluded : IfSome (DnfLicense O) (pk_concluded p);
  rp_info : Forall (DnfLicense O) (pk_info p) /\ NoDup (pk_info p);
  rp_declared : IfSome (DnfLicense O) (pk_declared p);
  rp_lic_comment : IfSome Clean (pk_lic_comment p);
  rp_copyright : IfSome CleanNN (pk_copyright p);
  rp_summary : IfSome Clean (pk_summary p);
  rp_description : IfSome Clean (pk_description p);
  rp_comment : IfSome Clean (pk_comment p);
  rp_refs : Forall RdfPackageRef (pk_refs p);
  rp_attribution : NoDup (pk_attribution p);
  rp_release : IfSome PlainDate (pk_release p);
  rp_built : IfSome PlainDate (pk_built p);
  rp_valid_until : IfSome PlainDate (pk_valid_until p) }.
Record RdfFile (O : oracles) (f : file) : Prop := {
  rf_name : Clean (fi_name f);
  rf_id : RdfId (fi_id f);
  rf_checksums : Forall (fun c => Clean (ck_value c)) (fi_checksums f);
  rf_types : NoDup (fi_types f);
  rf_concluded : IfSome (DnfLicense O) (fi_concluded f);
  rf_info : Forall (DnfLicense O) (fi_info f) /\ NoDup (fi_info f);
  rf_lic_comment : IfSome Clean (fi_lic_comment f);
  rf_copyright : IfSome CleanNN (fi_copyright f);
  rf_comment : IfSome Clean (fi_comment f);
  rf_notice : IfSome Clean (fi_notice f);
  rf_contributors : NoDup (fi_contributors f);
  rf_attribution : NoDup (fi_attribution f) }.
Definition NonZero (r : Z * Z) : Prop := (fst r <> 0 /\ snd r <> 0)%Z.
Record RdfSnippet (O : oracles) (refs : list ext_doc_ref) (x : snippet) : Prop := {
  rs_id : RdfId (sn_id x);
  rs_file : RdfRef refs (sn_file x);
  rs_bytes : NonZero (sn_bytes x);
  rs_lines : exists r, sn_lines x = Some r /\ NonZero r;
  rs_concluded : IfSome (DnfLicense O) (sn_concluded x);
  rs_info : Forall (DnfLicense O) (sn_info x) /\ NoDup (sn_info x);
  rs_lic_comment : IfSome Clean (sn_lic_comment x);
  rs_copyright : IfSome CleanNN (sn_copyright x);
  rs_comment : IfSome Clean (sn_comment x);
  rs_name : IfSome Clean (sn_name x);
  rs_attribution : NoDup (sn_attribution x) }.
Record RdfAnnotation (refs : list ext_doc_ref) (a : annotation) : Prop := {
  ra_id : RdfRef refs (an_id a);
  ra_annotator : ReadableActor (an_annotator a);
  ra_date : PlainDate (an_date a);
  ra_comment : Clean (an_comment a) }.
Record RdfRelationship (refs : list ext_doc_ref) (r : relationship) : Prop := {
  rl_id : RdfRef refs (re_id r);
  rl_related : match re_related r with NVal s => RdfRef refs s | _ => True end;
  rl_comment : IfSome Clean (re_comment r) }.
Record RdfExtracted (e : extracted) : Prop := {
  re_id_some : exists i, el_id e = Some i /\ i <> [] /\ Unspaced i /\ ~ In #"#" i;
  re_text : IfSome Clean (el_text e);
  re_name : IfSome (fun x => match x with AVal s => Clean s /\ ~ Reserved s | ANoAssertion => True end) (el_name e);
  re_xrefs : NoDup (el_xrefs e);
  re_comment_clean : IfSome Clean (el_comment e) }.
Record RdfDocRef (ns : pystr) (r : ext_doc_ref) : Prop := {
  rx_id : Prefixed $"DocumentRef-" DocRefChar (edr_id r);
  rx_uri : Clean (edr_uri r);
  rx_hash : ~ In #"#" (edr_uri r);
  rx_other : edr_uri r <> ns;
  rx_checksum : Clean (ck_value (edr_checksum r)) }.
(** a namespace that cannot be confused with the vocabularies *)
Record RdfNamespace (ns : pystr) : Prop := {
  rn_colon : In #":" ns;
  rn_hash : ~ In #"#" ns;
  rn_license : forall t, ns <> LICENSE_NAMESPACE ++ t;
  rn_reference : forall t u, REFERENCE_NAMESPACE ++ t <> ns ++ u;
  rn_terms : ns <> $"http://spdx.org/rdf/terms" }.
Record RdfCreationInfo (c : creation_info) : Prop := {
  rc_version : Clean (ci_version c);
  rc_id : RdfId (ci_id c);
  rc_name : Clean (ci_name c);
  rc_namespace : RdfNamespace (ci_namespace c);
  rc_creators : ci_creators c <> [] /\ NoDup (ci_creators c) /\ Forall ReadableActor (ci_creators c);
  rc_created : PlainDate (ci_created c);
  rc_creator_comment : IfSome Clean (ci_creator_comment c);
  rc_refs : Forall (RdfDocRef (ci_namespace c)) (ci_refs c) /\ NoDup (map edr_id (ci_refs c));
  rc_doc_comment : IfSome Clean (ci_doc_comment c) }.
(** the ids of everything in the document *)
Definition ids_in (d : document) : list pystr :=
  ci_id (do_ci d) :: map edr_id (ci_refs (do_ci d)) ++ map pk_id (do_packages d) ++ map fi_id (do_files d)
  ++ map sn_id (do_snippets d) ++ flat_map (fun e => match el_id e with Some i => [i] | None => [] end) (do_extracted d).
Record RdfDocument (O : oracles) (d : document) : Prop := {
  rd_ci : RdfCreationInfo (do_ci d);
  rd_packages : Forall (RdfPackage O) (do_packages d);
  rd_files : Forall (RdfFile O) (do_files d);
  rd_snippets : Forall (RdfSnippet O (ci_refs (do_ci d))) (do_snippets d);
  rd_annotations : Forall (RdfAnnotation (ci_refs (do_ci d))) (do_annotations d);
  rd_relationships : Forall (RdfRelationship (ci_refs (do_ci d))) (do_relationships d);
  rd_extracted : Forall RdfExtracted (do_extracted d);
  rd_distinct : NoDup (ids_in d) }.

(** ** What the RDF library does on such documents *)
Record RdfLibrary (L : rdf_library) (ns : pystr) : Prop := {
  rl_fragment : forall x, Unspaced x -> r_fragment L (ns ++ $"#" ++ x) = Ok x;
  rl_defrag : forall x, Unspaced x -> r_defrag L (ns ++ $"#" ++ x) = Ok (ns, x);
  rl_true : r_value L XSD_boolean $"true" = VBool true;
  rl_false : r_value L XSD_boolean $"false" = VBool false;
  rl_int : forall z, r_value L XSD_integer (str_of_Z z) = VInt z;
  rl_depth : 4 <= r_depth L }.
(** ids of elements of external documents are shortened with the prefix bound to the namespace, whatever the order in
    which the prefixes have been bound *)
Definition Shortens (L : rdf_library) (bound : list (pystr * pystr)) (refs : list ext_doc_ref) : Prop :=
  forall refs' r b, Permutation refs refs' -> In r refs -> RdfId b ->
  r_normalize L (bound ++ map (fun r => (edr_id r, edr_uri r ++ $"#")) refs') (edr_uri r ++ $"#" ++ b)
  = edr_id r ++ $":" ++ b.

(** ** Which documents can be written *)
Definition dates (d : document) : list datetime :=
  let opt o := match o with Some x => [x] | None => [] end in
  ci_created (do_ci d) :: map an_date (do_annotations d)
  ++ flat_map (fun p => opt (pk_release p) ++ opt (pk_built p) ++ opt (pk_valid_until p)) (do_packages d).
(** the moment, in UTC, lies in the years 1 to 9999 *)
Definition InTime (d : datetime) : Prop := exists t, Instant d t /\ (0 <= t < END_OF_TIME)%Z.
Definition Writable (d : document) : Prop :=
  Forall InTime (dates d) /\ Forall (fun s => sn_lines s <> None) (do_snippets d).
