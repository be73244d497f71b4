(** What the conversion to SPDX 3 has to do, stated without the functions of the model. *)
From Verif Require Import Py Data Oracles DocUtils Payload Bump.

(** * Payload *)

(** add_element calls on one payload, in order: the id and the element of each call *)
Definition adds (h : dicts) (p : nat) (calls : list (pystr * nat)) : dicts :=
  fold_left (fun h c => payload_add h p (fst c) (snd c)) calls h.

(** the element of the last call with this id *)
Inductive LastAdded (id : pystr) (e : nat) (calls : list (pystr * nat)) : Prop :=
| last_added before after : calls = before ++ (id, e) :: after -> ~ In id (map fst after) -> LastAdded id e calls.

(** * Relationships *)

(** The name of the SPDX 3 relationship type that a type of SPDX 2 is converted to; None: there is none. *)
Definition type3 (t : rel_type) : option pystr :=
  match t with
  | RT_AMENDS => Some $"AMENDS"
  | RT_ANCESTOR_OF | RT_DESCENDANT_OF => Some $"ANCESTOR"
  | RT_CONTAINED_BY | RT_CONTAINS => Some $"CONTAINS"
  | RT_COPY_OF => Some $"COPY"
  | RT_DESCRIBED_BY | RT_DESCRIBES => Some $"DESCRIBES"
  | RT_DOCUMENTATION_OF => Some $"DOCUMENTATION"
  | RT_EXAMPLE_OF => Some $"EXAMPLE"
  | RT_EXPANDED_FROM_ARCHIVE => Some $"EXPANDED_FROM_ARCHIVE"
  | RT_FILE_ADDED => Some $"FILE_ADDED"
  | RT_FILE_DELETED => Some $"FILE_DELETED"
  | RT_FILE_MODIFIED => Some $"FILE_MODIFIED"
  | RT_GENERATED_FROM | RT_GENERATES => Some $"GENERATES"
  | RT_METAFILE_OF => Some $"METAFILE"
  | RT_OTHER => Some $"OTHER"
  | RT_PATCH_APPLIED | RT_PATCH_FOR => Some $"PATCH"
  | RT_TEST_CASE_OF => Some $"TEST_CASE"
  | RT_TEST_OF => Some $"TEST"
  | RT_VARIANT_OF => Some $"VARIANT"
  | RT_REQUIREMENT_DESCRIPTION_FOR => Some $"REQUIREMENT_FOR"
  | RT_SPECIFICATION_FOR => Some $"SPECIFICATION_FOR"
  | RT_DATA_FILE_OF | RT_DISTRIBUTION_ARTIFACT | RT_OPTIONAL_COMPONENT_OF => None
  | RT_BUILD_DEPENDENCY_OF | RT_BUILD_TOOL_OF | RT_DEPENDENCY_MANIFEST_OF | RT_DEPENDENCY_OF | RT_DEPENDS_ON
  | RT_DEV_DEPENDENCY_OF | RT_DEV_TOOL_OF | RT_DYNAMIC_LINK | RT_HAS_PREREQUISITE | RT_OPTIONAL_DEPENDENCY_OF
  | RT_PACKAGE_OF | RT_PREREQUISITE_FOR | RT_PROVIDED_DEPENDENCY_OF | RT_RUNTIME_DEPENDENCY_OF | RT_STATIC_LINK
  | RT_TEST_DEPENDENCY_OF | RT_TEST_TOOL_OF => Some $"DEPENDS_ON"
  end.

(** The types that are documented to change direction: "A t B" is "B t' A" in SPDX 3. *)
Definition turned_around (t : rel_type) : Prop :=
  In t [RT_CONTAINED_BY; RT_DEPENDENCY_OF; RT_DESCENDANT_OF; RT_DESCRIBED_BY; RT_GENERATED_FROM; RT_PATCH_APPLIED].

(** The types for which "A t B" says that B depends on A (SPDX 2.3, clause 11.1, table 68). *)
Definition names_a_dependency (t : rel_type) : Prop :=
  In t [RT_DEPENDENCY_OF; RT_BUILD_DEPENDENCY_OF; RT_DEV_DEPENDENCY_OF; RT_OPTIONAL_DEPENDENCY_OF;
        RT_PROVIDED_DEPENDENCY_OF; RT_RUNTIME_DEPENDENCY_OF; RT_TEST_DEPENDENCY_OF; RT_PREREQUISITE_FOR].

(** the id of an element of the document in SPDX 3 *)
Definition here (ns id : pystr) : pystr := ns ++ $"#" ++ id.
(** the ids that the conversion makes up *)
Definition relationship_id (ns : pystr) (i : nat) : pystr := here ns ($"SPDXRef-Relationship-" ++ str_of_N (N.of_nat i)).
Definition annotation_id (ns : pystr) (i : nat) : pystr := here ns ($"SPDXRef-Annotation-" ++ str_of_N (N.of_nat i)).
Definition actor_id (ns : pystr) (a : actor) : pystr :=
  here ns ($"SPDXRef-Actor-" ++ remove_ws (ac_name a) ++
           match ac_email a with Some ((_ :: _) as e) => $"-" ++ e | _ => [] end).

(** the single conversions of the relationships of a document, in order *)
Fixpoint converted_from (ns : pystr) (i : nat) (rs : list relationship) : list rel3 :=
  match rs with
  | [] => []
  | r :: rs' => match bump_relationship r ns i with Some x => [x] | None => [] end ++ converted_from ns (S i) rs'
  end.
Definition converted (d : document) : list rel3 := converted_from (ci_namespace (do_ci d)) 0 (do_relationships d).

(** relationships that may be merged: the same origin and type *)
Definition same_group (x y : rel3) : Prop := r3_from x = r3_from y /\ r3_type x = r3_type y.
(** a comment, which is not the empty string *)
Definition commented (x : rel3) : Prop := exists c s, r3_comment x = Some (c :: s).

(** the targets of the relationships in the group of x that have no comment, in order *)
Definition group_targets (x : rel3) (xs : list rel3) : list pystr :=
  flat_map r3_to
    (filter (fun y => str_eqb (r3_from x) (r3_from y) && str_eqb (r3_type x) (r3_type y)
                      && negb (truthy_opt (r3_comment y))) xs).

(** * Checksums *)
Definition hash_name (a : checksum_alg) : pystr :=
  match a with
  | CA_SHA1 => $"SHA1" | CA_SHA224 => $"SHA224" | CA_SHA256 => $"SHA256" | CA_SHA384 => $"SHA384" | CA_SHA512 => $"SHA512"
  | CA_SHA3_256 => $"SHA3_256" | CA_SHA3_384 => $"SHA3_384" | CA_SHA3_512 => $"SHA3_512"
  | CA_BLAKE2B_256 => $"BLAKE2B256" | CA_BLAKE2B_384 => $"BLAKE2B384" | CA_BLAKE2B_512 => $"BLAKE2B512"
  | CA_BLAKE3 => $"BLAKE3" | CA_MD2 => $"MD2" | CA_MD4 => $"MD4" | CA_MD5 => $"MD5" | CA_MD6 => $"MD6"
  | CA_ADLER32 => $"OTHER"
  end.
Definition hash_of (c : checksum) : hash3 := {| h3_alg := hash_name (ck_alg c); h3_value := ck_value c |}.

(** * Licenses *)
Section Licenses.
  Variable O : oracles.
  Variable infos : list extracted.

  (** the license library knows this id *)
  Definition listed (key : pystr) : Prop := o_invalid_symbols O (LSym key) = [].

  (** the first extracted licensing info for an id, if there is one *)
  Inductive FirstInfo (key : pystr) : option extracted -> Prop :=
  | first_info before e after : infos = before ++ e :: after -> el_id e = Some key ->
      (forall x, In x before -> el_id x <> Some key) -> FirstInfo key (Some e)
  | no_info : (forall x, In x infos -> el_id x <> Some key) -> FirstInfo key None.

  (** name and text of an unlisted license: those of the extracted licensing info *)
  Definition info_name (o : option extracted) : pystr :=
    match o with
    | Some e => match el_name e with Some (AVal s) => s | Some ANoAssertion => $"NOASSERTION" | None => $"None" end
    | None => []
    end.
  Definition info_text (o : option extracted) : pystr :=
    match o with
    | Some e => match el_text e with Some s => s | None => $"None" end
    | None => []
    end.

  Inductive SymbolMeans (key : pystr) : any_license -> Prop :=
  | means_listed : listed key -> SymbolMeans key (ListedLicense key key $"blank")
  | means_custom o : ~ listed key -> FirstInfo key o -> SymbolMeans key (CustomLicense key (info_name o) (info_text o)).

  Inductive AdditionMeans (key : pystr) : license_addition -> Prop :=
  | adds_listed : listed key -> AdditionMeans key (ListedLicenseException key [] [])
  | adds_custom o : ~ listed key -> FirstInfo key o -> AdditionMeans key (CustomLicenseAddition key (info_name o) (info_text o)).

  (** an SPDX 3 license has the structure of a license expression *)
  Inductive Means : lexpr -> any_license -> Prop :=
  | means_symbol key l : SymbolMeans key l -> Means (LSym key) l
  | means_with key exc l a : SymbolMeans key l -> AdditionMeans exc a -> Means (LWith key exc) (WithAdditionOperator l a)
  | means_and es ls : Forall2 Means es ls -> Means (LAnd es) (ConjunctiveLicenseSet ls)
  | means_or es ls : Forall2 Means es ls -> Means (LOr es) (DisjunctiveLicenseSet ls).
End Licenses.

(** * Elements *)

(** NONE and NOASSERTION have no counterpart *)
Definition text_of (v : option (nn pystr)) : option pystr := match v with Some (NVal s) => Some s | _ => None end.

(** the kinds of external references of SPDX 2 that SPDX 3 knows as identifiers and as references *)
Definition identifier_kind (t : pystr) : option pystr :=
  assoc t [($"cpe22Type", $"CPE22"); ($"cpe23Type", $"CPE23"); ($"swid", $"SWID"); ($"purl", $"PURL");
           ($"swh", $"SWHID"); ($"gitoid", $"GITOID")].
Definition reference_kind (t : pystr) : option pystr :=
  assoc t [($"advisory", $"SECURITY_ADVISORY"); ($"fix", $"SECURITY_FIX")].

(** one purl without comment among the references *)
Definition OnlyPurl (refs : list ext_pkg_ref) (r : ext_pkg_ref) : Prop :=
  er_type r = $"purl" /\ er_comment r = None /\
  exists before after, refs = before ++ r :: after /\
    forall x, In x before \/ In x after -> er_type x <> $"purl".

(** the external references that become identifiers, and references, of the package *)
Definition identifiers (refs : list ext_pkg_ref) : list extid3 :=
  flat_map (fun r => match identifier_kind (er_type r) with
                     | Some k => [{| xi_type := k; xi_identifier := er_locator r; xi_comment := er_comment r |}]
                     | None => [] end) refs.
Definition references (refs : list ext_pkg_ref) : list extref3 :=
  flat_map (fun r => match reference_kind (er_type r) with
                     | Some k => [{| xr_type := k; xr_locator := [er_locator r]; xr_comment := er_comment r |}]
                     | None => [] end) refs.
Definition without_purls (refs : list ext_pkg_ref) : list ext_pkg_ref :=
  filter (fun r => negb (str_eqb (er_type r) $"purl")) refs.

(** the ids of the actors of a package *)
Definition actor_ids (ns : pystr) (a : option (na actor)) : list pystr :=
  match a with Some (AVal x) => [actor_id ns x] | _ => [] end.

(** an SPDX 3 package says what a package of SPDX 2 says *)
Record PackageSays (ns : pystr) (p : package) (x : package3) : Prop := {
  says_name : p3_name x = pk_name p;
  says_texts : p3_summary x = pk_summary p /\ p3_description x = pk_description p /\ p3_comment x = pk_comment p
               /\ p3_source_info x = pk_source_info p /\ p3_version x = pk_version p;
  says_hashes : p3_verified x = map hash_of (pk_checksums p);
  says_times : p3_built x = pk_built p /\ p3_release x = pk_release p /\ p3_valid_until x = pk_valid_until p;
  says_actors : p3_supplied x = actor_ids ns (pk_supplier p) /\ p3_originated x = actor_ids ns (pk_originator p);
  says_purpose : p3_purpose x = match pk_purpose p with Some u => Some (purpose_name u) | None => None end;
  says_locations : p3_download x = text_of (Some (pk_download p)) /\ p3_homepage x = text_of (pk_homepage p)
                   /\ p3_copyright x = text_of (pk_copyright p);
  says_attribution : p3_attribution x = join $", " (pk_attribution p);
  says_references : p3_extrefs x = references (pk_refs p);
  says_identifiers :
    (exists r, OnlyPurl (pk_refs p) r /\ p3_purl x = Some (er_locator r)
               /\ p3_extids x = identifiers (without_purls (pk_refs p)))
    \/ ((forall r, ~ OnlyPurl (pk_refs p) r) /\ p3_purl x = None /\ p3_extids x = identifiers (pk_refs p))
}.

Definition FileSays (f : file) (x : file3) : Prop :=
  f3_name x = fi_name f /\ f3_comment x = fi_comment f /\ f3_verified x = map hash_of (fi_checksums f)
  /\ f3_copyright x = text_of (fi_copyright f) /\ f3_attribution x = join $", " (fi_attribution f).

Definition SnippetSays (s : snippet) (x : snippet3) : Prop :=
  s3_name x = sn_name s /\ s3_comment x = sn_comment s /\ s3_bytes x = Some (sn_bytes s) /\ s3_lines x = sn_lines s
  /\ s3_copyright x = text_of (sn_copyright s) /\ s3_attribution x = join $", " (sn_attribution s).

(** The SPDX 3 ids of the packages, files and snippets of a document, in order. *)
Definition element_ids (d : document) : list pystr :=
  map pk_id (do_packages d) ++ map fi_id (do_files d) ++ map sn_id (do_snippets d).
Definition FullIds (d : document) (ids : list pystr) : Prop :=
  Forall2 (fun i full => get_full_element_spdx_id i (ci_namespace (do_ci d)) (ci_refs (do_ci d)) = Ok full)
          (element_ids d) ids.

(** an id that the conversion gives to a relationship or an annotation *)
Definition made_up (ns id : pystr) : Prop := (exists i, id = relationship_id ns i) \/ (exists i, id = annotation_id ns i).

(** the entry of the imports for an element whose id names another document, "DocumentRef-x:SPDXRef-y" *)
Definition import_of (id : pystr) : list extmap3 :=
  if has_char #":" id then [{| em_id := id; em_verified := []; em_defining := Some (hd [] (split_on #":" id) ++ $":SPDXRef-DOCUMENT") |}] else [].

(** what an actor of SPDX 3 says; [ci]: its creation info *)
Definition ActorSays (a : actor) (ci : option nat) (x : actor3) : Prop :=
  a3_kind x = ac_type a /\ a3_name x = ac_name a /\ a3_ci x = ci /\
  a3_extids x = match ac_email a with Some ((_ :: _) as e) => [{| xi_type := $"EMAIL"; xi_identifier := e; xi_comment := None |}] | _ => [] end.
Definition no_tool (a : actor) : bool := match ac_type a with AT_TOOL => false | _ => true end.

(** * The document *)
Definition document_id (d : document) : pystr := here (ci_namespace (do_ci d)) (ci_id (do_ci d)).
(** the elements that the document describes *)
Definition document_root (d : document) : list pystr :=
  map (fun r => here (ci_namespace (do_ci d)) (match re_related r with NVal s => s | NNoAssertion => $"NOASSERTION" | NNone => $"NONE" end))
      (filter (fun r => rel_type_eqb (re_type r) RT_DESCRIBES && str_eqb (re_id r) $"SPDXRef-DOCUMENT") (do_relationships d)).
(** the external document references *)
Definition refs_namespaces (refs : list ext_doc_ref) : list nsmap3 :=
  map (fun r => {| nm_prefix := edr_id r; nm_namespace := edr_uri r ++ $"#" |}) refs.
Definition refs_imports (refs : list ext_doc_ref) : list extmap3 :=
  map (fun r => {| em_id := edr_id r ++ $":SPDXRef-DOCUMENT"; em_verified := [hash_of (edr_checksum r)]; em_defining := None |}) refs.
(** the creation info of the document: persons and organizations create it, tools are used *)
Definition document_cinfo (d : document) : cinfo3 :=
  let c := do_ci d in
  {| c3_created := ci_created c; c3_created_by := map (actor_id (ci_namespace c)) (filter no_tool (ci_creators c));
     c3_created_using := map (actor_id (ci_namespace c)) (filter (fun a => negb (no_tool a)) (ci_creators c));
     c3_data_license := $"https://spdx.org/licenses/" ++ ci_data_license c |}.
(** the creation info of an annotation: that of the document with the date and the annotator *)
Definition annotation_cinfo (ns : pystr) (a : annotation) (c : cinfo3) : cinfo3 :=
  {| c3_created := an_date a; c3_created_by := if no_tool (an_annotator a) then [actor_id ns (an_annotator a)] else c3_created_by c;
     c3_created_using := c3_created_using c; c3_data_license := c3_data_license c |}.

(** what is in the payload under an id comes from the document *)
Definition ComesFrom (d : document) (i : pystr) (e : element3) : Prop :=
  let ns := ci_namespace (do_ci d) in
  let Full (id : pystr) := get_full_element_spdx_id id ns (ci_refs (do_ci d)) = Ok i in
  match e with
  | E3Package x => exists p, In p (do_packages d) /\ Full (pk_id p) /\ PackageSays ns p x
  | E3File x => exists f, In f (do_files d) /\ Full (fi_id f) /\ FileSays f x
  | E3Snippet x => exists s, In s (do_snippets d) /\ Full (sn_id s) /\ SnippetSays s x
  | E3Relationship m => exists x, In x (converted d) /\ same_group x m
  | E3Annotation x => exists j a, nth_error (do_annotations d) j = Some a /\ i = annotation_id ns j /\ n3_type x = annotation_type_name (an_type a)
                        /\ n3_subject x = here ns (an_id a) /\ n3_statement x = an_comment a
  | _ => True
  end.

(** a document that can be converted: all ids of elements can be resolved, and no homepage is NONE or NOASSERTION *)
Definition Convertible (d : document) : Prop :=
  (forall i, In i (element_ids d) -> exists full, get_full_element_spdx_id i (ci_namespace (do_ci d)) (ci_refs (do_ci d)) = Ok full)
  /\ (forall p, In p (do_packages d) -> pk_homepage p <> Some NNone /\ pk_homepage p <> Some NNoAssertion).
