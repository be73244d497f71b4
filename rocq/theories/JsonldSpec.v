(** What a JSON-LD file of an SPDX 3 payload has to contain, stated without the functions of the converter. *)
From Verif Require Import Py Data Oracles Basics Json DocUtils Payload Bump.

(** * The words for the members of the enumerations *)
(** HashAlgorithm *)
Definition hash_words : list (pystr * pystr) :=
  [($"BLAKE2B256", $"blake2B256"); ($"BLAKE2B384", $"blake2B384"); ($"BLAKE2B512", $"blake2B512");
   ($"BLAKE3", $"blake3"); ($"CRYSTALS_KYBER", $"crystalsKyber"); ($"CRYSTALS_DILITHIUM", $"crystalsDilithium");
   ($"FALCON", $"falcon"); ($"MD2", $"md2"); ($"MD4", $"md4"); ($"MD5", $"md5"); ($"MD6", $"md6");
   ($"OTHER", $"other"); ($"SHA1", $"sha1"); ($"SHA224", $"sha224"); ($"SHA256", $"sha256");
   ($"SHA3_224", $"sha3224"); ($"SHA3_256", $"sha3256"); ($"SHA3_384", $"sha3384"); ($"SHA3_512", $"sha3512");
   ($"SHA384", $"sha384"); ($"SHA512", $"sha512"); ($"SPDXPVCSHA1", $"spdxpvcsha1");
   ($"SPDXPVCSHA256", $"spdxpvcsha256"); ($"SPHINCS_PLUS", $"sphincsPlus")].
(** SoftwarePurpose *)
Definition purpose_words : list (pystr * pystr) :=
  [($"APPLICATION", $"application"); ($"ARCHIVE", $"archive"); ($"BOM", $"bom");
   ($"CONFIGURATION", $"configuration"); ($"CONTAINER", $"container"); ($"DATA", $"data"); ($"DEVICE", $"device");
   ($"DOCUMENTATION", $"documentation"); ($"EXECUTABLE", $"executable"); ($"FILE", $"file");
   ($"FIRMWARE", $"firmware"); ($"FRAMEWORK", $"framework"); ($"INSTALL", $"install"); ($"LIBRARY", $"library");
   ($"MODEL", $"model"); ($"MODULE", $"module"); ($"OPERATING_SYSTEM", $"operatingSystem"); ($"OTHER", $"other");
   ($"PATCH", $"patch"); ($"REQUIREMENT", $"requirement"); ($"SOURCE", $"source"); ($"TEST", $"test")].
(** AnnotationType *)
Definition annotation_words : list (pystr * pystr) :=
  [($"REVIEW", $"review"); ($"OTHER", $"other")].
(** ExternalIdentifierType, as far as the conversion uses it *)
Definition identifier_words : list (pystr * pystr) :=
  [($"CPE22", $"cpe22"); ($"CPE23", $"cpe23"); ($"EMAIL", $"email"); ($"GITOID", $"gitoid"); ($"PURL", $"purl");
   ($"SWHID", $"swhid"); ($"SWID", $"swid")].
(** ExternalReferenceType, as far as the conversion uses it *)
Definition reference_words : list (pystr * pystr) :=
  [($"SECURITY_ADVISORY", $"securityAdvisory"); ($"SECURITY_FIX", $"securityFix")].
(** RelationshipType, as far as the conversion uses it *)
Definition relationship_words : list (pystr * pystr) :=
  [($"AMENDS", $"amends"); ($"ANCESTOR", $"ancestor"); ($"CONTAINS", $"contains"); ($"COPY", $"copy");
   ($"DEPENDS_ON", $"dependsOn"); ($"DESCRIBES", $"describes"); ($"DOCUMENTATION", $"documentation");
   ($"EXAMPLE", $"example"); ($"EXPANDED_FROM_ARCHIVE", $"expandedFromArchive"); ($"FILE_ADDED", $"fileAdded");
   ($"FILE_DELETED", $"fileDeleted"); ($"FILE_MODIFIED", $"fileModified"); ($"GENERATES", $"generates");
   ($"METAFILE", $"metafile"); ($"OTHER", $"other"); ($"PATCH", $"patch"); ($"REQUIREMENT_FOR", $"requirementFor");
   ($"SPECIFICATION_FOR", $"specificationFor"); ($"TEST", $"test"); ($"TEST_CASE", $"testCase");
   ($"VARIANT", $"variant")].
(** RelationshipCompleteness, as far as the conversion uses it *)
Definition completeness_words : list (pystr * pystr) :=
  [($"COMPLETE", $"complete"); ($"NOASSERTION", $"noassertion")].
(** LifecycleScopeType, as far as the conversion uses it *)
Definition scope_words : list (pystr * pystr) :=
  [($"BUILD", $"build"); ($"DEVELOPMENT", $"development"); ($"RUNTIME", $"runtime"); ($"TEST", $"test")].
(** SoftwareDependencyLinkType, as far as the conversion uses it *)
Definition linkage_words : list (pystr * pystr) :=
  [($"STATIC", $"static"); ($"DYNAMIC", $"dynamic"); ($"TOOL", $"tool")].
(** DependencyConditionalityType, as far as the conversion uses it *)
Definition condition_words : list (pystr * pystr) :=
  [($"OPTIONAL", $"optional"); ($"PREREQUISITE", $"prerequisite"); ($"PROVIDED", $"provided");
   ($"REQUIRED", $"required")].

(** * Fields *)
(** A field without a value, an empty text, the number 0 and an empty list are left out. *)
Definition text (s : pystr) : option json := match s with [] => None | _ => Some (JStr s) end.
Definition text_if (o : option pystr) : option json := match o with Some s => text s | None => None end.
Definition number (z : Z) : option json := match z with Z0 => None | _ => Some (JInt z) end.
Definition array (l : list json) : option json := match l with [] => None | _ => Some (JArr l) end.
(** a list of texts; empty texts in it are left out *)
Definition texts (l : list pystr) : option json :=
  match l with
  | [] => None
  | _ => Some (JArr (map JStr (filter (fun s => match s with [] => false | _ => true end) l)))
  end.
(** a member of an enumeration *)
Definition word (words : list (pystr * pystr)) (name : pystr) : option json := option_map JStr (assoc name words).
Definition word_if (words : list (pystr * pystr)) (o : option pystr) : option json :=
  match o with Some n => word words n | None => None end.
(** a point in time, as datetime_to_iso_string writes it *)
Inductive Time : option datetime -> option json -> Prop :=
| no_time : Time None None
| time d s : datetime_to_iso_string d = Ok s -> Time (Some d) (Some (JStr s)).

(** an object: its class and those fields that have a value *)
Definition object (cls : pystr) (fields : list (pystr * option json)) : json :=
  JObj (($"@type", JStr cls) ::
        flat_map (fun f => match snd f with Some j => [(fst f, j)] | None => [] end) fields).

(** * Objects inside the elements *)
Definition hash_entry (h : hash3) : json :=
  object $"Hash" [($"algorithm", word hash_words (h3_alg h)); ($"hashValue", text (h3_value h))].
Definition reference_entry (r : extref3) : json :=
  object $"ExternalReference" [($"externalReferenceType", word reference_words (xr_type r)); ($"locator", texts (xr_locator r));
                               ($"comment", text_if (xr_comment r))].
Definition identifier_entry (i : extid3) : json :=
  object $"ExternalIdentifier" [($"externalIdentifierType", word identifier_words (xi_type i));
                                ($"identifier", text (xi_identifier i)); ($"comment", text_if (xi_comment i))].
Definition namespace_entry (m : nsmap3) : json :=
  object $"NamespaceMap" [($"prefix", text (nm_prefix m)); ($"namespace", text (nm_namespace m))].
Definition import_entry (m : extmap3) : json :=
  object $"ExternalMap" [($"externalId", text (em_id m)); ($"verifiedUsing", array (map hash_entry (em_verified m)));
                         ($"definingDocument", text_if (em_defining m))].
Definition range_entry (r : option (Z * Z)) : option json :=
  match r with
  | Some (b, e) => Some (object $"PositiveIntegerRange" [($"begin", number b); ($"end", number e)])
  | None => None
  end.

(** the creation info at an address; none if there is none *)
Inductive Creation (st : bstate) : option nat -> option json -> Prop :=
| no_creation : Creation st None None
| creation a c t : nth_error (b_cis st) a = Some c -> Time (Some (c3_created c)) t ->
    Creation st (Some a) (Some (object $"CreationInfo"
      [($"specVersion", text $"3.0.0"); ($"created", t); ($"createdBy", texts (c3_created_by c));
       ($"profile", texts [$"core"; $"software"; $"licensing"]); ($"dataLicense", text (c3_data_license c));
       ($"createdUsing", texts (c3_created_using c))])).

(** * Elements *)
Inductive Entry (st : bstate) : element3 -> json -> Prop :=
| actor_entry a ci : Creation st (a3_ci a) ci ->
    Entry st (E3Actor a)
      (object (match a3_kind a with AT_PERSON => $"Person" | AT_ORGANIZATION => $"Organization" | AT_TOOL => $"Tool" end)
        [($"@id", text (a3_id a)); ($"creationInfo", ci); ($"name", text (a3_name a));
         ($"externalIdentifier", array (map identifier_entry (a3_extids a)))])
| package_entry p built release valid_until :
    Time (p3_built p) built -> Time (p3_release p) release -> Time (p3_valid_until p) valid_until ->
    Entry st (E3Package p)
      (object $"Package"
        [($"@id", text (p3_id p)); ($"name", text (p3_name p)); ($"summary", text_if (p3_summary p));
         ($"description", text_if (p3_description p)); ($"comment", text_if (p3_comment p));
         ($"verifiedUsing", array (map hash_entry (p3_verified p)));
         ($"externalReference", array (map reference_entry (p3_extrefs p)));
         ($"externalIdentifier", array (map identifier_entry (p3_extids p)));
         ($"originatedBy", texts (p3_originated p)); ($"suppliedBy", texts (p3_supplied p));
         ($"builtTime", built); ($"releaseTime", release); ($"validUntilTime", valid_until);
         ($"primaryPurpose", word_if purpose_words (p3_purpose p)); ($"copyrightText", text_if (p3_copyright p));
         ($"attributionText", text (p3_attribution p)); ($"packageVersion", text_if (p3_version p));
         ($"downloadLocation", text_if (p3_download p)); ($"packageUrl", text_if (p3_purl p));
         ($"homepage", text_if (p3_homepage p)); ($"sourceInfo", text_if (p3_source_info p))])
| file_entry f :
    Entry st (E3File f)
      (object $"File"
        [($"@id", text (f3_id f)); ($"name", text (f3_name f)); ($"comment", text_if (f3_comment f));
         ($"verifiedUsing", array (map hash_entry (f3_verified f))); ($"copyrightText", text_if (f3_copyright f));
         ($"attributionText", text (f3_attribution f))])
| snippet_entry s :
    Entry st (E3Snippet s)
      (object $"Snippet"
        [($"@id", text (s3_id s)); ($"name", text_if (s3_name s)); ($"comment", text_if (s3_comment s));
         ($"copyrightText", text_if (s3_copyright s)); ($"attributionText", text (s3_attribution s));
         ($"byteRange", range_entry (s3_bytes s)); ($"lineRange", range_entry (s3_lines s))])
| relationship_entry r :
    r3_dependency r = false ->
    Entry st (E3Relationship r)
      (object $"Relationship"
        [($"@id", text (r3_id r)); ($"comment", text_if (r3_comment r)); ($"from", text (r3_from r)); ($"to", texts (r3_to r));
         ($"relationshipType", word relationship_words (r3_type r));
         ($"completeness", word_if completeness_words (r3_completeness r))])
| dependency_entry r :
    r3_dependency r = true ->
    Entry st (E3Relationship r)
      (object $"SoftwareDependencyRelationship"
        [($"@id", text (r3_id r)); ($"comment", text_if (r3_comment r)); ($"from", text (r3_from r)); ($"to", texts (r3_to r));
         ($"relationshipType", word relationship_words (r3_type r));
         ($"completeness", word_if completeness_words (r3_completeness r)); ($"scope", word_if scope_words (r3_scope r));
         ($"softwareLinkage", word_if linkage_words (r3_linkage r));
         ($"conditionality", word_if condition_words (r3_conditionality r))])
| annotation_entry a ci : Creation st (Some (n3_ci a)) ci ->
    Entry st (E3Annotation a)
      (object $"Annotation"
        [($"@id", text (n3_id a)); ($"creationInfo", ci); ($"annotationType", word annotation_words (n3_type a));
         ($"subject", text (n3_subject a)); ($"statement", text (n3_statement a))])
| document_entry d ci : Creation st (Some (d3_ci d)) ci ->
    Entry st (E3Document d)
      (object $"SpdxDocument"
        [($"@id", text (d3_id d)); ($"creationInfo", ci); ($"name", text (d3_name d)); ($"comment", text_if (d3_comment d));
         ($"element", texts (d3_element d)); ($"rootElement", texts (d3_root d));
         ($"namespaces", array (map namespace_entry (d3_namespaces d)));
         ($"imports", array (map import_entry (d3_imports d)))]).

(** * Payloads *)
(** the elements of a payload, in the order in which its map has their ids *)
Definition PayloadElements (st : bstate) (es : list element3) : Prop :=
  Forall2 (fun i e => get_element st i = Ok e) (map fst (b_map st)) es.

(** the points in time that a document gives *)
Definition times (d : document) : list datetime :=
  let given (o : option datetime) := match o with Some t => [t] | None => [] end in
  ci_created (do_ci d) :: map an_date (do_annotations d)
  ++ flat_map (fun p => given (pk_built p) ++ given (pk_release p) ++ given (pk_valid_until p)) (do_packages d).
Definition CanBeWritten (t : datetime) : Prop := exists s, datetime_to_iso_string t = Ok s.
