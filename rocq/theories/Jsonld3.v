(** The instances of the classes of spdx3/model (Typing3.v) as the JSON-LD converter (Jsonld.v) meets them. *)
From Verif Require Import Py Data Oracles Basics Json DocUtils Payload Typing Typing3 Jsonld.

(** ** The enumerations of spdx3/model: their members *)
(** ai/ai_package.py:17-21 *)
Definition M_SafetyRiskAssessmentType : list pystr :=
  [$"SERIOUS"; $"HIGH"; $"MEDIUM"; $"LOW"].
(** annotation.py:14-16 *)
Definition M_AnnotationType : list pystr :=
  [$"REVIEW"; $"OTHER"].
(** dataset/dataset.py:17-31 *)
Definition M_DatasetType : list pystr :=
  [$"STRUCTURED"; $"NUMERIC"; $"TEXT"; $"CATEGORICAL"; $"GRAPH"; $"TIMESERIES"; $"TIMESTAMP"; $"SENSOR"; $"IMAGE"; $"SYNTACTIC"; $"AUDIO";
   $"VIDEO"; $"OTHER"; $"NO_ASSERTION"].
(** dataset/dataset.py:34-38 *)
Definition M_ConfidentialityLevelType : list pystr :=
  [$"RED"; $"AMBER"; $"GREEN"; $"CLEAR"].
(** dataset/dataset.py:41-46 *)
Definition M_DatasetAvailabilityType : list pystr :=
  [$"DIRECT_DOWNLOAD"; $"SCRAPING_SCRIPT"; $"QUERY"; $"CLICKTHROUGH"; $"REGISTRATION"].
(** external_identifier.py:13-24 *)
Definition M_ExternalIdentifierType : list pystr :=
  [$"CPE22"; $"CPE23"; $"CVE"; $"EMAIL"; $"GITOID"; $"PURL"; $"SECURITY_OTHER"; $"SWHID"; $"SWID"; $"URL_SCHEME"; $"OTHER"].
(** external_reference.py:13-51 *)
Definition M_ExternalReferenceType : list pystr :=
  [$"ALT_DOWNLOAD_LOCATION"; $"ALT_WEB_PAGE"; $"BINARY_ARTIFACT"; $"BUILD_META"; $"BUILD_SYSTEM"; $"CERTIFICATION_REPORT"; $"CHAT";
   $"COMPONENT_ANALYSIS_REPORT"; $"DOCUMENTATION"; $"DYNAMIC_ANALYSIS_REPORT"; $"EOL_NOTICE"; $"FUNDING"; $"ISSUE_TRACKER"; $"LICENSE";
   $"MAILING_LIST"; $"METRICS"; $"OTHER"; $"PRODUCT_METADATA"; $"QUALITY_ASSESSMENT_REPORT"; $"RELEASE_HISTORY"; $"RELEASE_NOTES";
   $"RISK_ASSESSMENT"; $"RUNTIME_ANALYSIS_REPORT"; $"SECURE_SOFTWARE_ATTESTATION"; $"SECURITY_ADVERSARY_MODEL"; $"SECURITY_ADVISORY";
   $"SECURITY_FIX"; $"SECURITY_OTHER"; $"SECURITY_PEN_TEST_REPORT"; $"SECURITY_POLICY"; $"SECURITY_THREAT_MODEL"; $"SOCIAL_MEDIA";
   $"SOURCE_ARTIFACT"; $"STATIC_ANALYSIS_REPORT"; $"SUPPORT"; $"VCS"; $"VULNERABILITY_DISCLOSURE_REPORT";
   $"VULNERABILITY_EXPLOITABILITY_ASSESSMENT"].
(** hash.py:13-37 *)
Definition M_HashAlgorithm : list pystr :=
  [$"BLAKE2B256"; $"BLAKE2B384"; $"BLAKE2B512"; $"BLAKE3"; $"CRYSTALS_KYBER"; $"CRYSTALS_DILITHIUM"; $"FALCON"; $"MD2"; $"MD4"; $"MD5";
   $"MD6"; $"OTHER"; $"SHA1"; $"SHA224"; $"SHA256"; $"SHA3_224"; $"SHA3_256"; $"SHA3_384"; $"SHA3_512"; $"SHA384"; $"SHA512";
   $"SPDXPVCSHA1"; $"SPDXPVCSHA256"; $"SPHINCS_PLUS"].
(** lifecycle_scoped_relationship.py:22-28 *)
Definition M_LifecycleScopeType : list pystr :=
  [$"DESIGN"; $"BUILD"; $"DEVELOPMENT"; $"TEST"; $"RUNTIME"; $"OTHER"].
(** profile_identifier.py:7-16 *)
Definition M_ProfileIdentifierType : list pystr :=
  [$"CORE"; $"SOFTWARE"; $"LICENSING"; $"SECURITY"; $"BUILD"; $"AI"; $"DATASET"; $"USAGE"; $"EXTENSION"].
(** relationship.py:15-77 *)
Definition M_RelationshipType : list pystr :=
  [$"AFFECTS"; $"AMENDS"; $"ANCESTOR"; $"AVAILABLE_FROM"; $"BUILD_DEPENDENCY"; $"BUILD_TOOL"; $"COORDINATED_BY"; $"CONTAINS"; $"CONFIG_OF";
   $"COPY"; $"DATA_FILE"; $"DEPENDENCY_MANIFEST"; $"DEPENDS_ON"; $"DESCENDANT"; $"DESCRIBES"; $"DEV_DEPENDENCY"; $"DEV_TOOL";
   $"DISTRIBUTION_ARTIFACT"; $"DOCUMENTATION"; $"DOES_NOT_AFFECT"; $"DYNAMIC_LINK"; $"EXAMPLE"; $"EVIDENCE_FOR"; $"EXPANDED_FROM_ARCHIVE";
   $"EXPLOIT_CREATED_BY"; $"FILE_ADDED"; $"FILE_DELETED"; $"FILE_MODIFIED"; $"FIXED_BY"; $"FIXED_IN"; $"FOUND_BY"; $"GENERATES";
   $"HAS_ASSESSMENT_FOR"; $"HAS_ASSOCIATED_VULNERABILITY"; $"HOST_OF"; $"INPUT_OF"; $"INVOKED_BY"; $"METAFILE"; $"ON_BEHALF_OF";
   $"OPTIONAL_COMPONENT"; $"OPTIONAL_DEPENDENCY"; $"OTHER"; $"OUTPUT_OF"; $"PACKAGES"; $"PATCH"; $"PREREQUISITE"; $"PROVIDED_DEPENDENCY";
   $"PUBLISHED_BY"; $"REPORTED_BY"; $"REPUBLISHED_BY"; $"REQUIREMENT_FOR"; $"RUNTIME_DEPENDENCY"; $"SPECIFICATION_FOR"; $"STATIC_LINK";
   $"TEST"; $"TEST_CASE"; $"TEST_DEPENDENCY"; $"TEST_TOOL"; $"TESTED_ON"; $"TRAINED_ON"; $"UNDER_INVESTIGATION_FOR"; $"VARIANT"].
(** relationship.py:80-83 *)
Definition M_RelationshipCompleteness : list pystr :=
  [$"INCOMPLETE"; $"COMPLETE"; $"NOASSERTION"].
(** security/exploit_catalog_vuln_assessment_relationship.py:22-24 *)
Definition M_ExploitCatalogType : list pystr :=
  [$"KEV"; $"OTHER"].
(** security/ssvc_vuln_assessment_relationship.py:22-26 *)
Definition M_SsvcDecisionType : list pystr :=
  [$"ACT"; $"ATTEND"; $"TRACK"; $"TRACK_STAR"].
(** security/vex_not_affected_vuln_assessment_relationship.py:22-27 *)
Definition M_VexJustificationType : list pystr :=
  [$"COMPONENT_NOT_PRESENT"; $"VULNERABLE_CODE_NOT_PRESENT"; $"VULNERABLE_CODE_CANNOT_BE_CONTROLLED_BY_ADVERSARY";
   $"VULNERABLE_CODE_NOT_IN_EXECUTE_PATH"; $"INLINE_MITIGATIONS_ALREADY_EXIST"].
(** software/sbom.py:22-28 *)
Definition M_SBOMType : list pystr :=
  [$"DESIGN"; $"SOURCE"; $"BUILD"; $"DEPLOYED"; $"RUNTIME"; $"ANALYZED"].
(** software/software_dependency_relationship.py:23-27 *)
Definition M_SoftwareDependencyLinkType : list pystr :=
  [$"STATIC"; $"DYNAMIC"; $"TOOL"; $"OTHER"].
(** software/software_dependency_relationship.py:30-35 *)
Definition M_DependencyConditionalityType : list pystr :=
  [$"OPTIONAL"; $"REQUIRED"; $"PROVIDED"; $"PREREQUISITE"; $"OTHER"].
(** software/software_purpose.py:7-29 *)
Definition M_SoftwarePurpose : list pystr :=
  [$"APPLICATION"; $"ARCHIVE"; $"BOM"; $"CONFIGURATION"; $"CONTAINER"; $"DATA"; $"DEVICE"; $"DOCUMENTATION"; $"EXECUTABLE"; $"FILE";
   $"FIRMWARE"; $"FRAMEWORK"; $"INSTALL"; $"LIBRARY"; $"MODEL"; $"MODULE"; $"OPERATING_SYSTEM"; $"OTHER"; $"PATCH"; $"REQUIREMENT";
   $"SOURCE"; $"TEST"].
Definition enumerations3 : list (pystr * list pystr) :=
  [($"SafetyRiskAssessmentType", M_SafetyRiskAssessmentType); ($"AnnotationType", M_AnnotationType); ($"DatasetType", M_DatasetType);
   ($"ConfidentialityLevelType", M_ConfidentialityLevelType); ($"DatasetAvailabilityType", M_DatasetAvailabilityType);
   ($"ExternalIdentifierType", M_ExternalIdentifierType); ($"ExternalReferenceType", M_ExternalReferenceType);
   ($"HashAlgorithm", M_HashAlgorithm); ($"LifecycleScopeType", M_LifecycleScopeType); ($"ProfileIdentifierType", M_ProfileIdentifierType);
   ($"RelationshipType", M_RelationshipType); ($"RelationshipCompleteness", M_RelationshipCompleteness);
   ($"ExploitCatalogType", M_ExploitCatalogType); ($"SsvcDecisionType", M_SsvcDecisionType);
   ($"VexJustificationType", M_VexJustificationType); ($"SBOMType", M_SBOMType);
   ($"SoftwareDependencyLinkType", M_SoftwareDependencyLinkType); ($"DependencyConditionalityType", M_DependencyConditionalityType);
   ($"SoftwarePurpose", M_SoftwarePurpose)].

(** A member of an enumeration is a [VObj] with its name, a semantic_version.Version one with its text. *)
Definition name_of (i : instance) (f : pystr) : pystr := match assoc f i with Some (VStr s) => s | _ => [] end.

(** An instance: its attributes are the values of its fields, in the order in which they were set; the name of the attribute for a field f is
    _f (common/typing/dataclass_with_properties.py:28, 36).  No field of spdx3/model has license expressions of SPDX 2 or tuples as values. *)
Fixpoint object_of (v : pyval) : pyobj :=
  match v with
  | VNone | VLicense _ | VTuple _ => XNone
  | VBool b => XBool b
  | VInt z => XInt z
  | VFloat r => XFloat r
  | VStr s => XStr s
  | VDatetime d => XDate d
  | VList l => XList (map object_of l)
  | VDict l => XDict (map (fun kv => (object_of (fst kv), object_of (snd kv))) l)
  | VObj c i =>
      if str_in c (map fst enumerations3) then XEnum (name_of i $"name")
      else if str_eqb c $"Version" then XVersion (name_of i $"str")
      else XObj c (map (fun fv => ($"_" ++ fst fv, object_of (snd fv))) i)
  end.

(** json_ld_converter.py:17-24  the elements of a payload, in its order *)
Definition convert_elements (elements : list pyval) : result (list json) :=
  map_result (fun v => convert_to_json_ld (object_of v)) elements.
