(** Specification of C67: sound instances of the classes of spdx3/model and what JSON-LD shows of them. *)
From Verif Require Import Py Data Oracles Basics Json DocUtils Payload Typing Typing3 Typing3Spec JsonldSpec.

(** the words for the members of the enumerations of spdx3/model *)
Definition words_SafetyRiskAssessmentType : list (pystr * pystr) :=
  [($"SERIOUS", $"serious"); ($"HIGH", $"high"); ($"MEDIUM", $"medium"); ($"LOW", $"low")].
Definition words_AnnotationType : list (pystr * pystr) :=
  [($"REVIEW", $"review"); ($"OTHER", $"other")].
Definition words_DatasetType : list (pystr * pystr) :=
  [($"STRUCTURED", $"structured"); ($"NUMERIC", $"numeric"); ($"TEXT", $"text"); ($"CATEGORICAL", $"categorical"); ($"GRAPH", $"graph");
   ($"TIMESERIES", $"timeseries"); ($"TIMESTAMP", $"timestamp"); ($"SENSOR", $"sensor"); ($"IMAGE", $"image"); ($"SYNTACTIC", $"syntactic");
   ($"AUDIO", $"audio"); ($"VIDEO", $"video"); ($"OTHER", $"other"); ($"NO_ASSERTION", $"noAssertion")].
Definition words_ConfidentialityLevelType : list (pystr * pystr) :=
  [($"RED", $"red"); ($"AMBER", $"amber"); ($"GREEN", $"green"); ($"CLEAR", $"clear")].
Definition words_DatasetAvailabilityType : list (pystr * pystr) :=
  [($"DIRECT_DOWNLOAD", $"directDownload"); ($"SCRAPING_SCRIPT", $"scrapingScript"); ($"QUERY", $"query"); ($"CLICKTHROUGH", $"clickthrough");
   ($"REGISTRATION", $"registration")].
Definition words_ExternalIdentifierType : list (pystr * pystr) :=
  [($"CPE22", $"cpe22"); ($"CPE23", $"cpe23"); ($"CVE", $"cve"); ($"EMAIL", $"email"); ($"GITOID", $"gitoid"); ($"PURL", $"purl");
   ($"SECURITY_OTHER", $"securityOther"); ($"SWHID", $"swhid"); ($"SWID", $"swid"); ($"URL_SCHEME", $"urlScheme"); ($"OTHER", $"other")].
Definition words_ExternalReferenceType : list (pystr * pystr) :=
  [($"ALT_DOWNLOAD_LOCATION", $"altDownloadLocation"); ($"ALT_WEB_PAGE", $"altWebPage"); ($"BINARY_ARTIFACT", $"binaryArtifact");
   ($"BUILD_META", $"buildMeta"); ($"BUILD_SYSTEM", $"buildSystem"); ($"CERTIFICATION_REPORT", $"certificationReport"); ($"CHAT", $"chat");
   ($"COMPONENT_ANALYSIS_REPORT", $"componentAnalysisReport"); ($"DOCUMENTATION", $"documentation");
   ($"DYNAMIC_ANALYSIS_REPORT", $"dynamicAnalysisReport"); ($"EOL_NOTICE", $"eolNotice"); ($"FUNDING", $"funding");
   ($"ISSUE_TRACKER", $"issueTracker"); ($"LICENSE", $"license"); ($"MAILING_LIST", $"mailingList"); ($"METRICS", $"metrics");
   ($"OTHER", $"other"); ($"PRODUCT_METADATA", $"productMetadata"); ($"QUALITY_ASSESSMENT_REPORT", $"qualityAssessmentReport");
   ($"RELEASE_HISTORY", $"releaseHistory"); ($"RELEASE_NOTES", $"releaseNotes"); ($"RISK_ASSESSMENT", $"riskAssessment");
   ($"RUNTIME_ANALYSIS_REPORT", $"runtimeAnalysisReport"); ($"SECURE_SOFTWARE_ATTESTATION", $"secureSoftwareAttestation");
   ($"SECURITY_ADVERSARY_MODEL", $"securityAdversaryModel"); ($"SECURITY_ADVISORY", $"securityAdvisory"); ($"SECURITY_FIX", $"securityFix");
   ($"SECURITY_OTHER", $"securityOther"); ($"SECURITY_PEN_TEST_REPORT", $"securityPenTestReport"); ($"SECURITY_POLICY", $"securityPolicy");
   ($"SECURITY_THREAT_MODEL", $"securityThreatModel"); ($"SOCIAL_MEDIA", $"socialMedia"); ($"SOURCE_ARTIFACT", $"sourceArtifact");
   ($"STATIC_ANALYSIS_REPORT", $"staticAnalysisReport"); ($"SUPPORT", $"support"); ($"VCS", $"vcs");
   ($"VULNERABILITY_DISCLOSURE_REPORT", $"vulnerabilityDisclosureReport");
   ($"VULNERABILITY_EXPLOITABILITY_ASSESSMENT", $"vulnerabilityExploitabilityAssessment")].
Definition words_HashAlgorithm : list (pystr * pystr) :=
  [($"BLAKE2B256", $"blake2B256"); ($"BLAKE2B384", $"blake2B384"); ($"BLAKE2B512", $"blake2B512"); ($"BLAKE3", $"blake3");
   ($"CRYSTALS_KYBER", $"crystalsKyber"); ($"CRYSTALS_DILITHIUM", $"crystalsDilithium"); ($"FALCON", $"falcon"); ($"MD2", $"md2");
   ($"MD4", $"md4"); ($"MD5", $"md5"); ($"MD6", $"md6"); ($"OTHER", $"other"); ($"SHA1", $"sha1"); ($"SHA224", $"sha224");
   ($"SHA256", $"sha256"); ($"SHA3_224", $"sha3224"); ($"SHA3_256", $"sha3256"); ($"SHA3_384", $"sha3384"); ($"SHA3_512", $"sha3512");
   ($"SHA384", $"sha384"); ($"SHA512", $"sha512"); ($"SPDXPVCSHA1", $"spdxpvcsha1"); ($"SPDXPVCSHA256", $"spdxpvcsha256");
   ($"SPHINCS_PLUS", $"sphincsPlus")].
Definition words_LifecycleScopeType : list (pystr * pystr) :=
  [($"DESIGN", $"design"); ($"BUILD", $"build"); ($"DEVELOPMENT", $"development"); ($"TEST", $"test"); ($"RUNTIME", $"runtime");
   ($"OTHER", $"other")].
Definition words_ProfileIdentifierType : list (pystr * pystr) :=
  [($"CORE", $"core"); ($"SOFTWARE", $"software"); ($"LICENSING", $"licensing"); ($"SECURITY", $"security"); ($"BUILD", $"build");
   ($"AI", $"ai"); ($"DATASET", $"dataset"); ($"USAGE", $"usage"); ($"EXTENSION", $"extension")].
Definition words_RelationshipType : list (pystr * pystr) :=
  [($"AFFECTS", $"affects"); ($"AMENDS", $"amends"); ($"ANCESTOR", $"ancestor"); ($"AVAILABLE_FROM", $"availableFrom");
   ($"BUILD_DEPENDENCY", $"buildDependency"); ($"BUILD_TOOL", $"buildTool"); ($"COORDINATED_BY", $"coordinatedBy"); ($"CONTAINS", $"contains");
   ($"CONFIG_OF", $"configOf"); ($"COPY", $"copy"); ($"DATA_FILE", $"dataFile"); ($"DEPENDENCY_MANIFEST", $"dependencyManifest");
   ($"DEPENDS_ON", $"dependsOn"); ($"DESCENDANT", $"descendant"); ($"DESCRIBES", $"describes"); ($"DEV_DEPENDENCY", $"devDependency");
   ($"DEV_TOOL", $"devTool"); ($"DISTRIBUTION_ARTIFACT", $"distributionArtifact"); ($"DOCUMENTATION", $"documentation");
   ($"DOES_NOT_AFFECT", $"doesNotAffect"); ($"DYNAMIC_LINK", $"dynamicLink"); ($"EXAMPLE", $"example"); ($"EVIDENCE_FOR", $"evidenceFor");
   ($"EXPANDED_FROM_ARCHIVE", $"expandedFromArchive"); ($"EXPLOIT_CREATED_BY", $"exploitCreatedBy"); ($"FILE_ADDED", $"fileAdded");
   ($"FILE_DELETED", $"fileDeleted"); ($"FILE_MODIFIED", $"fileModified"); ($"FIXED_BY", $"fixedBy"); ($"FIXED_IN", $"fixedIn");
   ($"FOUND_BY", $"foundBy"); ($"GENERATES", $"generates"); ($"HAS_ASSESSMENT_FOR", $"hasAssessmentFor");
   ($"HAS_ASSOCIATED_VULNERABILITY", $"hasAssociatedVulnerability"); ($"HOST_OF", $"hostOf"); ($"INPUT_OF", $"inputOf");
   ($"INVOKED_BY", $"invokedBy"); ($"METAFILE", $"metafile"); ($"ON_BEHALF_OF", $"onBehalfOf"); ($"OPTIONAL_COMPONENT", $"optionalComponent");
   ($"OPTIONAL_DEPENDENCY", $"optionalDependency"); ($"OTHER", $"other"); ($"OUTPUT_OF", $"outputOf"); ($"PACKAGES", $"packages");
   ($"PATCH", $"patch"); ($"PREREQUISITE", $"prerequisite"); ($"PROVIDED_DEPENDENCY", $"providedDependency");
   ($"PUBLISHED_BY", $"publishedBy"); ($"REPORTED_BY", $"reportedBy"); ($"REPUBLISHED_BY", $"republishedBy");
   ($"REQUIREMENT_FOR", $"requirementFor"); ($"RUNTIME_DEPENDENCY", $"runtimeDependency"); ($"SPECIFICATION_FOR", $"specificationFor");
   ($"STATIC_LINK", $"staticLink"); ($"TEST", $"test"); ($"TEST_CASE", $"testCase"); ($"TEST_DEPENDENCY", $"testDependency");
   ($"TEST_TOOL", $"testTool"); ($"TESTED_ON", $"testedOn"); ($"TRAINED_ON", $"trainedOn");
   ($"UNDER_INVESTIGATION_FOR", $"underInvestigationFor"); ($"VARIANT", $"variant")].
Definition words_RelationshipCompleteness : list (pystr * pystr) :=
  [($"INCOMPLETE", $"incomplete"); ($"COMPLETE", $"complete"); ($"NOASSERTION", $"noassertion")].
Definition words_ExploitCatalogType : list (pystr * pystr) :=
  [($"KEV", $"kev"); ($"OTHER", $"other")].
Definition words_SsvcDecisionType : list (pystr * pystr) :=
  [($"ACT", $"act"); ($"ATTEND", $"attend"); ($"TRACK", $"track"); ($"TRACK_STAR", $"trackStar")].
Definition words_VexJustificationType : list (pystr * pystr) :=
  [($"COMPONENT_NOT_PRESENT", $"componentNotPresent"); ($"VULNERABLE_CODE_NOT_PRESENT", $"vulnerableCodeNotPresent");
   ($"VULNERABLE_CODE_CANNOT_BE_CONTROLLED_BY_ADVERSARY", $"vulnerableCodeCannotBeControlledByAdversary");
   ($"VULNERABLE_CODE_NOT_IN_EXECUTE_PATH", $"vulnerableCodeNotInExecutePath");
   ($"INLINE_MITIGATIONS_ALREADY_EXIST", $"inlineMitigationsAlreadyExist")].
Definition words_SBOMType : list (pystr * pystr) :=
  [($"DESIGN", $"design"); ($"SOURCE", $"source"); ($"BUILD", $"build"); ($"DEPLOYED", $"deployed"); ($"RUNTIME", $"runtime");
   ($"ANALYZED", $"analyzed")].
Definition words_SoftwareDependencyLinkType : list (pystr * pystr) :=
  [($"STATIC", $"static"); ($"DYNAMIC", $"dynamic"); ($"TOOL", $"tool"); ($"OTHER", $"other")].
Definition words_DependencyConditionalityType : list (pystr * pystr) :=
  [($"OPTIONAL", $"optional"); ($"REQUIRED", $"required"); ($"PROVIDED", $"provided"); ($"PREREQUISITE", $"prerequisite"); ($"OTHER", $"other")].
Definition words_SoftwarePurpose : list (pystr * pystr) :=
  [($"APPLICATION", $"application"); ($"ARCHIVE", $"archive"); ($"BOM", $"bom"); ($"CONFIGURATION", $"configuration");
   ($"CONTAINER", $"container"); ($"DATA", $"data"); ($"DEVICE", $"device"); ($"DOCUMENTATION", $"documentation");
   ($"EXECUTABLE", $"executable"); ($"FILE", $"file"); ($"FIRMWARE", $"firmware"); ($"FRAMEWORK", $"framework"); ($"INSTALL", $"install");
   ($"LIBRARY", $"library"); ($"MODEL", $"model"); ($"MODULE", $"module"); ($"OPERATING_SYSTEM", $"operatingSystem"); ($"OTHER", $"other");
   ($"PATCH", $"patch"); ($"REQUIREMENT", $"requirement"); ($"SOURCE", $"source"); ($"TEST", $"test")].
Definition enumeration_words : list (pystr * list (pystr * pystr)) :=
  [($"SafetyRiskAssessmentType", words_SafetyRiskAssessmentType); ($"AnnotationType", words_AnnotationType);
   ($"DatasetType", words_DatasetType); ($"ConfidentialityLevelType", words_ConfidentialityLevelType);
   ($"DatasetAvailabilityType", words_DatasetAvailabilityType); ($"ExternalIdentifierType", words_ExternalIdentifierType);
   ($"ExternalReferenceType", words_ExternalReferenceType); ($"HashAlgorithm", words_HashAlgorithm);
   ($"LifecycleScopeType", words_LifecycleScopeType); ($"ProfileIdentifierType", words_ProfileIdentifierType);
   ($"RelationshipType", words_RelationshipType); ($"RelationshipCompleteness", words_RelationshipCompleteness);
   ($"ExploitCatalogType", words_ExploitCatalogType); ($"SsvcDecisionType", words_SsvcDecisionType);
   ($"VexJustificationType", words_VexJustificationType); ($"SBOMType", words_SBOMType);
   ($"SoftwareDependencyLinkType", words_SoftwareDependencyLinkType); ($"DependencyConditionalityType", words_DependencyConditionalityType);
   ($"SoftwarePurpose", words_SoftwarePurpose)].
(** the keys for the fields of the classes of spdx3/model *)
Definition field_keys : list (pystr * pystr) :=
  [($"spdx_id", $"@id"); ($"creation_info", $"creationInfo"); ($"name", $"name"); ($"summary", $"summary"); ($"description", $"description");
   ($"comment", $"comment"); ($"verified_using", $"verifiedUsing"); ($"external_reference", $"externalReference");
   ($"external_identifier", $"externalIdentifier"); ($"extension", $"extension"); ($"originated_by", $"originatedBy");
   ($"supplied_by", $"suppliedBy"); ($"built_time", $"builtTime"); ($"release_time", $"releaseTime"); ($"valid_until_time", $"validUntilTime");
   ($"standard", $"standard"); ($"content_identifier", $"contentIdentifier"); ($"primary_purpose", $"primaryPurpose");
   ($"additional_purpose", $"additionalPurpose"); ($"concluded_license", $"concludedLicense"); ($"declared_license", $"declaredLicense");
   ($"copyright_text", $"copyrightText"); ($"attribution_text", $"attributionText"); ($"package_version", $"packageVersion");
   ($"download_location", $"downloadLocation"); ($"package_url", $"packageUrl"); ($"homepage", $"homepage"); ($"source_info", $"sourceInfo");
   ($"energy_consumption", $"energyConsumption"); ($"standard_compliance", $"standardCompliance"); ($"limitation", $"limitation");
   ($"type_of_model", $"typeOfModel"); ($"information_about_training", $"informationAboutTraining");
   ($"information_about_application", $"informationAboutApplication"); ($"hyperparameter", $"hyperparameter");
   ($"model_data_preprocessing", $"modelDataPreprocessing"); ($"model_explainability", $"modelExplainability");
   ($"sensitive_personal_information", $"sensitivePersonalInformation"); ($"metric_decision_threshold", $"metricDecisionThreshold");
   ($"metric", $"metric"); ($"domain", $"domain"); ($"autonomy_type", $"autonomyType"); ($"safety_risk_assessment", $"safetyRiskAssessment");
   ($"annotation_type", $"annotationType"); ($"subject", $"subject"); ($"content_type", $"contentType"); ($"statement", $"statement");
   ($"element", $"element"); ($"root_element", $"rootElement"); ($"namespaces", $"namespaces"); ($"imports", $"imports");
   ($"context", $"context"); ($"build_type", $"buildType"); ($"build_id", $"buildId");
   ($"config_source_entrypoint", $"configSourceEntrypoint"); ($"config_source_uri", $"configSourceUri");
   ($"config_source_digest", $"configSourceDigest"); ($"parameters", $"parameters"); ($"build_start_time", $"buildStartTime");
   ($"build_end_time", $"buildEndTime"); ($"environment", $"environment"); ($"spec_version", $"specVersion"); ($"created", $"created");
   ($"created_by", $"createdBy"); ($"profile", $"profile"); ($"data_license", $"dataLicense"); ($"created_using", $"createdUsing");
   ($"dataset_type", $"datasetType"); ($"data_collection_process", $"dataCollectionProcess"); ($"intended_use", $"intendedUse");
   ($"dataset_size", $"datasetSize"); ($"dataset_noise", $"datasetNoise"); ($"data_preprocessing", $"dataPreprocessing");
   ($"sensor", $"sensor"); ($"known_bias", $"knownBias"); ($"anonymization_method_used", $"anonymizationMethodUsed");
   ($"confidentiality_level", $"confidentialityLevel"); ($"dataset_update_mechanism", $"datasetUpdateMechanism");
   ($"dataset_availability", $"datasetAvailability"); ($"external_identifier_type", $"externalIdentifierType"); ($"identifier", $"identifier");
   ($"identifier_locator", $"identifierLocator"); ($"issuing_authority", $"issuingAuthority"); ($"external_id", $"externalId");
   ($"location_hint", $"locationHint"); ($"defining_document", $"definingDocument"); ($"external_reference_type", $"externalReferenceType");
   ($"locator", $"locator"); ($"algorithm", $"algorithm"); ($"hash_value", $"hashValue"); ($"member", $"member");
   ($"license_id", $"licenseId"); ($"license_name", $"licenseName"); ($"license_text", $"licenseText");
   ($"license_comment", $"licenseComment"); ($"see_also", $"seeAlso"); ($"is_osi_approved", $"isOsiApproved");
   ($"is_fsf_libre", $"isFsfLibre"); ($"standard_license_header", $"standardLicenseHeader");
   ($"standard_license_template", $"standardLicenseTemplate"); ($"is_deprecated_license_id", $"isDeprecatedLicenseId");
   ($"obsoleted_by", $"obsoletedBy"); ($"addition_id", $"additionId"); ($"addition_name", $"additionName");
   ($"addition_text", $"additionText"); ($"addition_comment", $"additionComment");
   ($"standard_addition_template", $"standardAdditionTemplate"); ($"is_deprecated_addition_id", $"isDeprecatedAdditionId");
   ($"list_version_added", $"listVersionAdded"); ($"deprecated_version", $"deprecatedVersion"); ($"subject_license", $"subjectLicense");
   ($"subject_addition", $"subjectAddition"); ($"from_element", $"from"); ($"to", $"to"); ($"relationship_type", $"relationshipType");
   ($"completeness", $"completeness"); ($"start_time", $"startTime"); ($"end_time", $"endTime"); ($"scope", $"scope"); ($"prefix", $"prefix");
   ($"namespace", $"namespace"); ($"begin", $"begin"); ($"end", $"end"); ($"assessed_element", $"assessedElement");
   ($"published_time", $"publishedTime"); ($"modified_time", $"modifiedTime"); ($"withdrawn_time", $"withdrawnTime"); ($"score", $"score");
   ($"severity", $"severity"); ($"vector", $"vector"); ($"probability", $"probability"); ($"catalog_type", $"catalogType");
   ($"exploited", $"exploited"); ($"decision_type", $"decisionType"); ($"vex_version", $"vexVersion"); ($"status_notes", $"statusNotes");
   ($"action_statement", $"actionStatement"); ($"action_statement_time", $"actionStatementTime");
   ($"justification_type", $"justificationType"); ($"impact_statement", $"impactStatement");
   ($"impact_statement_time", $"impactStatementTime"); ($"sbom_type", $"sbomType"); ($"byte_range", $"byteRange");
   ($"line_range", $"lineRange"); ($"software_linkage", $"softwareLinkage"); ($"conditionality", $"conditionality")].

(** the names of the fields of a class, in order: those of the base class, then the new ones *)
Inductive FieldNames : decl -> list pystr -> Prop :=
| fn_root d : d_base d = None -> FieldNames d (map fst (d_fields d))
| fn_sub d e l : d_base d = Some (d_name e) -> In e classes3 -> FieldNames e l ->
    FieldNames d (l ++ filter (fun f => negb (str_in f l)) (map fst (d_fields d))).

(** a member of an enumeration and a version *)
Definition member (c n : pystr) : pyval := VObj c [($"name", VStr n)].
Definition version (s : pystr) : pyval := VObj $"Version" [($"str", VStr s)].

(** A value of the model: instances have exactly the fields of their classes with values of the right types, at every depth. *)
Inductive Sound : pyval -> Prop :=
| so_none : Sound VNone
| so_bool b : Sound (VBool b)
| so_int z : Sound (VInt z)
| so_str s : Sound (VStr s)
| so_date d : Sound (VDatetime d)
| so_list l : Forall Sound l -> Sound (VList l)
| so_dict l : Forall (fun kv => Sound (fst kv) /\ Sound (snd kv)) l -> Sound (VDict l)
| so_member c words n : In (c, words) enumeration_words -> In n (map fst words) -> Sound (member c n)
| so_version s : Sound (version s)
| so_object d ps i : In d classes3 -> d_init d = Some ps -> FieldNames d (map fst i) ->
    (forall f h v, Field classes3 d f h -> In (f, v) i -> Typed3 classes3 h v) -> Forall (fun fv => Sound (snd fv)) i ->
    Sound (VObj (d_name d) i).

(** What JSON-LD shows of a value, if anything: nothing of None, False, 0 and empty texts, lists and dictionaries.  There is no entry for other
    dictionaries. *)
Inductive Shown : pyval -> option json -> Prop :=
| sh_none : Shown VNone None
| sh_text s : Shown (VStr s) (text s)
| sh_int z : Shown (VInt z) (number z)
| sh_bool b : Shown (VBool b) (if b then Some (JBool true) else None)
| sh_date d s : datetime_to_iso_string d = Ok s -> Shown (VDatetime d) (Some (JStr s))
| sh_list l os : Forall2 Shown l os ->
    Shown (VList l) (match l with [] => None | _ => Some (JArr (flat_map (fun o => match o with Some j => [j] | None => [] end) os)) end)
| sh_dict : Shown (VDict []) None
| sh_member c words n w : In (c, words) enumeration_words -> In (n, w) words -> Shown (member c n) (Some (JStr w))
| sh_version s : Shown (version s) (Some (JStr s))
| sh_object d i entries : In d classes3 ->
    Forall2 (fun fv ko => In (fst fv, fst ko) field_keys /\ Shown (snd fv) (snd ko)) i entries ->
    Shown (VObj (d_name d) i) (Some (object (d_name d) entries)).

(** the value is, or occurs somewhere in, the other one *)
Inductive Inside (x : pyval) : pyval -> Prop :=
| in_same : Inside x x
| in_list l v : In v l -> Inside x v -> Inside x (VList l)
| in_field c i f v : In (f, v) i -> Inside x v -> Inside x (VObj c i).
(** it cannot be shown: a dictionary with entries, or a point in time that cannot be written *)
Definition Unwritable (x : pyval) : Prop :=
  match x with
  | VDict (_ :: _) => True
  | VDatetime d => ~ CanBeWritten d
  | _ => False
  end.
