(** The resources of spdx3/writer/json_ld: the ontology SPDX_OWL.json and the context context.json, as json.load reads them. *)
From Verif Require Import Py Json.

(** SPDX_OWL.json:2-15  its member @context *)
Definition owl_prefixes : json :=
  JObj [($"ai", JStr $"https://spdx.org/rdf/AI/"); ($"build", JStr $"https://spdx.org/rdf/Build/"); ($"core", JStr $"https://spdx.org/rdf/Core/");
        ($"dataset", JStr $"https://spdx.org/rdf/Dataset/"); ($"licensing", JStr $"https://spdx.org/rdf/Licensing/");
        ($"ns0", JStr $"http://www.w3.org/2003/06/sw-vocab-status/ns#"); ($"owl", JStr $"http://www.w3.org/2002/07/owl#");
        ($"rdfs", JStr $"http://www.w3.org/2000/01/rdf-schema#"); ($"security", JStr $"https://spdx.org/rdf/Security/");
        ($"sh", JStr $"http://www.w3.org/ns/shacl#"); ($"software", JStr $"https://spdx.org/rdf/Software/");
        ($"xsd", JStr $"http://www.w3.org/2001/XMLSchema#")].
(** SPDX_OWL.json:16-5449  its member @graph.  Of every node only the members @id, @type and rdfs:range are kept; owl_to_context.py reads no others. *)
Definition property (type id range : pystr) : json := JObj [($"@id", JStr id); ($"@type", JStr type); ($"rdfs:range", JObj [($"@id", JStr range)])].
(** SPDX_OWL.json: the node of a class, and of an individual of a class *)
Definition shape (id : pystr) : json := JObj [($"@id", JStr id); ($"@type", JArr [JStr $"owl:Class"; JStr $"sh:NodeShape"])].
(** SPDX_OWL.json: likewise *)
Definition class (id : pystr) : json := JObj [($"@id", JStr id); ($"@type", JStr $"owl:Class")].
(** SPDX_OWL.json: likewise *)
Definition individual (id of : pystr) : json := JObj [($"@id", JStr id); ($"@type", JArr [JStr $"owl:NamedIndividual"; JStr of])].
(** SPDX_OWL.json:16-5449 *)
Definition owl_graph : list json :=
  [shape $"ai:AIPackage"; individual $"https://spdx.org/rdf/AI/PresenceType/no" $"ai:PresenceType";
   individual $"https://spdx.org/rdf/AI/PresenceType/noAssertion" $"ai:PresenceType";
   individual $"https://spdx.org/rdf/AI/PresenceType/yes" $"ai:PresenceType";
   individual $"https://spdx.org/rdf/AI/SafetyRiskAssessmentType/high" $"ai:SafetyRiskAssessmentType";
   individual $"https://spdx.org/rdf/AI/SafetyRiskAssessmentType/low" $"ai:SafetyRiskAssessmentType";
   individual $"https://spdx.org/rdf/AI/SafetyRiskAssessmentType/medium" $"ai:SafetyRiskAssessmentType";
   individual $"https://spdx.org/rdf/AI/SafetyRiskAssessmentType/serious" $"ai:SafetyRiskAssessmentType"; shape $"build:Build";
   shape $"core:Annotation"; individual $"https://spdx.org/rdf/Core/AnnotationType/other" $"core:AnnotationType";
   individual $"https://spdx.org/rdf/Core/AnnotationType/review" $"core:AnnotationType"; shape $"core:AnonymousPayload";
   individual $"https://spdx.org/rdf/Core/ExternalIdentifierType/cpe22" $"core:ExternalIdentifierType";
   individual $"https://spdx.org/rdf/Core/ExternalIdentifierType/cpe23" $"core:ExternalIdentifierType";
   individual $"https://spdx.org/rdf/Core/ExternalIdentifierType/cve" $"core:ExternalIdentifierType";
   individual $"https://spdx.org/rdf/Core/ExternalIdentifierType/email" $"core:ExternalIdentifierType";
   individual $"https://spdx.org/rdf/Core/ExternalIdentifierType/gitoid" $"core:ExternalIdentifierType";
   individual $"https://spdx.org/rdf/Core/ExternalIdentifierType/other" $"core:ExternalIdentifierType";
   individual $"https://spdx.org/rdf/Core/ExternalIdentifierType/pkgUrl" $"core:ExternalIdentifierType";
   individual $"https://spdx.org/rdf/Core/ExternalIdentifierType/securityOther" $"core:ExternalIdentifierType";
   individual $"https://spdx.org/rdf/Core/ExternalIdentifierType/swhid" $"core:ExternalIdentifierType";
   individual $"https://spdx.org/rdf/Core/ExternalIdentifierType/swid" $"core:ExternalIdentifierType";
   individual $"https://spdx.org/rdf/Core/ExternalIdentifierType/urlScheme" $"core:ExternalIdentifierType";
   individual $"https://spdx.org/rdf/Core/ExternalReferenceType/altDownloadLocation" $"core:ExternalReferenceType";
   individual $"https://spdx.org/rdf/Core/ExternalReferenceType/altWebPage" $"core:ExternalReferenceType";
   individual $"https://spdx.org/rdf/Core/ExternalReferenceType/binaryArtifact" $"core:ExternalReferenceType";
   individual $"https://spdx.org/rdf/Core/ExternalReferenceType/buildMeta" $"core:ExternalReferenceType";
   individual $"https://spdx.org/rdf/Core/ExternalReferenceType/buildSystem" $"core:ExternalReferenceType";
   individual $"https://spdx.org/rdf/Core/ExternalReferenceType/chat" $"core:ExternalReferenceType";
   individual $"https://spdx.org/rdf/Core/ExternalReferenceType/documentation" $"core:ExternalReferenceType";
   individual $"https://spdx.org/rdf/Core/ExternalReferenceType/funding" $"core:ExternalReferenceType";
   individual $"https://spdx.org/rdf/Core/ExternalReferenceType/issueTracker" $"core:ExternalReferenceType";
   individual $"https://spdx.org/rdf/Core/ExternalReferenceType/license" $"core:ExternalReferenceType";
   individual $"https://spdx.org/rdf/Core/ExternalReferenceType/mailingList" $"core:ExternalReferenceType";
   individual $"https://spdx.org/rdf/Core/ExternalReferenceType/metrics" $"core:ExternalReferenceType";
   individual $"https://spdx.org/rdf/Core/ExternalReferenceType/other" $"core:ExternalReferenceType";
   individual $"https://spdx.org/rdf/Core/ExternalReferenceType/releaseHistory" $"core:ExternalReferenceType";
   individual $"https://spdx.org/rdf/Core/ExternalReferenceType/releaseNotes" $"core:ExternalReferenceType";
   individual $"https://spdx.org/rdf/Core/ExternalReferenceType/securityAdvisory" $"core:ExternalReferenceType";
   individual $"https://spdx.org/rdf/Core/ExternalReferenceType/securityFix" $"core:ExternalReferenceType";
   individual $"https://spdx.org/rdf/Core/ExternalReferenceType/securityOther" $"core:ExternalReferenceType";
   individual $"https://spdx.org/rdf/Core/ExternalReferenceType/socialMedia" $"core:ExternalReferenceType";
   individual $"https://spdx.org/rdf/Core/ExternalReferenceType/sourceArtifact" $"core:ExternalReferenceType";
   individual $"https://spdx.org/rdf/Core/ExternalReferenceType/support" $"core:ExternalReferenceType";
   individual $"https://spdx.org/rdf/Core/ExternalReferenceType/vcs" $"core:ExternalReferenceType";
   individual $"https://spdx.org/rdf/Core/HashAlgorithm/blake2b256" $"core:HashAlgorithm";
   individual $"https://spdx.org/rdf/Core/HashAlgorithm/blake2b384" $"core:HashAlgorithm";
   individual $"https://spdx.org/rdf/Core/HashAlgorithm/blake2b512" $"core:HashAlgorithm";
   individual $"https://spdx.org/rdf/Core/HashAlgorithm/blake3" $"core:HashAlgorithm";
   individual $"https://spdx.org/rdf/Core/HashAlgorithm/crystalsDilithium" $"core:HashAlgorithm";
   individual $"https://spdx.org/rdf/Core/HashAlgorithm/crystalsKyber" $"core:HashAlgorithm";
   individual $"https://spdx.org/rdf/Core/HashAlgorithm/falcon" $"core:HashAlgorithm";
   individual $"https://spdx.org/rdf/Core/HashAlgorithm/md2" $"core:HashAlgorithm";
   individual $"https://spdx.org/rdf/Core/HashAlgorithm/md4" $"core:HashAlgorithm";
   individual $"https://spdx.org/rdf/Core/HashAlgorithm/md5" $"core:HashAlgorithm";
   individual $"https://spdx.org/rdf/Core/HashAlgorithm/md6" $"core:HashAlgorithm";
   individual $"https://spdx.org/rdf/Core/HashAlgorithm/other" $"core:HashAlgorithm";
   individual $"https://spdx.org/rdf/Core/HashAlgorithm/sha1" $"core:HashAlgorithm";
   individual $"https://spdx.org/rdf/Core/HashAlgorithm/sha224" $"core:HashAlgorithm";
   individual $"https://spdx.org/rdf/Core/HashAlgorithm/sha256" $"core:HashAlgorithm";
   individual $"https://spdx.org/rdf/Core/HashAlgorithm/sha384" $"core:HashAlgorithm";
   individual $"https://spdx.org/rdf/Core/HashAlgorithm/sha3_224" $"core:HashAlgorithm";
   individual $"https://spdx.org/rdf/Core/HashAlgorithm/sha3_256" $"core:HashAlgorithm";
   individual $"https://spdx.org/rdf/Core/HashAlgorithm/sha3_384" $"core:HashAlgorithm";
   individual $"https://spdx.org/rdf/Core/HashAlgorithm/sha3_512" $"core:HashAlgorithm";
   individual $"https://spdx.org/rdf/Core/HashAlgorithm/sha512" $"core:HashAlgorithm";
   individual $"https://spdx.org/rdf/Core/HashAlgorithm/spdxPvcSha1" $"core:HashAlgorithm";
   individual $"https://spdx.org/rdf/Core/HashAlgorithm/spdxPvcSha256" $"core:HashAlgorithm";
   individual $"https://spdx.org/rdf/Core/HashAlgorithm/sphincsPlus" $"core:HashAlgorithm";
   individual $"https://spdx.org/rdf/Core/LifecycleScopeType/build" $"core:LifecycleScopeType";
   individual $"https://spdx.org/rdf/Core/LifecycleScopeType/design" $"core:LifecycleScopeType";
   individual $"https://spdx.org/rdf/Core/LifecycleScopeType/development" $"core:LifecycleScopeType";
   individual $"https://spdx.org/rdf/Core/LifecycleScopeType/other" $"core:LifecycleScopeType";
   individual $"https://spdx.org/rdf/Core/LifecycleScopeType/runtime" $"core:LifecycleScopeType";
   individual $"https://spdx.org/rdf/Core/LifecycleScopeType/test" $"core:LifecycleScopeType"; shape $"core:Organization"; shape $"core:Person";
   individual $"https://spdx.org/rdf/Core/ProfileIdentifierType/ai" $"core:ProfileIdentifierType";
   individual $"https://spdx.org/rdf/Core/ProfileIdentifierType/build" $"core:ProfileIdentifierType";
   individual $"https://spdx.org/rdf/Core/ProfileIdentifierType/core" $"core:ProfileIdentifierType";
   individual $"https://spdx.org/rdf/Core/ProfileIdentifierType/dataset" $"core:ProfileIdentifierType";
   individual $"https://spdx.org/rdf/Core/ProfileIdentifierType/extension" $"core:ProfileIdentifierType";
   individual $"https://spdx.org/rdf/Core/ProfileIdentifierType/licensing" $"core:ProfileIdentifierType";
   individual $"https://spdx.org/rdf/Core/ProfileIdentifierType/security" $"core:ProfileIdentifierType";
   individual $"https://spdx.org/rdf/Core/ProfileIdentifierType/software" $"core:ProfileIdentifierType";
   individual $"https://spdx.org/rdf/Core/ProfileIdentifierType/usage" $"core:ProfileIdentifierType";
   individual $"https://spdx.org/rdf/Core/RelationshipCompleteness/complete" $"core:RelationshipCompleteness";
   individual $"https://spdx.org/rdf/Core/RelationshipCompleteness/incomplete" $"core:RelationshipCompleteness";
   individual $"https://spdx.org/rdf/Core/RelationshipCompleteness/noAssertion" $"core:RelationshipCompleteness";
   individual $"https://spdx.org/rdf/Core/RelationshipType/affects" $"core:RelationshipType";
   individual $"https://spdx.org/rdf/Core/RelationshipType/amends" $"core:RelationshipType";
   individual $"https://spdx.org/rdf/Core/RelationshipType/ancestor" $"core:RelationshipType";
   individual $"https://spdx.org/rdf/Core/RelationshipType/availableFrom" $"core:RelationshipType";
   individual $"https://spdx.org/rdf/Core/RelationshipType/buildConfigOf" $"core:RelationshipType";
   individual $"https://spdx.org/rdf/Core/RelationshipType/buildDependency" $"core:RelationshipType";
   individual $"https://spdx.org/rdf/Core/RelationshipType/buildHostOf" $"core:RelationshipType";
   individual $"https://spdx.org/rdf/Core/RelationshipType/buildInputOf" $"core:RelationshipType";
   individual $"https://spdx.org/rdf/Core/RelationshipType/buildInvokedBy" $"core:RelationshipType";
   individual $"https://spdx.org/rdf/Core/RelationshipType/buildOnBehalfOf" $"core:RelationshipType";
   individual $"https://spdx.org/rdf/Core/RelationshipType/buildOutputOf" $"core:RelationshipType";
   individual $"https://spdx.org/rdf/Core/RelationshipType/buildTool" $"core:RelationshipType";
   individual $"https://spdx.org/rdf/Core/RelationshipType/contains" $"core:RelationshipType";
   individual $"https://spdx.org/rdf/Core/RelationshipType/coordinatedBy" $"core:RelationshipType";
   individual $"https://spdx.org/rdf/Core/RelationshipType/copy" $"core:RelationshipType";
   individual $"https://spdx.org/rdf/Core/RelationshipType/dataFile" $"core:RelationshipType";
   individual $"https://spdx.org/rdf/Core/RelationshipType/dependencyManifest" $"core:RelationshipType";
   individual $"https://spdx.org/rdf/Core/RelationshipType/dependsOn" $"core:RelationshipType";
   individual $"https://spdx.org/rdf/Core/RelationshipType/descendant" $"core:RelationshipType";
   individual $"https://spdx.org/rdf/Core/RelationshipType/describes" $"core:RelationshipType";
   individual $"https://spdx.org/rdf/Core/RelationshipType/devDependency" $"core:RelationshipType";
   individual $"https://spdx.org/rdf/Core/RelationshipType/devTool" $"core:RelationshipType";
   individual $"https://spdx.org/rdf/Core/RelationshipType/distributionArtifact" $"core:RelationshipType";
   individual $"https://spdx.org/rdf/Core/RelationshipType/documentation" $"core:RelationshipType";
   individual $"https://spdx.org/rdf/Core/RelationshipType/doesNotAffect" $"core:RelationshipType";
   individual $"https://spdx.org/rdf/Core/RelationshipType/dynamicLink" $"core:RelationshipType";
   individual $"https://spdx.org/rdf/Core/RelationshipType/example" $"core:RelationshipType";
   individual $"https://spdx.org/rdf/Core/RelationshipType/expandedFromArchive" $"core:RelationshipType";
   individual $"https://spdx.org/rdf/Core/RelationshipType/exploitCreatedBy" $"core:RelationshipType";
   individual $"https://spdx.org/rdf/Core/RelationshipType/fileAdded" $"core:RelationshipType";
   individual $"https://spdx.org/rdf/Core/RelationshipType/fileDeleted" $"core:RelationshipType";
   individual $"https://spdx.org/rdf/Core/RelationshipType/fileModified" $"core:RelationshipType";
   individual $"https://spdx.org/rdf/Core/RelationshipType/fixedBy" $"core:RelationshipType";
   individual $"https://spdx.org/rdf/Core/RelationshipType/fixedIn" $"core:RelationshipType";
   individual $"https://spdx.org/rdf/Core/RelationshipType/foundBy" $"core:RelationshipType";
   individual $"https://spdx.org/rdf/Core/RelationshipType/generates" $"core:RelationshipType";
   individual $"https://spdx.org/rdf/Core/RelationshipType/hasAssessmentFor" $"core:RelationshipType";
   individual $"https://spdx.org/rdf/Core/RelationshipType/hasAssociatedVulnerability" $"core:RelationshipType";
   individual $"https://spdx.org/rdf/Core/RelationshipType/metafile" $"core:RelationshipType";
   individual $"https://spdx.org/rdf/Core/RelationshipType/optionalComponent" $"core:RelationshipType";
   individual $"https://spdx.org/rdf/Core/RelationshipType/optionalDependency" $"core:RelationshipType";
   individual $"https://spdx.org/rdf/Core/RelationshipType/other" $"core:RelationshipType";
   individual $"https://spdx.org/rdf/Core/RelationshipType/packages" $"core:RelationshipType";
   individual $"https://spdx.org/rdf/Core/RelationshipType/patch" $"core:RelationshipType";
   individual $"https://spdx.org/rdf/Core/RelationshipType/prerequisite" $"core:RelationshipType";
   individual $"https://spdx.org/rdf/Core/RelationshipType/providedDependency" $"core:RelationshipType";
   individual $"https://spdx.org/rdf/Core/RelationshipType/publishedBy" $"core:RelationshipType";
   individual $"https://spdx.org/rdf/Core/RelationshipType/reportedBy" $"core:RelationshipType";
   individual $"https://spdx.org/rdf/Core/RelationshipType/republishedBy" $"core:RelationshipType";
   individual $"https://spdx.org/rdf/Core/RelationshipType/requirementFor" $"core:RelationshipType";
   individual $"https://spdx.org/rdf/Core/RelationshipType/runtimeDependency" $"core:RelationshipType";
   individual $"https://spdx.org/rdf/Core/RelationshipType/specificationFor" $"core:RelationshipType";
   individual $"https://spdx.org/rdf/Core/RelationshipType/staticLink" $"core:RelationshipType";
   individual $"https://spdx.org/rdf/Core/RelationshipType/test" $"core:RelationshipType";
   individual $"https://spdx.org/rdf/Core/RelationshipType/testCase" $"core:RelationshipType";
   individual $"https://spdx.org/rdf/Core/RelationshipType/testDependency" $"core:RelationshipType";
   individual $"https://spdx.org/rdf/Core/RelationshipType/testTool" $"core:RelationshipType";
   individual $"https://spdx.org/rdf/Core/RelationshipType/underInvestigationFor" $"core:RelationshipType";
   individual $"https://spdx.org/rdf/Core/RelationshipType/variant" $"core:RelationshipType"; shape $"core:SoftwareAgent";
   shape $"core:SpdxDocument"; individual $"https://spdx.org/rdf/Dataset/ConfidentialityLevelType/Amber" $"dataset:ConfidentialityLevelType";
   individual $"https://spdx.org/rdf/Dataset/ConfidentialityLevelType/Clear" $"dataset:ConfidentialityLevelType";
   individual $"https://spdx.org/rdf/Dataset/ConfidentialityLevelType/Green" $"dataset:ConfidentialityLevelType";
   individual $"https://spdx.org/rdf/Dataset/ConfidentialityLevelType/Red" $"dataset:ConfidentialityLevelType"; shape $"dataset:Dataset";
   individual $"https://spdx.org/rdf/Dataset/DatasetAvailabilityType/Clickthrough" $"dataset:DatasetAvailabilityType";
   individual $"https://spdx.org/rdf/Dataset/DatasetAvailabilityType/Direct-Download" $"dataset:DatasetAvailabilityType";
   individual $"https://spdx.org/rdf/Dataset/DatasetAvailabilityType/Query" $"dataset:DatasetAvailabilityType";
   individual $"https://spdx.org/rdf/Dataset/DatasetAvailabilityType/Registration" $"dataset:DatasetAvailabilityType";
   individual $"https://spdx.org/rdf/Dataset/DatasetAvailabilityType/Scraping-Script" $"dataset:DatasetAvailabilityType";
   shape $"licensing:ConjunctiveLicenseSet"; shape $"licensing:CustomLicense"; shape $"licensing:CustomLicenseAddition";
   shape $"licensing:DisjunctiveLicenseSet"; shape $"licensing:ListedLicense"; shape $"licensing:ListedLicenseException";
   shape $"licensing:NoAssertionLicense"; shape $"licensing:NoneLicense"; shape $"licensing:OrLaterOperator";
   shape $"licensing:WithAdditionOperator"; shape $"security:CvssV2VulnAssessmentRelationship"; shape $"security:CvssV3VulnAssessmentRelationship";
   shape $"security:EpssVulnAssessmentRelationship";
   individual $"https://spdx.org/rdf/Security/ExploitCatalogType/kev" $"security:ExploitCatalogType";
   individual $"https://spdx.org/rdf/Security/ExploitCatalogType/other" $"security:ExploitCatalogType";
   shape $"security:ExploitCatalogVulnAssessmentRelationship";
   individual $"https://spdx.org/rdf/Security/SsvcDecisionType/act" $"security:SsvcDecisionType";
   individual $"https://spdx.org/rdf/Security/SsvcDecisionType/attend" $"security:SsvcDecisionType";
   individual $"https://spdx.org/rdf/Security/SsvcDecisionType/track" $"security:SsvcDecisionType";
   individual $"https://spdx.org/rdf/Security/SsvcDecisionType/trackStar" $"security:SsvcDecisionType";
   shape $"security:SsvcVulnAssessmentRelationship"; shape $"security:VexAffectedVulnAssessmentRelationship";
   shape $"security:VexFixedVulnAssessmentRelationship";
   individual $"https://spdx.org/rdf/Security/VexJustificationType/componentNotPresent" $"security:VexJustificationType";
   individual $"https://spdx.org/rdf/Security/VexJustificationType/inlineMitigationsAlreadyExist" $"security:VexJustificationType";
   individual $"https://spdx.org/rdf/Security/VexJustificationType/vulnerableCodeCannotBeControlledByAdversary" $"security:VexJustificationType";
   individual $"https://spdx.org/rdf/Security/VexJustificationType/vulnerableCodeNotInExecutePath" $"security:VexJustificationType";
   individual $"https://spdx.org/rdf/Security/VexJustificationType/vulnerableCodeNotPresent" $"security:VexJustificationType";
   shape $"security:VexNotAffectedVulnAssessmentRelationship"; shape $"security:VexUnderInvestigationVulnAssessmentRelationship";
   shape $"security:Vulnerability";
   individual $"https://spdx.org/rdf/Software/DependencyConditionalityType/optional" $"software:DependencyConditionalityType";
   individual $"https://spdx.org/rdf/Software/DependencyConditionalityType/other" $"software:DependencyConditionalityType";
   individual $"https://spdx.org/rdf/Software/DependencyConditionalityType/prerequisite" $"software:DependencyConditionalityType";
   individual $"https://spdx.org/rdf/Software/DependencyConditionalityType/provided" $"software:DependencyConditionalityType";
   individual $"https://spdx.org/rdf/Software/DependencyConditionalityType/required" $"software:DependencyConditionalityType";
   shape $"software:File"; individual $"https://spdx.org/rdf/Software/SBOMType/analyzed" $"software:SBOMType";
   individual $"https://spdx.org/rdf/Software/SBOMType/build" $"software:SBOMType";
   individual $"https://spdx.org/rdf/Software/SBOMType/deployed" $"software:SBOMType";
   individual $"https://spdx.org/rdf/Software/SBOMType/design" $"software:SBOMType";
   individual $"https://spdx.org/rdf/Software/SBOMType/runtime" $"software:SBOMType";
   individual $"https://spdx.org/rdf/Software/SBOMType/source" $"software:SBOMType"; shape $"software:Sbom"; shape $"software:Snippet";
   individual $"https://spdx.org/rdf/Software/SoftwareDependencyLinkType/dynamic" $"software:SoftwareDependencyLinkType";
   individual $"https://spdx.org/rdf/Software/SoftwareDependencyLinkType/other" $"software:SoftwareDependencyLinkType";
   individual $"https://spdx.org/rdf/Software/SoftwareDependencyLinkType/static" $"software:SoftwareDependencyLinkType";
   individual $"https://spdx.org/rdf/Software/SoftwareDependencyLinkType/tool" $"software:SoftwareDependencyLinkType";
   shape $"software:SoftwareDependencyRelationship";
   individual $"https://spdx.org/rdf/Software/SoftwarePurpose/application" $"software:SoftwarePurpose";
   individual $"https://spdx.org/rdf/Software/SoftwarePurpose/archive" $"software:SoftwarePurpose";
   individual $"https://spdx.org/rdf/Software/SoftwarePurpose/bom" $"software:SoftwarePurpose";
   individual $"https://spdx.org/rdf/Software/SoftwarePurpose/configuration" $"software:SoftwarePurpose";
   individual $"https://spdx.org/rdf/Software/SoftwarePurpose/container" $"software:SoftwarePurpose";
   individual $"https://spdx.org/rdf/Software/SoftwarePurpose/data" $"software:SoftwarePurpose";
   individual $"https://spdx.org/rdf/Software/SoftwarePurpose/device" $"software:SoftwarePurpose";
   individual $"https://spdx.org/rdf/Software/SoftwarePurpose/documentation" $"software:SoftwarePurpose";
   individual $"https://spdx.org/rdf/Software/SoftwarePurpose/evidence" $"software:SoftwarePurpose";
   individual $"https://spdx.org/rdf/Software/SoftwarePurpose/executable" $"software:SoftwarePurpose";
   individual $"https://spdx.org/rdf/Software/SoftwarePurpose/file" $"software:SoftwarePurpose";
   individual $"https://spdx.org/rdf/Software/SoftwarePurpose/firmware" $"software:SoftwarePurpose";
   individual $"https://spdx.org/rdf/Software/SoftwarePurpose/framework" $"software:SoftwarePurpose";
   individual $"https://spdx.org/rdf/Software/SoftwarePurpose/install" $"software:SoftwarePurpose";
   individual $"https://spdx.org/rdf/Software/SoftwarePurpose/library" $"software:SoftwarePurpose";
   individual $"https://spdx.org/rdf/Software/SoftwarePurpose/manifest" $"software:SoftwarePurpose";
   individual $"https://spdx.org/rdf/Software/SoftwarePurpose/module" $"software:SoftwarePurpose";
   individual $"https://spdx.org/rdf/Software/SoftwarePurpose/operatingSystem" $"software:SoftwarePurpose";
   individual $"https://spdx.org/rdf/Software/SoftwarePurpose/other" $"software:SoftwarePurpose";
   individual $"https://spdx.org/rdf/Software/SoftwarePurpose/patch" $"software:SoftwarePurpose";
   individual $"https://spdx.org/rdf/Software/SoftwarePurpose/requirement" $"software:SoftwarePurpose";
   individual $"https://spdx.org/rdf/Software/SoftwarePurpose/source" $"software:SoftwarePurpose";
   individual $"https://spdx.org/rdf/Software/SoftwarePurpose/specification" $"software:SoftwarePurpose";
   property $"owl:DatatypeProperty" $"ai:autonomyType" $"ai:PresenceType"; property $"owl:DatatypeProperty" $"ai:domain" $"xsd:string";
   property $"owl:DatatypeProperty" $"ai:energyConsumption" $"xsd:string";
   property $"owl:DatatypeProperty" $"ai:hyperparameter" $"core:DictionaryEntry";
   property $"owl:DatatypeProperty" $"ai:informationAboutApplication" $"xsd:string";
   property $"owl:DatatypeProperty" $"ai:informationAboutTraining" $"xsd:string"; property $"owl:DatatypeProperty" $"ai:limitation" $"xsd:string";
   property $"owl:DatatypeProperty" $"ai:metric" $"core:DictionaryEntry";
   property $"owl:DatatypeProperty" $"ai:metricDecisionThreshold" $"core:DictionaryEntry";
   property $"owl:DatatypeProperty" $"ai:modelDataPreprocessing" $"xsd:string";
   property $"owl:DatatypeProperty" $"ai:modelExplainability" $"xsd:string";
   property $"owl:DatatypeProperty" $"ai:safetyRiskAssessment" $"ai:SafetyRiskAssessmentType";
   property $"owl:DatatypeProperty" $"ai:sensitivePersonalInformation" $"ai:PresenceType";
   property $"owl:DatatypeProperty" $"ai:standardCompliance" $"xsd:string"; property $"owl:DatatypeProperty" $"ai:typeOfModel" $"xsd:string";
   property $"owl:DatatypeProperty" $"build:buildEndTime" $"core:DateTime"; property $"owl:DatatypeProperty" $"build:buildId" $"xsd:string";
   property $"owl:DatatypeProperty" $"build:buildStartTime" $"core:DateTime"; property $"owl:DatatypeProperty" $"build:buildType" $"xsd:anyURI";
   property $"owl:DatatypeProperty" $"build:configSourceDigest" $"core:Hash";
   property $"owl:DatatypeProperty" $"build:configSourceEntrypoint" $"xsd:string";
   property $"owl:DatatypeProperty" $"build:configSourceUri" $"xsd:anyURI";
   property $"owl:DatatypeProperty" $"build:environment" $"core:DictionaryEntry";
   property $"owl:DatatypeProperty" $"build:parameters" $"core:DictionaryEntry"; shape $"core:Artifact"; shape $"core:Bom";
   shape $"core:ElementCollection"; shape $"core:LifecycleScopedRelationship";
   property $"owl:DatatypeProperty" $"core:algorithm" $"core:HashAlgorithm";
   property $"owl:DatatypeProperty" $"core:annotationType" $"core:AnnotationType";
   property $"owl:DatatypeProperty" $"core:begin" $"xsd:positiveInteger"; property $"owl:DatatypeProperty" $"core:builtTime" $"core:DateTime";
   property $"owl:DatatypeProperty" $"core:completeness" $"core:RelationshipCompleteness";
   property $"owl:DatatypeProperty" $"core:context" $"xsd:string"; property $"owl:DatatypeProperty" $"core:created" $"core:DateTime";
   property $"owl:ObjectProperty" $"core:createdBy" $"core:Agent"; property $"owl:ObjectProperty" $"core:createdUsing" $"core:Tool";
   property $"owl:DatatypeProperty" $"core:dataLicense" $"xsd:string"; property $"owl:DatatypeProperty" $"core:definingDocument" $"xsd:anyURI";
   property $"owl:DatatypeProperty" $"core:description" $"xsd:string"; property $"owl:ObjectProperty" $"core:element" $"core:Element";
   property $"owl:DatatypeProperty" $"core:end" $"xsd:positiveInteger"; property $"owl:DatatypeProperty" $"core:endTime" $"core:DateTime";
   JObj [($"@id", JStr $"core:extension")]; property $"owl:DatatypeProperty" $"core:externalId" $"xsd:anyURI";
   property $"owl:ObjectProperty" $"core:externalIdentifier" $"core:ExternalIdentifier";
   property $"owl:DatatypeProperty" $"core:externalIdentifierType" $"core:ExternalIdentifierType";
   property $"owl:ObjectProperty" $"core:externalReference" $"core:ExternalReference";
   property $"owl:DatatypeProperty" $"core:externalReferenceType" $"core:ExternalReferenceType";
   property $"owl:ObjectProperty" $"core:from" $"core:Element"; property $"owl:DatatypeProperty" $"core:hashValue" $"xsd:string";
   property $"owl:DatatypeProperty" $"core:identifier" $"xsd:string"; property $"owl:DatatypeProperty" $"core:identifierLocator" $"xsd:anyURI";
   property $"owl:DatatypeProperty" $"core:issuingAuthority" $"xsd:anyURI"; property $"owl:DatatypeProperty" $"core:key" $"xsd:string";
   property $"owl:DatatypeProperty" $"core:locationHint" $"xsd:anyURI"; property $"owl:DatatypeProperty" $"core:locator" $"xsd:anyURI";
   property $"owl:DatatypeProperty" $"core:namespace" $"xsd:anyURI"; property $"owl:ObjectProperty" $"core:originatedBy" $"core:Agent";
   property $"owl:DatatypeProperty" $"core:prefix" $"xsd:string"; property $"owl:DatatypeProperty" $"core:profile" $"core:ProfileIdentifierType";
   property $"owl:DatatypeProperty" $"core:relationshipType" $"core:RelationshipType";
   property $"owl:DatatypeProperty" $"core:releaseTime" $"core:DateTime"; property $"owl:ObjectProperty" $"core:rootElement" $"core:Element";
   property $"owl:DatatypeProperty" $"core:scope" $"core:LifecycleScopeType"; property $"owl:DatatypeProperty" $"core:specVersion" $"core:SemVer";
   property $"owl:DatatypeProperty" $"core:standard" $"xsd:string"; property $"owl:DatatypeProperty" $"core:startTime" $"core:DateTime";
   property $"owl:DatatypeProperty" $"core:statement" $"xsd:string"; property $"owl:ObjectProperty" $"core:subject" $"core:Element";
   property $"owl:DatatypeProperty" $"core:summary" $"xsd:string"; property $"owl:ObjectProperty" $"core:suppliedBy" $"core:Agent";
   property $"owl:ObjectProperty" $"core:to" $"core:Element"; property $"owl:DatatypeProperty" $"core:validUntilTime" $"core:DateTime";
   property $"owl:DatatypeProperty" $"core:value" $"xsd:string"; property $"owl:DatatypeProperty" $"dataset:anonymizationMethodUsed" $"xsd:string";
   property $"owl:DatatypeProperty" $"dataset:confidentialityLevel" $"dataset:ConfidentialityLevelType";
   property $"owl:DatatypeProperty" $"dataset:dataCollectionProcess" $"xsd:string";
   property $"owl:DatatypeProperty" $"dataset:dataPreprocessing" $"xsd:string";
   property $"owl:DatatypeProperty" $"dataset:datasetAvailability" $"dataset:DatasetAvailabilityType";
   property $"owl:DatatypeProperty" $"dataset:datasetNoise" $"xsd:string";
   property $"owl:DatatypeProperty" $"dataset:datasetSize" $"xsd:nonNegativeInteger";
   property $"owl:DatatypeProperty" $"dataset:datasetType" $"xsd:string";
   property $"owl:DatatypeProperty" $"dataset:datasetUpdateMechanism" $"xsd:string";
   property $"owl:DatatypeProperty" $"dataset:intendedUse" $"xsd:string"; property $"owl:DatatypeProperty" $"dataset:knownBias" $"xsd:string";
   property $"owl:DatatypeProperty" $"dataset:sensitivePersonalInformation" $"dataset:PresenceType";
   property $"owl:DatatypeProperty" $"dataset:sensor" $"core:DictionaryEntry";
   property $"owl:DatatypeProperty" $"licensing:additionComment" $"xsd:string";
   property $"owl:DatatypeProperty" $"licensing:additionId" $"xsd:string"; property $"owl:DatatypeProperty" $"licensing:additionName" $"xsd:string";
   property $"owl:DatatypeProperty" $"licensing:additionText" $"xsd:string";
   property $"owl:DatatypeProperty" $"licensing:isDeprecatedAdditionId" $"xsd:boolean";
   property $"owl:DatatypeProperty" $"licensing:isDeprecatedLicenseId" $"xsd:boolean";
   property $"owl:DatatypeProperty" $"licensing:isFsfLibre" $"xsd:boolean";
   property $"owl:DatatypeProperty" $"licensing:isOsiApproved" $"xsd:boolean";
   property $"owl:DatatypeProperty" $"licensing:licenseComment" $"xsd:string";
   property $"owl:DatatypeProperty" $"licensing:licenseId" $"xsd:string"; property $"owl:DatatypeProperty" $"licensing:licenseName" $"xsd:string";
   property $"owl:DatatypeProperty" $"licensing:licenseText" $"xsd:string";
   property $"owl:DatatypeProperty" $"licensing:standardAdditionTemplate" $"xsd:string";
   property $"owl:DatatypeProperty" $"licensing:standardLicenseHeader" $"xsd:string";
   property $"owl:DatatypeProperty" $"licensing:standardLicenseTemplate" $"xsd:string";
   property $"owl:ObjectProperty" $"licensing:subjectAddition" $"licensing:LicenseAddition";
   property $"owl:DatatypeProperty" $"security:actionStatement" $"xsd:string";
   property $"owl:DatatypeProperty" $"security:actionStatementTime" $"core:DateTime";
   property $"owl:ObjectProperty" $"security:assessedElement" $"core:Element";
   property $"owl:DatatypeProperty" $"security:catalogType" $"security:ExploitCatalogType";
   property $"owl:DatatypeProperty" $"security:decisionType" $"security:SsvcDecisionType";
   property $"owl:DatatypeProperty" $"security:exploited" $"xsd:boolean";
   property $"owl:DatatypeProperty" $"security:impactStatement" $"xsd:string";
   property $"owl:DatatypeProperty" $"security:impactStatementTime" $"core:DateTime";
   property $"owl:DatatypeProperty" $"security:justificationType" $"security:VexJustificationType";
   property $"owl:DatatypeProperty" $"security:locator" $"xsd:anyURI"; property $"owl:DatatypeProperty" $"security:probability" $"xsd:decimal";
   property $"owl:DatatypeProperty" $"security:statusNotes" $"xsd:string"; property $"owl:ObjectProperty" $"security:suppliedBy" $"core:Agent";
   property $"owl:DatatypeProperty" $"security:vexVersion" $"xsd:string";
   property $"owl:DatatypeProperty" $"software:additionalPurpose" $"software:SoftwarePurpose";
   property $"owl:DatatypeProperty" $"software:attributionText" $"xsd:string";
   property $"owl:DatatypeProperty" $"software:byteRange" $"core:PositiveIntegerRange";
   property $"owl:ObjectProperty" $"software:concludedLicense" $"licensing:LicenseField";
   property $"owl:DatatypeProperty" $"software:conditionality" $"software:DependencyConditionalityType";
   property $"owl:DatatypeProperty" $"software:contentIdentifier" $"xsd:anyURI";
   property $"owl:DatatypeProperty" $"software:contentType" $"core:MediaType";
   property $"owl:ObjectProperty" $"software:copyrightText" $"xsd:string";
   property $"owl:ObjectProperty" $"software:declaredLicense" $"licensing:LicenseField";
   property $"owl:DatatypeProperty" $"software:downloadLocation" $"xsd:anyURI"; property $"owl:DatatypeProperty" $"software:homePage" $"xsd:anyURI";
   property $"owl:DatatypeProperty" $"software:lineRange" $"core:PositiveIntegerRange";
   property $"owl:DatatypeProperty" $"software:packageUrl" $"xsd:anyURI"; property $"owl:DatatypeProperty" $"software:packageVersion" $"xsd:string";
   property $"owl:DatatypeProperty" $"software:primaryPurpose" $"software:SoftwarePurpose";
   property $"owl:DatatypeProperty" $"software:sbomType" $"software:SBOMType";
   property $"owl:DatatypeProperty" $"software:softwareLinkage" $"software:SoftwareDependencyLinkType";
   property $"owl:DatatypeProperty" $"software:sourceInfo" $"xsd:string"; shape $"core:Bundle"; shape $"core:ExternalIdentifier";
   shape $"core:ExternalReference"; shape $"core:Hash"; shape $"core:Payload"; shape $"core:Relationship"; shape $"core:SemVer"; shape $"core:Tool";
   property $"owl:DatatypeProperty" $"core:contentType" $"core:MediaType"; property $"owl:DatatypeProperty" $"core:name" $"xsd:string";
   property $"owl:ObjectProperty" $"core:verifiedUsing" $"core:IntegrityMethod";
   property $"owl:DatatypeProperty" $"licensing:deprecatedVersion" $"xsd:string";
   property $"owl:DatatypeProperty" $"licensing:listVersionAdded" $"xsd:string";
   property $"owl:ObjectProperty" $"licensing:member" $"licensing:AnyLicenseInfo";
   property $"owl:DatatypeProperty" $"licensing:obsoletedBy" $"xsd:string"; property $"owl:DatatypeProperty" $"licensing:seeAlso" $"xsd:anyURI";
   property $"owl:ObjectProperty" $"licensing:subjectLicense" $"licensing:License";
   property $"owl:DatatypeProperty" $"security:modifiedTime" $"core:DateTime";
   property $"owl:DatatypeProperty" $"security:publishedTime" $"core:DateTime"; property $"owl:DatatypeProperty" $"security:score" $"xsd:string";
   property $"owl:DatatypeProperty" $"security:vector" $"xsd:string"; property $"owl:DatatypeProperty" $"security:withdrawnTime" $"core:DateTime";
   shape $"software:Package"; property $"owl:DatatypeProperty" $"core:creationInfo" $"core:CreationInfo";
   property $"owl:DatatypeProperty" $"core:imports" $"core:ExternalMap"; property $"owl:DatatypeProperty" $"core:namespaces" $"core:NamespaceMap";
   property $"owl:DatatypeProperty" $"security:severity" $"xsd:string"; shape $"software:SoftwareArtifact"; class $"core:AnnotationType";
   shape $"core:CreationInfo"; shape $"core:ExternalMap"; shape $"core:IntegrityMethod"; shape $"core:NamespaceMap";
   shape $"core:PositiveIntegerRange"; shape $"licensing:LicenseAddition"; class $"security:ExploitCatalogType";
   shape $"security:VexVulnAssessmentRelationship"; shape $"core:MediaType"; class $"core:RelationshipCompleteness";
   property $"owl:DatatypeProperty" $"core:comment" $"xsd:string"; shape $"licensing:License"; class $"ai:SafetyRiskAssessmentType";
   class $"dataset:ConfidentialityLevelType"; class $"security:SsvcDecisionType"; shape $"security:VulnAssessmentRelationship";
   class $"software:SoftwareDependencyLinkType"; class $"ai:PresenceType"; class $"dataset:DatasetAvailabilityType";
   shape $"licensing:LicenseField"; class $"security:VexJustificationType"; class $"software:DependencyConditionalityType";
   class $"core:LifecycleScopeType"; shape $"licensing:AnyLicenseInfo"; class $"software:SBOMType"; shape $"core:Agent";
   class $"core:ProfileIdentifierType"; shape $"core:DictionaryEntry"; class $"core:ExternalIdentifierType"; shape $"core:Element";
   class $"core:ExternalReferenceType"; class $"core:HashAlgorithm"; class $"software:SoftwarePurpose"; shape $"core:DateTime";
   class $"core:RelationshipType"].
(** SPDX_OWL.json:1-5449 *)
Definition spdx_owl : json := JObj [($"@context", owl_prefixes); ($"@graph", JArr owl_graph)].
(** context.json:1-742 *)
Definition context_json : list (pystr * json) :=
  [($"ai", JStr $"https://spdx.org/rdf/AI/"); ($"build", JStr $"https://spdx.org/rdf/Build/"); ($"core", JStr $"https://spdx.org/rdf/Core/");
   ($"dataset", JStr $"https://spdx.org/rdf/Dataset/"); ($"licensing", JStr $"https://spdx.org/rdf/Licensing/");
   ($"ns0", JStr $"http://www.w3.org/2003/06/sw-vocab-status/ns#"); ($"owl", JStr $"http://www.w3.org/2002/07/owl#");
   ($"rdfs", JStr $"http://www.w3.org/2000/01/rdf-schema#"); ($"security", JStr $"https://spdx.org/rdf/Security/");
   ($"sh", JStr $"http://www.w3.org/ns/shacl#"); ($"software", JStr $"https://spdx.org/rdf/Software/");
   ($"xsd", JStr $"http://www.w3.org/2001/XMLSchema#"); ($"AIPackage", JStr $"ai:AIPackage"); ($"Build", JStr $"build:Build");
   ($"Annotation", JStr $"core:Annotation"); ($"AnonymousPayload", JStr $"core:AnonymousPayload"); ($"Organization", JStr $"core:Organization");
   ($"Person", JStr $"core:Person"); ($"SoftwareAgent", JStr $"core:SoftwareAgent"); ($"SpdxDocument", JStr $"core:SpdxDocument");
   ($"Dataset", JStr $"dataset:Dataset"); ($"ConjunctiveLicenseSet", JStr $"licensing:ConjunctiveLicenseSet");
   ($"CustomLicense", JStr $"licensing:CustomLicense"); ($"CustomLicenseAddition", JStr $"licensing:CustomLicenseAddition");
   ($"DisjunctiveLicenseSet", JStr $"licensing:DisjunctiveLicenseSet"); ($"ListedLicense", JStr $"licensing:ListedLicense");
   ($"ListedLicenseException", JStr $"licensing:ListedLicenseException"); ($"NoAssertionLicense", JStr $"licensing:NoAssertionLicense");
   ($"NoneLicense", JStr $"licensing:NoneLicense"); ($"OrLaterOperator", JStr $"licensing:OrLaterOperator");
   ($"WithAdditionOperator", JStr $"licensing:WithAdditionOperator");
   ($"CvssV2VulnAssessmentRelationship", JStr $"security:CvssV2VulnAssessmentRelationship");
   ($"CvssV3VulnAssessmentRelationship", JStr $"security:CvssV3VulnAssessmentRelationship");
   ($"EpssVulnAssessmentRelationship", JStr $"security:EpssVulnAssessmentRelationship");
   ($"ExploitCatalogVulnAssessmentRelationship", JStr $"security:ExploitCatalogVulnAssessmentRelationship");
   ($"SsvcVulnAssessmentRelationship", JStr $"security:SsvcVulnAssessmentRelationship");
   ($"VexAffectedVulnAssessmentRelationship", JStr $"security:VexAffectedVulnAssessmentRelationship");
   ($"VexFixedVulnAssessmentRelationship", JStr $"security:VexFixedVulnAssessmentRelationship");
   ($"VexNotAffectedVulnAssessmentRelationship", JStr $"security:VexNotAffectedVulnAssessmentRelationship");
   ($"VexUnderInvestigationVulnAssessmentRelationship", JStr $"security:VexUnderInvestigationVulnAssessmentRelationship");
   ($"Vulnerability", JStr $"security:Vulnerability"); ($"File", JStr $"software:File"); ($"Sbom", JStr $"software:Sbom");
   ($"Snippet", JStr $"software:Snippet"); ($"SoftwareDependencyRelationship", JStr $"software:SoftwareDependencyRelationship");
   ($"autonomyType", JObj [($"@id", JStr $"ai:autonomyType"); ($"@type", JStr $"ai:PresenceType")]);
   ($"domain", JObj [($"@id", JStr $"ai:domain"); ($"@type", JStr $"xsd:string")]);
   ($"energyConsumption", JObj [($"@id", JStr $"ai:energyConsumption"); ($"@type", JStr $"xsd:string")]);
   ($"hyperparameter", JObj [($"@id", JStr $"ai:hyperparameter"); ($"@type", JStr $"core:DictionaryEntry")]);
   ($"informationAboutApplication", JObj [($"@id", JStr $"ai:informationAboutApplication"); ($"@type", JStr $"xsd:string")]);
   ($"informationAboutTraining", JObj [($"@id", JStr $"ai:informationAboutTraining"); ($"@type", JStr $"xsd:string")]);
   ($"limitation", JObj [($"@id", JStr $"ai:limitation"); ($"@type", JStr $"xsd:string")]);
   ($"metric", JObj [($"@id", JStr $"ai:metric"); ($"@type", JStr $"core:DictionaryEntry")]);
   ($"metricDecisionThreshold", JObj [($"@id", JStr $"ai:metricDecisionThreshold"); ($"@type", JStr $"core:DictionaryEntry")]);
   ($"modelDataPreprocessing", JObj [($"@id", JStr $"ai:modelDataPreprocessing"); ($"@type", JStr $"xsd:string")]);
   ($"modelExplainability", JObj [($"@id", JStr $"ai:modelExplainability"); ($"@type", JStr $"xsd:string")]);
   ($"safetyRiskAssessment", JObj [($"@id", JStr $"ai:safetyRiskAssessment"); ($"@type", JStr $"@vocab"); ($"@context", JObj [($"@vocab", JStr $"ai:SafetyRiskAssessmentType/")])]);
   ($"sensitivePersonalInformation", JObj [($"@id", JStr $"dataset:sensitivePersonalInformation"); ($"@type", JStr $"@vocab"); ($"@context", JObj [($"@vocab", JStr $"dataset:PresenceType/")])]);
   ($"standardCompliance", JObj [($"@id", JStr $"ai:standardCompliance"); ($"@type", JStr $"xsd:string")]);
   ($"typeOfModel", JObj [($"@id", JStr $"ai:typeOfModel"); ($"@type", JStr $"xsd:string")]);
   ($"buildEndTime", JObj [($"@id", JStr $"build:buildEndTime"); ($"@type", JStr $"core:DateTime")]);
   ($"buildId", JObj [($"@id", JStr $"build:buildId"); ($"@type", JStr $"xsd:string")]);
   ($"buildStartTime", JObj [($"@id", JStr $"build:buildStartTime"); ($"@type", JStr $"core:DateTime")]);
   ($"buildType", JObj [($"@id", JStr $"build:buildType"); ($"@type", JStr $"xsd:anyURI")]);
   ($"configSourceDigest", JObj [($"@id", JStr $"build:configSourceDigest"); ($"@type", JStr $"core:Hash")]);
   ($"configSourceEntrypoint", JObj [($"@id", JStr $"build:configSourceEntrypoint"); ($"@type", JStr $"xsd:string")]);
   ($"configSourceUri", JObj [($"@id", JStr $"build:configSourceUri"); ($"@type", JStr $"xsd:anyURI")]);
   ($"environment", JObj [($"@id", JStr $"build:environment"); ($"@type", JStr $"core:DictionaryEntry")]);
   ($"parameters", JObj [($"@id", JStr $"build:parameters"); ($"@type", JStr $"core:DictionaryEntry")]); ($"Artifact", JStr $"core:Artifact");
   ($"Bom", JStr $"core:Bom"); ($"ElementCollection", JStr $"core:ElementCollection");
   ($"LifecycleScopedRelationship", JStr $"core:LifecycleScopedRelationship");
   ($"algorithm", JObj [($"@id", JStr $"core:algorithm"); ($"@type", JStr $"@vocab"); ($"@context", JObj [($"@vocab", JStr $"core:HashAlgorithm/")])]);
   ($"annotationType", JObj [($"@id", JStr $"core:annotationType"); ($"@type", JStr $"@vocab"); ($"@context", JObj [($"@vocab", JStr $"core:AnnotationType/")])]);
   ($"begin", JObj [($"@id", JStr $"core:begin"); ($"@type", JStr $"xsd:positiveInteger")]);
   ($"builtTime", JObj [($"@id", JStr $"core:builtTime"); ($"@type", JStr $"core:DateTime")]);
   ($"completeness", JObj [($"@id", JStr $"core:completeness"); ($"@type", JStr $"@vocab"); ($"@context", JObj [($"@vocab", JStr $"core:RelationshipCompleteness/")])]);
   ($"context", JObj [($"@id", JStr $"core:context"); ($"@type", JStr $"xsd:string")]);
   ($"created", JObj [($"@id", JStr $"core:created"); ($"@type", JStr $"core:DateTime")]);
   ($"createdBy", JObj [($"@id", JStr $"core:createdBy"); ($"@type", JStr $"@id")]);
   ($"createdUsing", JObj [($"@id", JStr $"core:createdUsing"); ($"@type", JStr $"core:Tool")]);
   ($"dataLicense", JObj [($"@id", JStr $"core:dataLicense"); ($"@type", JStr $"xsd:string")]);
   ($"definingDocument", JObj [($"@id", JStr $"core:definingDocument"); ($"@type", JStr $"xsd:anyURI")]);
   ($"description", JObj [($"@id", JStr $"core:description"); ($"@type", JStr $"xsd:string")]);
   ($"element", JObj [($"@id", JStr $"core:element"); ($"@type", JStr $"@id")]);
   ($"end", JObj [($"@id", JStr $"core:end"); ($"@type", JStr $"xsd:positiveInteger")]);
   ($"endTime", JObj [($"@id", JStr $"core:endTime"); ($"@type", JStr $"core:DateTime")]);
   ($"externalId", JObj [($"@id", JStr $"core:externalId"); ($"@type", JStr $"xsd:anyURI")]);
   ($"externalIdentifier", JObj [($"@id", JStr $"core:externalIdentifier"); ($"@type", JStr $"core:ExternalIdentifier")]);
   ($"externalIdentifierType", JObj [($"@id", JStr $"core:externalIdentifierType"); ($"@type", JStr $"@vocab"); ($"@context", JObj [($"@vocab", JStr $"core:ExternalIdentifierType/")])]);
   ($"externalReference", JObj [($"@id", JStr $"core:externalReference"); ($"@type", JStr $"core:ExternalReference")]);
   ($"externalReferenceType", JObj [($"@id", JStr $"core:externalReferenceType"); ($"@type", JStr $"@vocab"); ($"@context", JObj [($"@vocab", JStr $"core:ExternalReferenceType/")])]);
   ($"from", JObj [($"@id", JStr $"core:from"); ($"@type", JStr $"@id")]);
   ($"hashValue", JObj [($"@id", JStr $"core:hashValue"); ($"@type", JStr $"xsd:string")]);
   ($"identifier", JObj [($"@id", JStr $"core:identifier"); ($"@type", JStr $"xsd:string")]);
   ($"identifierLocator", JObj [($"@id", JStr $"core:identifierLocator"); ($"@type", JStr $"xsd:anyURI")]);
   ($"issuingAuthority", JObj [($"@id", JStr $"core:issuingAuthority"); ($"@type", JStr $"xsd:anyURI")]);
   ($"key", JObj [($"@id", JStr $"core:key"); ($"@type", JStr $"xsd:string")]);
   ($"locationHint", JObj [($"@id", JStr $"core:locationHint"); ($"@type", JStr $"xsd:anyURI")]);
   ($"locator", JObj [($"@id", JStr $"core:locator"); ($"@type", JStr $"xsd:anyURI")]);
   ($"namespace", JObj [($"@id", JStr $"core:namespace"); ($"@type", JStr $"xsd:anyURI")]);
   ($"originatedBy", JObj [($"@id", JStr $"core:originatedBy"); ($"@type", JStr $"@id")]);
   ($"prefix", JObj [($"@id", JStr $"core:prefix"); ($"@type", JStr $"xsd:string")]);
   ($"profile", JObj [($"@id", JStr $"core:profile"); ($"@type", JStr $"@vocab"); ($"@context", JObj [($"core", JStr $"https://spdx.org/rdf/Core/ProfileIdentifierType/core"); ($"software", JStr $"https://spdx.org/rdf/Core/ProfileIdentifierType/software"); ($"licensing", JStr $"https://spdx.org/rdf/Core/ProfileIdentifierType/licensing"); ($"security", JStr $"https://spdx.org/rdf/Core/ProfileIdentifierType/security"); ($"build", JStr $"https://spdx.org/rdf/Core/ProfileIdentifierType/build"); ($"ai", JStr $"https://spdx.org/rdf/Core/ProfileIdentifierType/ai"); ($"dataset", JStr $"https://spdx.org/rdf/Core/ProfileIdentifierType/dataset"); ($"usage", JStr $"https://spdx.org/rdf/Core/ProfileIdentifierType/usage"); ($"extension", JStr $"https://spdx.org/rdf/Core/ProfileIdentifierType/extension")])]);
   ($"relationshipType", JObj [($"@id", JStr $"core:relationshipType"); ($"@type", JStr $"@vocab"); ($"@context", JObj [($"@vocab", JStr $"core:RelationshipType/")])]);
   ($"releaseTime", JObj [($"@id", JStr $"core:releaseTime"); ($"@type", JStr $"core:DateTime")]);
   ($"rootElement", JObj [($"@id", JStr $"core:rootElement"); ($"@type", JStr $"@id")]);
   ($"scope", JObj [($"@id", JStr $"core:scope"); ($"@type", JStr $"@vocab"); ($"@context", JObj [($"@vocab", JStr $"core:LifecycleScopeType/")])]);
   ($"specVersion", JObj [($"@id", JStr $"core:specVersion"); ($"@type", JStr $"core:SemVer")]);
   ($"standard", JObj [($"@id", JStr $"core:standard"); ($"@type", JStr $"xsd:string")]);
   ($"startTime", JObj [($"@id", JStr $"core:startTime"); ($"@type", JStr $"core:DateTime")]);
   ($"statement", JObj [($"@id", JStr $"core:statement"); ($"@type", JStr $"xsd:string")]);
   ($"subject", JObj [($"@id", JStr $"core:subject"); ($"@type", JStr $"@id")]);
   ($"summary", JObj [($"@id", JStr $"core:summary"); ($"@type", JStr $"xsd:string")]);
   ($"suppliedBy", JObj [($"@id", JStr $"core:suppliedBy"); ($"@type", JStr $"@id")]);
   ($"to", JObj [($"@id", JStr $"core:to"); ($"@type", JStr $"@id")]);
   ($"validUntilTime", JObj [($"@id", JStr $"core:validUntilTime"); ($"@type", JStr $"core:DateTime")]);
   ($"value", JObj [($"@id", JStr $"core:value"); ($"@type", JStr $"xsd:string")]);
   ($"anonymizationMethodUsed", JObj [($"@id", JStr $"dataset:anonymizationMethodUsed"); ($"@type", JStr $"xsd:string")]);
   ($"confidentialityLevel", JObj [($"@id", JStr $"dataset:confidentialityLevel"); ($"@type", JStr $"@vocab"); ($"@context", JObj [($"@vocab", JStr $"dataset:ConfidentialityLevelType/")])]);
   ($"dataCollectionProcess", JObj [($"@id", JStr $"dataset:dataCollectionProcess"); ($"@type", JStr $"xsd:string")]);
   ($"dataPreprocessing", JObj [($"@id", JStr $"dataset:dataPreprocessing"); ($"@type", JStr $"xsd:string")]);
   ($"datasetAvailability", JObj [($"@id", JStr $"dataset:datasetAvailability"); ($"@type", JStr $"@vocab"); ($"@context", JObj [($"@vocab", JStr $"dataset:DatasetAvailabilityType/")])]);
   ($"datasetNoise", JObj [($"@id", JStr $"dataset:datasetNoise"); ($"@type", JStr $"xsd:string")]);
   ($"datasetSize", JObj [($"@id", JStr $"dataset:datasetSize"); ($"@type", JStr $"xsd:nonNegativeInteger")]);
   ($"datasetType", JObj [($"@id", JStr $"dataset:datasetType"); ($"@type", JStr $"xsd:string")]);
   ($"datasetUpdateMechanism", JObj [($"@id", JStr $"dataset:datasetUpdateMechanism"); ($"@type", JStr $"xsd:string")]);
   ($"intendedUse", JObj [($"@id", JStr $"dataset:intendedUse"); ($"@type", JStr $"xsd:string")]);
   ($"knownBias", JObj [($"@id", JStr $"dataset:knownBias"); ($"@type", JStr $"xsd:string")]);
   ($"sensor", JObj [($"@id", JStr $"dataset:sensor"); ($"@type", JStr $"core:DictionaryEntry")]);
   ($"additionComment", JObj [($"@id", JStr $"licensing:additionComment"); ($"@type", JStr $"xsd:string")]);
   ($"additionId", JObj [($"@id", JStr $"licensing:additionId"); ($"@type", JStr $"xsd:string")]);
   ($"additionName", JObj [($"@id", JStr $"licensing:additionName"); ($"@type", JStr $"xsd:string")]);
   ($"additionText", JObj [($"@id", JStr $"licensing:additionText"); ($"@type", JStr $"xsd:string")]);
   ($"isDeprecatedAdditionId", JObj [($"@id", JStr $"licensing:isDeprecatedAdditionId"); ($"@type", JStr $"xsd:boolean")]);
   ($"isDeprecatedLicenseId", JObj [($"@id", JStr $"licensing:isDeprecatedLicenseId"); ($"@type", JStr $"xsd:boolean")]);
   ($"isFsfLibre", JObj [($"@id", JStr $"licensing:isFsfLibre"); ($"@type", JStr $"xsd:boolean")]);
   ($"isOsiApproved", JObj [($"@id", JStr $"licensing:isOsiApproved"); ($"@type", JStr $"xsd:boolean")]);
   ($"licenseComment", JObj [($"@id", JStr $"licensing:licenseComment"); ($"@type", JStr $"xsd:string")]);
   ($"licenseId", JObj [($"@id", JStr $"licensing:licenseId"); ($"@type", JStr $"xsd:string")]);
   ($"licenseName", JObj [($"@id", JStr $"licensing:licenseName"); ($"@type", JStr $"xsd:string")]);
   ($"licenseText", JObj [($"@id", JStr $"licensing:licenseText"); ($"@type", JStr $"xsd:string")]);
   ($"standardAdditionTemplate", JObj [($"@id", JStr $"licensing:standardAdditionTemplate"); ($"@type", JStr $"xsd:string")]);
   ($"standardLicenseHeader", JObj [($"@id", JStr $"licensing:standardLicenseHeader"); ($"@type", JStr $"xsd:string")]);
   ($"standardLicenseTemplate", JObj [($"@id", JStr $"licensing:standardLicenseTemplate"); ($"@type", JStr $"xsd:string")]);
   ($"subjectAddition", JObj [($"@id", JStr $"licensing:subjectAddition"); ($"@type", JStr $"licensing:LicenseAddition")]);
   ($"actionStatement", JObj [($"@id", JStr $"security:actionStatement"); ($"@type", JStr $"xsd:string")]);
   ($"actionStatementTime", JObj [($"@id", JStr $"security:actionStatementTime"); ($"@type", JStr $"core:DateTime")]);
   ($"assessedElement", JObj [($"@id", JStr $"security:assessedElement"); ($"@type", JStr $"@id")]);
   ($"catalogType", JObj [($"@id", JStr $"security:catalogType"); ($"@type", JStr $"@vocab"); ($"@context", JObj [($"@vocab", JStr $"security:ExploitCatalogType/")])]);
   ($"decisionType", JObj [($"@id", JStr $"security:decisionType"); ($"@type", JStr $"@vocab"); ($"@context", JObj [($"@vocab", JStr $"security:SsvcDecisionType/")])]);
   ($"exploited", JObj [($"@id", JStr $"security:exploited"); ($"@type", JStr $"xsd:boolean")]);
   ($"impactStatement", JObj [($"@id", JStr $"security:impactStatement"); ($"@type", JStr $"xsd:string")]);
   ($"impactStatementTime", JObj [($"@id", JStr $"security:impactStatementTime"); ($"@type", JStr $"core:DateTime")]);
   ($"justificationType", JObj [($"@id", JStr $"security:justificationType"); ($"@type", JStr $"@vocab"); ($"@context", JObj [($"@vocab", JStr $"security:VexJustificationType/")])]);
   ($"probability", JObj [($"@id", JStr $"security:probability"); ($"@type", JStr $"xsd:decimal")]);
   ($"statusNotes", JObj [($"@id", JStr $"security:statusNotes"); ($"@type", JStr $"xsd:string")]);
   ($"vexVersion", JObj [($"@id", JStr $"security:vexVersion"); ($"@type", JStr $"xsd:string")]);
   ($"additionalPurpose", JObj [($"@id", JStr $"software:additionalPurpose"); ($"@type", JStr $"software:SoftwarePurpose")]);
   ($"attributionText", JObj [($"@id", JStr $"software:attributionText"); ($"@type", JStr $"xsd:string")]);
   ($"byteRange", JObj [($"@id", JStr $"software:byteRange"); ($"@type", JStr $"core:PositiveIntegerRange")]);
   ($"concludedLicense", JObj [($"@id", JStr $"software:concludedLicense"); ($"@type", JStr $"licensing:LicenseField")]);
   ($"conditionality", JObj [($"@id", JStr $"software:conditionality"); ($"@type", JStr $"@vocab"); ($"@context", JObj [($"@vocab", JStr $"software:DependencyConditionalityType/")])]);
   ($"contentIdentifier", JObj [($"@id", JStr $"software:contentIdentifier"); ($"@type", JStr $"xsd:anyURI")]);
   ($"contentType", JObj [($"@id", JStr $"core:contentType"); ($"@type", JStr $"core:MediaType")]);
   ($"copyrightText", JObj [($"@id", JStr $"software:copyrightText"); ($"@type", JStr $"xsd:string")]);
   ($"declaredLicense", JObj [($"@id", JStr $"software:declaredLicense"); ($"@type", JStr $"licensing:LicenseField")]);
   ($"downloadLocation", JObj [($"@id", JStr $"software:downloadLocation"); ($"@type", JStr $"xsd:anyURI")]);
   ($"homePage", JObj [($"@id", JStr $"software:homePage"); ($"@type", JStr $"xsd:anyURI")]);
   ($"lineRange", JObj [($"@id", JStr $"software:lineRange"); ($"@type", JStr $"core:PositiveIntegerRange")]);
   ($"packageUrl", JObj [($"@id", JStr $"software:packageUrl"); ($"@type", JStr $"xsd:anyURI")]);
   ($"packageVersion", JObj [($"@id", JStr $"software:packageVersion"); ($"@type", JStr $"xsd:string")]);
   ($"primaryPurpose", JObj [($"@id", JStr $"software:primaryPurpose"); ($"@type", JStr $"software:SoftwarePurpose")]);
   ($"sbomType", JObj [($"@id", JStr $"software:sbomType"); ($"@type", JStr $"@vocab"); ($"@context", JObj [($"@vocab", JStr $"software:SBOMType/")])]);
   ($"softwareLinkage", JObj [($"@id", JStr $"software:softwareLinkage"); ($"@type", JStr $"@vocab"); ($"@context", JObj [($"@vocab", JStr $"software:SoftwareDependencyLinkType/")])]);
   ($"sourceInfo", JObj [($"@id", JStr $"software:sourceInfo"); ($"@type", JStr $"xsd:string")]); ($"Bundle", JStr $"core:Bundle");
   ($"ExternalIdentifier", JStr $"core:ExternalIdentifier"); ($"ExternalReference", JStr $"core:ExternalReference"); ($"Hash", JStr $"core:Hash");
   ($"Payload", JStr $"core:Payload"); ($"Relationship", JStr $"core:Relationship"); ($"SemVer", JStr $"core:SemVer"); ($"Tool", JStr $"core:Tool");
   ($"name", JObj [($"@id", JStr $"core:name"); ($"@type", JStr $"xsd:string")]);
   ($"verifiedUsing", JObj [($"@id", JStr $"core:verifiedUsing"); ($"@type", JStr $"core:IntegrityMethod")]);
   ($"deprecatedVersion", JObj [($"@id", JStr $"licensing:deprecatedVersion"); ($"@type", JStr $"xsd:string")]);
   ($"listVersionAdded", JObj [($"@id", JStr $"licensing:listVersionAdded"); ($"@type", JStr $"xsd:string")]);
   ($"member", JObj [($"@id", JStr $"licensing:member"); ($"@type", JStr $"licensing:AnyLicenseInfo")]);
   ($"obsoletedBy", JObj [($"@id", JStr $"licensing:obsoletedBy"); ($"@type", JStr $"xsd:string")]);
   ($"seeAlso", JObj [($"@id", JStr $"licensing:seeAlso"); ($"@type", JStr $"xsd:anyURI")]);
   ($"subjectLicense", JObj [($"@id", JStr $"licensing:subjectLicense"); ($"@type", JStr $"licensing:License")]);
   ($"modifiedTime", JObj [($"@id", JStr $"security:modifiedTime"); ($"@type", JStr $"core:DateTime")]);
   ($"publishedTime", JObj [($"@id", JStr $"security:publishedTime"); ($"@type", JStr $"core:DateTime")]);
   ($"score", JObj [($"@id", JStr $"security:score"); ($"@type", JStr $"xsd:string")]);
   ($"vector", JObj [($"@id", JStr $"security:vector"); ($"@type", JStr $"xsd:string")]);
   ($"withdrawnTime", JObj [($"@id", JStr $"security:withdrawnTime"); ($"@type", JStr $"core:DateTime")]); ($"Package", JStr $"software:Package");
   ($"creationInfo", JObj [($"@id", JStr $"core:creationInfo"); ($"@type", JStr $"core:CreationInfo")]);
   ($"imports", JObj [($"@id", JStr $"core:imports"); ($"@type", JStr $"core:ExternalMap")]);
   ($"namespaces", JObj [($"@id", JStr $"core:namespaces"); ($"@type", JStr $"core:NamespaceMap")]);
   ($"severity", JObj [($"@id", JStr $"security:severity"); ($"@type", JStr $"xsd:string")]);
   ($"SoftwareArtifact", JStr $"software:SoftwareArtifact"); ($"AnnotationType", JStr $"core:AnnotationType");
   ($"CreationInfo", JStr $"core:CreationInfo"); ($"ExternalMap", JStr $"core:ExternalMap"); ($"IntegrityMethod", JStr $"core:IntegrityMethod");
   ($"NamespaceMap", JStr $"core:NamespaceMap"); ($"PositiveIntegerRange", JStr $"core:PositiveIntegerRange");
   ($"LicenseAddition", JStr $"licensing:LicenseAddition"); ($"ExploitCatalogType", JStr $"security:ExploitCatalogType");
   ($"VexVulnAssessmentRelationship", JStr $"security:VexVulnAssessmentRelationship"); ($"MediaType", JStr $"core:MediaType");
   ($"RelationshipCompleteness", JStr $"core:RelationshipCompleteness");
   ($"comment", JObj [($"@id", JStr $"core:comment"); ($"@type", JStr $"xsd:string")]); ($"License", JStr $"licensing:License");
   ($"SafetyRiskAssessmentType", JStr $"ai:SafetyRiskAssessmentType"); ($"ConfidentialityLevelType", JStr $"dataset:ConfidentialityLevelType");
   ($"SsvcDecisionType", JStr $"security:SsvcDecisionType"); ($"VulnAssessmentRelationship", JStr $"security:VulnAssessmentRelationship");
   ($"SoftwareDependencyLinkType", JStr $"software:SoftwareDependencyLinkType"); ($"PresenceType", JStr $"ai:PresenceType");
   ($"DatasetAvailabilityType", JStr $"dataset:DatasetAvailabilityType"); ($"LicenseField", JStr $"licensing:LicenseField");
   ($"VexJustificationType", JStr $"security:VexJustificationType");
   ($"DependencyConditionalityType", JStr $"software:DependencyConditionalityType"); ($"LifecycleScopeType", JStr $"core:LifecycleScopeType");
   ($"AnyLicenseInfo", JStr $"licensing:AnyLicenseInfo"); ($"SBOMType", JStr $"software:SBOMType"); ($"Agent", JStr $"core:Agent");
   ($"ProfileIdentifierType", JStr $"core:ProfileIdentifierType"); ($"DictionaryEntry", JStr $"core:DictionaryEntry");
   ($"ExternalIdentifierType", JStr $"core:ExternalIdentifierType"); ($"Element", JStr $"core:Element");
   ($"ExternalReferenceType", JStr $"core:ExternalReferenceType"); ($"HashAlgorithm", JStr $"core:HashAlgorithm");
   ($"SoftwarePurpose", JStr $"software:SoftwarePurpose"); ($"DateTime", JStr $"core:DateTime");
   ($"RelationshipType", JStr $"core:RelationshipType")].
