(** The type-checked classes of spdx3/model: inheritance, abstract classes and constructors.  The decorator and the helper that sets the
    values are those of Typing.v (common/typing).  The table of classes is a transcript of the class definitions in spdx3/model.

    What beartype does is again an argument: which item of a list it looks at, and which item of a dictionary, if any (this differs between
    its versions). *)
From Verif Require Import Py Data Typing.

(** the type hints; Optional[T] is [TOr T TNone].  [TIs c] is the hint c of a class or enumeration: isinstance, so instances of
    subclasses fit.  Classes of the SPDX 2 model have the prefix "spdx2.". *)
Inductive hint3 :=
| TNone | TStr | TBool | TInt | TDatetime
| TIs (name : pystr)
| TOr (a b : hint3)
| TList (a : hint3)
| TDict (k v : hint3).

(** a parameter of __init__: its hint, which is not checked; its default; the value that replaces None in the body *)
Record param3 := { p_name : pystr; p_hint : hint3; p_default : option pyval; p_none : option pyval }.
(** a class: its base class in the table, its own annotated fields, and the parameters of __init__, unless that is abstract.
    (Every class with abstract __init__ descends from ABC.) *)
Record decl := { d_name : pystr; d_base : option pystr; d_fields : list (pystr * hint3); d_init : option (list param3) }.

Definition req (n : pystr) (h : hint3) : param3 := {| p_name := n; p_hint := h; p_default := None; p_none := None |}.
Definition rql (n : pystr) (h : hint3) : param3 := {| p_name := n; p_hint := h; p_default := None; p_none := Some (VList []) |}.
Definition opt (n : pystr) (h : hint3) : param3 := {| p_name := n; p_hint := TOr h TNone; p_default := Some VNone; p_none := None |}.
Definition lst (n : pystr) (h : hint3) : param3 := {| p_name := n; p_hint := TOr h TNone; p_default := Some VNone; p_none := Some (VList []) |}.
Definition dct (n : pystr) (h : hint3) : param3 := {| p_name := n; p_hint := TOr h TNone; p_default := Some VNone; p_none := Some (VDict []) |}.
Definition dft (n : pystr) (h : hint3) (v : pyval) : param3 := {| p_name := n; p_hint := h; p_default := Some v; p_none := None |}.

Section Table.
Context (T : list decl).

Definition decl_of (name : pystr) : option decl := find (fun d => str_eqb (d_name d) name) T.
(** isinstance(v, c) for an instance v of the class [cls]; the number bounds the length of the chain of base classes *)
Fixpoint derives (n : nat) (cls c : pystr) : bool :=
  str_eqb cls c ||
  match n with
  | O => false
  | S n' => match decl_of cls with
            | Some d => match d_base d with Some b => derives n' b c | None => false end
            | None => false
            end
  end.
(** dataclasses.fields: the fields of the base class, then the own ones; a field that is declared again keeps its place *)
Fixpoint fields_of (n : nat) (d : decl) : list (pystr * hint3) :=
  let inherited := match n, d_base d with
                   | S n', Some b => match decl_of b with Some e => fields_of n' e | None => [] end
                   | _, _ => []
                   end in
  fold_left (fun l fh => dict_set (fst fh) (snd fh) l) (d_fields d) inherited.
Definition depth : nat := List.length T.

(** what the type checker looks at: an item of a list, and an item of a dictionary or none *)
Record choice := { ch_list : nat; ch_dict : option nat }.
Fixpoint accepts3 (r : choice) (h : hint3) (v : pyval) : bool :=
  match h with
  | TNone => match v with VNone => true | _ => false end
  | TStr => match v with VStr _ => true | _ => false end
  | TBool => match v with VBool _ => true | _ => false end
  | TInt => match v with VInt _ | VBool _ => true | _ => false end
  | TDatetime => match v with VDatetime _ => true | _ => false end
  | TIs name => match v with VObj c _ => derives depth c name | _ => false end
  | TOr a b => accepts3 r a v || accepts3 r b v
  | TList a =>
      match v with
      | VList [] => true
      | VList ((x :: _) as l) => accepts3 r a (nth (ch_list r mod List.length l) l x)
      | _ => false
      end
  | TDict a b =>
      match v with
      | VDict [] => true
      | VDict ((x :: _) as l) =>
          match ch_dict r with
          | None => true
          | Some i => accepts3 r a (fst (nth (i mod List.length l) l x)) && accepts3 r b (snd (nth (i mod List.length l) l x))
          end
      | _ => false
      end
  end.

(** dataclass_with_properties.py:25-45  the setter of a property, for an instance of the class [cls] with these fields *)
Definition set_field3 (r : choice) (cls : pystr) (fields : list (pystr * hint3)) (fld : pystr) (v : pyval) (i : instance) : result instance :=
  match assoc fld fields with
  | None => Raise (EAttr fld)
  | Some h => if accepts3 r h v then Ok (dict_set fld v i) else Raise (EType (setter_message cls fld))
  end.
(** type_checks.py:11-31 *)
Fixpoint set_values3 (rs : nat -> choice) (cls : pystr) (all fields : list (pystr * hint3)) (locals : list (pystr * pyval))
  (i : instance) (errors : list pystr) : result instance :=
  match fields with
  | [] => match errors with [] => Ok i | _ => Raise (EConstructor errors) end
  | (key, _) :: fields' =>
      let value := match assoc key locals with Some v => v | None => VNone end in
      match set_field3 (rs O) cls all key value i with
      | Ok i' => set_values3 (fun k => rs (S k)) cls all fields' locals i' errors
      | Raise (EType m) => set_values3 (fun k => rs (S k)) cls all fields' locals i (errors ++ [m])
      | Raise e => Raise e
      end
  end.
(** binding of keyword arguments to the parameters, and the replacement of None in the bodies of __init__ *)
Fixpoint bind_params3 (ps : list param3) (kwargs : list (pystr * pyval)) : result (list (pystr * pyval)) :=
  match ps with
  | [] => Ok []
  | p :: ps' =>
      do v <- match assoc (p_name p) kwargs with
              | Some v => Ok v
              | None => match p_default p with
                        | Some v => Ok v
                        | None => Raise (EType ($"missing required argument: " ++ p_name p))
                        end
              end;
      let v := match v, p_none p with VNone, Some w => w | _, _ => v end in
      do l <- bind_params3 ps' kwargs;
      Ok ((p_name p, v) :: l)
  end.
(** cls(k1=v1, ...) *)
Definition new3 (rs : nat -> choice) (cls : pystr) (kwargs : list (pystr * pyval)) : result pyval :=
  match decl_of cls with
  | None => Raise (EAttr cls)
  | Some d =>
      match d_init d with
      | None => Raise (EType ($"Can't instantiate abstract class " ++ cls))
      | Some ps =>
          match filter (fun kv => negb (str_in (fst kv) (map p_name ps))) kwargs with
          | kv :: _ => Raise (EType ($"got an unexpected keyword argument " ++ fst kv))
          | [] =>
              do locals <- bind_params3 ps kwargs;
              do i <- set_values3 rs cls (fields_of depth d) (fields_of depth d) locals [] [];
              Ok (VObj cls i)
          end
      end
  end.
End Table.

(** ** The classes of spdx3/model *)
(** element.py:14-28 *)
Definition D_Element : decl :=
  {| d_name := $"Element"; d_base := None;
     d_fields := [($"spdx_id", TStr); ($"creation_info", TOr (TIs $"CreationInfo") TNone); ($"name", TOr TStr TNone); ($"summary", TOr TStr TNone);
                  ($"description", TOr TStr TNone); ($"comment", TOr TStr TNone); ($"verified_using", TList (TIs $"IntegrityMethod"));
                  ($"external_reference", TList (TIs $"ExternalReference")); ($"external_identifier", TList (TIs $"ExternalIdentifier"));
                  ($"extension", TOr TStr TNone)];
     d_init := None |}.
(** agent.py:12-29 *)
Definition D_Agent : decl :=
  {| d_name := $"Agent"; d_base := Some $"Element";
     d_fields := [];
     d_init := Some
      [req $"spdx_id" TStr; opt $"creation_info" (TIs $"CreationInfo"); opt $"name" TStr; opt $"summary" TStr; opt $"description" TStr;
       opt $"comment" TStr; lst $"verified_using" (TList (TIs $"IntegrityMethod")); lst $"external_reference" (TList (TIs $"ExternalReference"));
       lst $"external_identifier" (TList (TIs $"ExternalIdentifier")); opt $"extension" TStr] |}.
(** artifact.py:15-25 *)
Definition D_Artifact : decl :=
  {| d_name := $"Artifact"; d_base := Some $"Element";
     d_fields := [($"originated_by", TList TStr); ($"supplied_by", TList TStr); ($"built_time", TOr TDatetime TNone);
                  ($"release_time", TOr TDatetime TNone); ($"valid_until_time", TOr TDatetime TNone); ($"standard", TList TStr)];
     d_init := None |}.
(** software/software_artifact.py:16-27 *)
Definition D_SoftwareArtifact : decl :=
  {| d_name := $"SoftwareArtifact"; d_base := Some $"Artifact";
     d_fields := [($"content_identifier", TOr TStr TNone); ($"primary_purpose", TOr (TIs $"SoftwarePurpose") TNone);
                  ($"additional_purpose", TList (TIs $"SoftwarePurpose")); ($"concluded_license", TOr (TIs $"LicenseField") TNone);
                  ($"declared_license", TOr (TIs $"LicenseField") TNone); ($"copyright_text", TOr TStr TNone); ($"attribution_text", TOr TStr TNone)];
     d_init := None |}.
(** software/package.py:17-62 *)
Definition D_Package : decl :=
  {| d_name := $"Package"; d_base := Some $"SoftwareArtifact";
     d_fields := [($"package_version", TOr TStr TNone); ($"download_location", TOr TStr TNone); ($"package_url", TOr TStr TNone);
                  ($"homepage", TOr TStr TNone); ($"source_info", TOr TStr TNone)];
     d_init := Some
      [req $"spdx_id" TStr; req $"name" TStr; opt $"creation_info" (TIs $"CreationInfo"); opt $"summary" TStr; opt $"description" TStr;
       opt $"comment" TStr; lst $"verified_using" (TList (TIs $"IntegrityMethod")); lst $"external_reference" (TList (TIs $"ExternalReference"));
       lst $"external_identifier" (TList (TIs $"ExternalIdentifier")); opt $"extension" TStr; lst $"originated_by" (TList TStr);
       lst $"supplied_by" (TList TStr); opt $"built_time" TDatetime; opt $"release_time" TDatetime; opt $"valid_until_time" TDatetime;
       lst $"standard" (TList TStr); opt $"content_identifier" TStr; opt $"primary_purpose" (TIs $"SoftwarePurpose");
       lst $"additional_purpose" (TList (TIs $"SoftwarePurpose")); opt $"concluded_license" (TIs $"LicenseField");
       opt $"declared_license" (TIs $"LicenseField"); opt $"copyright_text" TStr; opt $"attribution_text" TStr; opt $"package_version" TStr;
       opt $"download_location" TStr; opt $"package_url" TStr; opt $"homepage" TStr; opt $"source_info" TStr] |}.
(** ai/ai_package.py:25-102 *)
Definition D_AIPackage : decl :=
  {| d_name := $"AIPackage"; d_base := Some $"Package";
     d_fields := [($"energy_consumption", TOr TStr TNone); ($"standard_compliance", TList TStr); ($"limitation", TOr TStr TNone);
                  ($"type_of_model", TList TStr); ($"information_about_training", TOr TStr TNone);
                  ($"information_about_application", TOr TStr TNone); ($"hyperparameter", TDict TStr (TOr TStr TNone));
                  ($"model_data_preprocessing", TList TStr); ($"model_explainability", TList TStr);
                  ($"sensitive_personal_information", TOr TBool TNone); ($"metric_decision_threshold", TDict TStr (TOr TStr TNone));
                  ($"metric", TDict TStr (TOr TStr TNone)); ($"domain", TList TStr); ($"autonomy_type", TOr TBool TNone);
                  ($"safety_risk_assessment", TOr (TIs $"SafetyRiskAssessmentType") TNone)];
     d_init := Some
      [req $"spdx_id" TStr; req $"name" TStr; req $"supplied_by" (TList TStr); req $"download_location" TStr; req $"package_version" TStr;
       req $"primary_purpose" (TIs $"SoftwarePurpose"); req $"release_time" TDatetime; opt $"creation_info" (TIs $"CreationInfo");
       opt $"summary" TStr; opt $"description" TStr; opt $"comment" TStr; lst $"verified_using" (TList (TIs $"IntegrityMethod"));
       lst $"external_reference" (TList (TIs $"ExternalReference")); lst $"external_identifier" (TList (TIs $"ExternalIdentifier"));
       opt $"extension" TStr; lst $"originated_by" (TList TStr); opt $"built_time" TDatetime; opt $"valid_until_time" TDatetime;
       lst $"standard" (TList TStr); opt $"content_identifier" TStr; lst $"additional_purpose" (TList (TIs $"SoftwarePurpose"));
       opt $"concluded_license" (TIs $"LicenseField"); opt $"declared_license" (TIs $"LicenseField"); opt $"copyright_text" TStr;
       opt $"attribution_text" TStr; opt $"package_url" TStr; opt $"homepage" TStr; opt $"source_info" TStr; opt $"energy_consumption" TStr;
       lst $"standard_compliance" (TList TStr); opt $"limitation" TStr; lst $"type_of_model" (TList TStr); opt $"information_about_training" TStr;
       opt $"information_about_application" TStr; dct $"hyperparameter" (TDict TStr (TOr TStr TNone)); lst $"model_data_preprocessing" (TList TStr);
       lst $"model_explainability" (TList TStr); opt $"sensitive_personal_information" TBool;
       dct $"metric_decision_threshold" (TDict TStr (TOr TStr TNone)); dct $"metric" (TDict TStr (TOr TStr TNone)); lst $"domain" (TList TStr);
       opt $"autonomy_type" TBool; opt $"safety_risk_assessment" (TIs $"SafetyRiskAssessmentType")] |}.
(** annotation.py:20-47 *)
Definition D_Annotation : decl :=
  {| d_name := $"Annotation"; d_base := Some $"Element";
     d_fields := [($"annotation_type", TIs $"AnnotationType"); ($"subject", TStr); ($"content_type", TList TStr); ($"statement", TOr TStr TNone)];
     d_init := Some
      [req $"spdx_id" TStr; req $"annotation_type" (TIs $"AnnotationType"); req $"subject" TStr; opt $"creation_info" (TIs $"CreationInfo");
       opt $"name" TStr; opt $"summary" TStr; opt $"description" TStr; opt $"comment" TStr; lst $"verified_using" (TList (TIs $"IntegrityMethod"));
       lst $"external_reference" (TList (TIs $"ExternalReference")); lst $"external_identifier" (TList (TIs $"ExternalIdentifier"));
       opt $"extension" TStr; lst $"content_type" (TList TStr); opt $"statement" TStr] |}.
(** spdx_collection.py:14-24 *)
Definition D_ElementCollection : decl :=
  {| d_name := $"ElementCollection"; d_base := Some $"Element";
     d_fields := [($"element", TList TStr); ($"root_element", TList TStr); ($"namespaces", TList (TIs $"NamespaceMap"));
                  ($"imports", TList (TIs $"ExternalMap"))];
     d_init := None |}.
(** bundle.py:20-46 *)
Definition D_Bundle : decl :=
  {| d_name := $"Bundle"; d_base := Some $"ElementCollection";
     d_fields := [($"context", TOr TStr TNone)];
     d_init := Some
      [req $"spdx_id" TStr; req $"element" (TList TStr); req $"root_element" (TList TStr); opt $"creation_info" (TIs $"CreationInfo");
       opt $"name" TStr; opt $"summary" TStr; opt $"description" TStr; opt $"comment" TStr; lst $"verified_using" (TList (TIs $"IntegrityMethod"));
       lst $"external_reference" (TList (TIs $"ExternalReference")); lst $"external_identifier" (TList (TIs $"ExternalIdentifier"));
       opt $"extension" TStr; lst $"namespaces" (TList (TIs $"NamespaceMap")); lst $"imports" (TList (TIs $"ExternalMap")); opt $"context" TStr] |}.
(** bom.py:20-47 *)
Definition D_Bom : decl :=
  {| d_name := $"Bom"; d_base := Some $"Bundle";
     d_fields := [];
     d_init := Some
      [req $"spdx_id" TStr; req $"element" (TList TStr); req $"root_element" (TList TStr); opt $"creation_info" (TIs $"CreationInfo");
       opt $"name" TStr; opt $"summary" TStr; opt $"description" TStr; opt $"comment" TStr; lst $"verified_using" (TList (TIs $"IntegrityMethod"));
       lst $"external_reference" (TList (TIs $"ExternalReference")); lst $"external_identifier" (TList (TIs $"ExternalIdentifier"));
       opt $"extension" TStr; lst $"namespaces" (TList (TIs $"NamespaceMap")); lst $"imports" (TList (TIs $"ExternalMap")); opt $"context" TStr] |}.
(** build/build.py:15-57 *)
Definition D_Build : decl :=
  {| d_name := $"Build"; d_base := Some $"Element";
     d_fields := [($"build_type", TStr); ($"build_id", TOr TStr TNone); ($"config_source_entrypoint", TList TStr);
                  ($"config_source_uri", TList TStr); ($"config_source_digest", TList (TIs $"Hash")); ($"parameters", TDict TStr TStr);
                  ($"build_start_time", TOr TDatetime TNone); ($"build_end_time", TOr TDatetime TNone); ($"environment", TDict TStr TStr)];
     d_init := Some
      [req $"spdx_id" TStr; req $"build_type" TStr; opt $"creation_info" (TIs $"CreationInfo"); opt $"name" TStr; opt $"summary" TStr;
       opt $"description" TStr; opt $"comment" TStr; lst $"verified_using" (TList (TIs $"IntegrityMethod"));
       lst $"external_reference" (TList (TIs $"ExternalReference")); lst $"external_identifier" (TList (TIs $"ExternalIdentifier"));
       opt $"extension" TStr; opt $"build_id" TStr; lst $"config_source_entrypoint" (TList TStr); lst $"config_source_uri" (TList TStr);
       lst $"config_source_digest" (TList (TIs $"Hash")); dct $"parameters" (TDict TStr TStr); opt $"build_start_time" TDatetime;
       opt $"build_end_time" TDatetime; dct $"environment" (TDict TStr TStr)] |}.
(** creation_info.py:16-36 *)
Definition D_CreationInfo : decl :=
  {| d_name := $"CreationInfo"; d_base := None;
     d_fields := [($"spec_version", TIs $"Version"); ($"created", TDatetime); ($"created_by", TList TStr);
                  ($"profile", TList (TIs $"ProfileIdentifierType")); ($"data_license", TOr TStr TNone); ($"created_using", TList TStr);
                  ($"comment", TOr TStr TNone)];
     d_init := Some
      [req $"spec_version" (TIs $"Version"); req $"created" TDatetime; req $"created_by" (TList TStr);
       req $"profile" (TList (TIs $"ProfileIdentifierType")); dft $"data_license" (TOr TStr TNone) (VStr $"CC0-1.0");
       lst $"created_using" (TList TStr); opt $"comment" TStr] |}.
(** dataset/dataset.py:50-120 *)
Definition D_Dataset : decl :=
  {| d_name := $"Dataset"; d_base := Some $"Package";
     d_fields := [($"dataset_type", TList (TIs $"DatasetType")); ($"data_collection_process", TOr TStr TNone); ($"intended_use", TOr TStr TNone);
                  ($"dataset_size", TOr TInt TNone); ($"dataset_noise", TOr TStr TNone); ($"data_preprocessing", TList TStr);
                  ($"sensor", TDict TStr (TOr TStr TNone)); ($"known_bias", TList TStr); ($"sensitive_personal_information", TOr TBool TNone);
                  ($"anonymization_method_used", TList TStr); ($"confidentiality_level", TOr (TIs $"ConfidentialityLevelType") TNone);
                  ($"dataset_update_mechanism", TOr TStr TNone); ($"dataset_availability", TOr (TIs $"DatasetAvailabilityType") TNone)];
     d_init := Some
      [req $"spdx_id" TStr; req $"name" TStr; rql $"originated_by" (TList TStr); req $"download_location" TStr;
       req $"primary_purpose" (TIs $"SoftwarePurpose"); req $"built_time" TDatetime; req $"release_time" TDatetime;
       req $"dataset_type" (TList (TIs $"DatasetType")); opt $"creation_info" (TIs $"CreationInfo"); opt $"summary" TStr; opt $"description" TStr;
       opt $"comment" TStr; lst $"verified_using" (TList (TIs $"IntegrityMethod")); lst $"external_reference" (TList (TIs $"ExternalReference"));
       lst $"external_identifier" (TList (TIs $"ExternalIdentifier")); opt $"extension" TStr; lst $"supplied_by" (TList TStr);
       opt $"valid_until_time" TDatetime; lst $"standard" (TList TStr); opt $"content_identifier" TStr;
       lst $"additional_purpose" (TList (TIs $"SoftwarePurpose")); opt $"concluded_license" (TIs $"LicenseField");
       opt $"declared_license" (TIs $"LicenseField"); opt $"copyright_text" TStr; opt $"attribution_text" TStr; opt $"package_version" TStr;
       opt $"package_url" TStr; opt $"homepage" TStr; opt $"source_info" TStr; opt $"data_collection_process" TStr; opt $"intended_use" TStr;
       opt $"dataset_size" TInt; opt $"dataset_noise" TStr; lst $"data_preprocessing" (TList TStr); dct $"sensor" (TDict TStr (TOr TStr TNone));
       lst $"known_bias" (TList TStr); opt $"sensitive_personal_information" TBool; lst $"anonymization_method_used" (TList TStr);
       opt $"confidentiality_level" (TIs $"ConfidentialityLevelType"); opt $"dataset_update_mechanism" TStr;
       opt $"dataset_availability" (TIs $"DatasetAvailabilityType")] |}.
(** external_identifier.py:28-44 *)
Definition D_ExternalIdentifier : decl :=
  {| d_name := $"ExternalIdentifier"; d_base := None;
     d_fields := [($"external_identifier_type", TIs $"ExternalIdentifierType"); ($"identifier", TStr); ($"comment", TOr TStr TNone);
                  ($"identifier_locator", TList TStr); ($"issuing_authority", TOr TStr TNone)];
     d_init := Some
      [req $"external_identifier_type" (TIs $"ExternalIdentifierType"); req $"identifier" TStr; opt $"comment" TStr;
       lst $"identifier_locator" (TList TStr); opt $"issuing_authority" TStr] |}.
(** external_map.py:14-28 *)
Definition D_ExternalMap : decl :=
  {| d_name := $"ExternalMap"; d_base := None;
     d_fields := [($"external_id", TStr); ($"verified_using", TList (TIs $"IntegrityMethod")); ($"location_hint", TOr TStr TNone);
                  ($"defining_document", TOr TStr TNone)];
     d_init := Some
      [req $"external_id" TStr; lst $"verified_using" (TList (TIs $"IntegrityMethod")); opt $"location_hint" TStr; opt $"defining_document" TStr] |}.
(** external_reference.py:55-69 *)
Definition D_ExternalReference : decl :=
  {| d_name := $"ExternalReference"; d_base := None;
     d_fields := [($"external_reference_type", TOr (TIs $"ExternalReferenceType") TNone); ($"locator", TList TStr);
                  ($"content_type", TOr TStr TNone); ($"comment", TOr TStr TNone)];
     d_init := Some
      [opt $"external_reference_type" (TIs $"ExternalReferenceType"); lst $"locator" (TList TStr); opt $"content_type" TStr; opt $"comment" TStr] |}.
(** integrity_method.py:12-17 *)
Definition D_IntegrityMethod : decl :=
  {| d_name := $"IntegrityMethod"; d_base := None;
     d_fields := [($"comment", TOr TStr TNone)];
     d_init := None |}.
(** hash.py:41-46 *)
Definition D_Hash : decl :=
  {| d_name := $"Hash"; d_base := Some $"IntegrityMethod";
     d_fields := [($"algorithm", TIs $"HashAlgorithm"); ($"hash_value", TStr)];
     d_init := Some
      [req $"algorithm" (TIs $"HashAlgorithm"); req $"hash_value" TStr; opt $"comment" TStr] |}.
(** licensing/license_field.py:7-10 *)
Definition D_LicenseField : decl :=
  {| d_name := $"LicenseField"; d_base := None;
     d_fields := [];
     d_init := None |}.
(** licensing/any_license_info.py:9-12 *)
Definition D_AnyLicenseInfo : decl :=
  {| d_name := $"AnyLicenseInfo"; d_base := Some $"LicenseField";
     d_fields := [];
     d_init := None |}.
(** licensing/conjunctive_license_set.py:12-16 *)
Definition D_ConjunctiveLicenseSet : decl :=
  {| d_name := $"ConjunctiveLicenseSet"; d_base := Some $"AnyLicenseInfo";
     d_fields := [($"member", TList (TIs $"AnyLicenseInfo"))];
     d_init := Some
      [req $"member" (TList (TIs $"AnyLicenseInfo"))] |}.
(** licensing/license.py:14-29 *)
Definition D_License : decl :=
  {| d_name := $"License"; d_base := Some $"AnyLicenseInfo";
     d_fields := [($"license_id", TStr); ($"license_name", TStr); ($"license_text", TStr); ($"license_comment", TOr TStr TNone);
                  ($"see_also", TList TStr); ($"is_osi_approved", TOr TBool TNone); ($"is_fsf_libre", TOr TBool TNone);
                  ($"standard_license_header", TOr TStr TNone); ($"standard_license_template", TOr TStr TNone);
                  ($"is_deprecated_license_id", TOr TBool TNone); ($"obsoleted_by", TOr TStr TNone)];
     d_init := None |}.
(** licensing/custom_license.py:12-28 *)
Definition D_CustomLicense : decl :=
  {| d_name := $"CustomLicense"; d_base := Some $"License";
     d_fields := [];
     d_init := Some
      [req $"license_id" TStr; req $"license_name" TStr; req $"license_text" TStr; opt $"license_comment" TStr; lst $"see_also" (TList TStr);
       opt $"is_osi_approved" TBool; opt $"is_fsf_libre" TBool; opt $"standard_license_header" TStr; opt $"standard_license_template" TStr;
       opt $"is_deprecated_license_id" TBool; opt $"obsoleted_by" TStr] |}.
(** licensing/license_addition.py:13-25 *)
Definition D_LicenseAddition : decl :=
  {| d_name := $"LicenseAddition"; d_base := None;
     d_fields := [($"addition_id", TStr); ($"addition_name", TStr); ($"addition_text", TStr); ($"addition_comment", TOr TStr TNone);
                  ($"see_also", TList TStr); ($"standard_addition_template", TOr TStr TNone); ($"is_deprecated_addition_id", TOr TBool TNone);
                  ($"obsoleted_by", TOr TStr TNone)];
     d_init := None |}.
(** licensing/custom_license_addition.py:12-25 *)
Definition D_CustomLicenseAddition : decl :=
  {| d_name := $"CustomLicenseAddition"; d_base := Some $"LicenseAddition";
     d_fields := [];
     d_init := Some
      [req $"addition_id" TStr; req $"addition_name" TStr; req $"addition_text" TStr; opt $"addition_comment" TStr; lst $"see_also" (TList TStr);
       opt $"standard_addition_template" TStr; opt $"is_deprecated_addition_id" TBool; opt $"obsoleted_by" TStr] |}.
(** licensing/disjunctive_license_set.py:12-16 *)
Definition D_DisjunctiveLicenseSet : decl :=
  {| d_name := $"DisjunctiveLicenseSet"; d_base := Some $"AnyLicenseInfo";
     d_fields := [($"member", TList (TIs $"AnyLicenseInfo"))];
     d_init := Some
      [req $"member" (TList (TIs $"AnyLicenseInfo"))] |}.
(** licensing/listed_license.py:12-33 *)
Definition D_ListedLicense : decl :=
  {| d_name := $"ListedLicense"; d_base := Some $"License";
     d_fields := [($"list_version_added", TOr TStr TNone); ($"deprecated_version", TOr TStr TNone)];
     d_init := Some
      [req $"license_id" TStr; req $"license_name" TStr; req $"license_text" TStr; opt $"license_comment" TStr; lst $"see_also" (TList TStr);
       opt $"is_osi_approved" TBool; opt $"is_fsf_libre" TBool; opt $"standard_license_header" TStr; opt $"standard_license_template" TStr;
       opt $"is_deprecated_license_id" TBool; opt $"obsoleted_by" TStr; opt $"list_version_added" TStr; opt $"deprecated_version" TStr] |}.
(** licensing/listed_license_exception.py:12-30 *)
Definition D_ListedLicenseException : decl :=
  {| d_name := $"ListedLicenseException"; d_base := Some $"LicenseAddition";
     d_fields := [($"list_version_added", TOr TStr TNone); ($"deprecated_version", TOr TStr TNone)];
     d_init := Some
      [req $"addition_id" TStr; req $"addition_name" TStr; req $"addition_text" TStr; opt $"addition_comment" TStr; lst $"see_also" (TList TStr);
       opt $"standard_addition_template" TStr; opt $"is_deprecated_addition_id" TBool; opt $"obsoleted_by" TStr; opt $"list_version_added" TStr;
       opt $"deprecated_version" TStr] |}.
(** licensing/no_assertion_license.py:7-9 *)
Definition D_NoAssertionLicense : decl :=
  {| d_name := $"NoAssertionLicense"; d_base := Some $"LicenseField";
     d_fields := [];
     d_init := Some
      [] |}.
(** licensing/none_license.py:7-9 *)
Definition D_NoneLicense : decl :=
  {| d_name := $"NoneLicense"; d_base := Some $"LicenseField";
     d_fields := [];
     d_init := Some
      [] |}.
(** licensing/or_later_operator.py:11-15 *)
Definition D_OrLaterOperator : decl :=
  {| d_name := $"OrLaterOperator"; d_base := Some $"AnyLicenseInfo";
     d_fields := [($"subject_license", TIs $"License")];
     d_init := Some
      [req $"subject_license" (TIs $"License")] |}.
(** licensing/with_addition_operator.py:12-17 *)
Definition D_WithAdditionOperator : decl :=
  {| d_name := $"WithAdditionOperator"; d_base := Some $"AnyLicenseInfo";
     d_fields := [($"subject_license", TIs $"License"); ($"subject_addition", TIs $"LicenseAddition")];
     d_init := Some
      [req $"subject_license" (TIs $"License"); req $"subject_addition" (TIs $"LicenseAddition")] |}.
(** relationship.py:87-120 *)
Definition D_Relationship : decl :=
  {| d_name := $"Relationship"; d_base := Some $"Element";
     d_fields := [($"from_element", TStr); ($"to", TList TStr); ($"relationship_type", TIs $"RelationshipType");
                  ($"completeness", TOr (TIs $"RelationshipCompleteness") TNone); ($"start_time", TOr TDatetime TNone);
                  ($"end_time", TOr TDatetime TNone)];
     d_init := Some
      [req $"spdx_id" TStr; req $"from_element" TStr; req $"relationship_type" (TIs $"RelationshipType"); lst $"to" (TList TStr);
       opt $"creation_info" (TIs $"CreationInfo"); opt $"name" TStr; opt $"summary" TStr; opt $"description" TStr; opt $"comment" TStr;
       lst $"verified_using" (TList (TIs $"IntegrityMethod")); lst $"external_reference" (TList (TIs $"ExternalReference"));
       lst $"external_identifier" (TList (TIs $"ExternalIdentifier")); opt $"extension" TStr; opt $"completeness" (TIs $"RelationshipCompleteness");
       opt $"start_time" TDatetime; opt $"end_time" TDatetime] |}.
(** lifecycle_scoped_relationship.py:32-59 *)
Definition D_LifecycleScopedRelationship : decl :=
  {| d_name := $"LifecycleScopedRelationship"; d_base := Some $"Relationship";
     d_fields := [($"scope", TOr (TIs $"LifecycleScopeType") TNone)];
     d_init := Some
      [req $"spdx_id" TStr; req $"from_element" TStr; req $"relationship_type" (TIs $"RelationshipType"); lst $"to" (TList TStr);
       opt $"creation_info" (TIs $"CreationInfo"); opt $"name" TStr; opt $"summary" TStr; opt $"description" TStr; opt $"comment" TStr;
       lst $"verified_using" (TList (TIs $"IntegrityMethod")); lst $"external_reference" (TList (TIs $"ExternalReference"));
       lst $"external_identifier" (TList (TIs $"ExternalIdentifier")); opt $"extension" TStr; opt $"completeness" (TIs $"RelationshipCompleteness");
       opt $"start_time" TDatetime; opt $"end_time" TDatetime; opt $"scope" (TIs $"LifecycleScopeType")] |}.
(** namespace_map.py:9-14 *)
Definition D_NamespaceMap : decl :=
  {| d_name := $"NamespaceMap"; d_base := None;
     d_fields := [($"prefix", TStr); ($"namespace", TStr)];
     d_init := Some
      [req $"prefix" TStr; req $"namespace" TStr] |}.
(** organization.py:12-29 *)
Definition D_Organization : decl :=
  {| d_name := $"Organization"; d_base := Some $"Agent";
     d_fields := [];
     d_init := Some
      [req $"spdx_id" TStr; opt $"creation_info" (TIs $"CreationInfo"); opt $"name" TStr; opt $"summary" TStr; opt $"description" TStr;
       opt $"comment" TStr; lst $"verified_using" (TList (TIs $"IntegrityMethod")); lst $"external_reference" (TList (TIs $"ExternalReference"));
       lst $"external_identifier" (TList (TIs $"ExternalIdentifier")); opt $"extension" TStr] |}.
(** person.py:12-29 *)
Definition D_Person : decl :=
  {| d_name := $"Person"; d_base := Some $"Agent";
     d_fields := [];
     d_init := Some
      [req $"spdx_id" TStr; opt $"creation_info" (TIs $"CreationInfo"); opt $"name" TStr; opt $"summary" TStr; opt $"description" TStr;
       opt $"comment" TStr; lst $"verified_using" (TList (TIs $"IntegrityMethod")); lst $"external_reference" (TList (TIs $"ExternalReference"));
       lst $"external_identifier" (TList (TIs $"ExternalIdentifier")); opt $"extension" TStr] |}.
(** positive_integer_range.py:9-18 *)
Definition D_PositiveIntegerRange : decl :=
  {| d_name := $"PositiveIntegerRange"; d_base := None;
     d_fields := [($"begin", TInt); ($"end", TInt)];
     d_init := Some
      [req $"begin" TInt; req $"end" TInt] |}.
(** security/vuln_assessment_relationship.py:14-23 *)
Definition D_VulnAssessmentRelationship : decl :=
  {| d_name := $"VulnAssessmentRelationship"; d_base := Some $"Relationship";
     d_fields := [($"assessed_element", TOr TStr TNone); ($"published_time", TOr TDatetime TNone); ($"supplied_by", TOr TStr TNone);
                  ($"modified_time", TOr TDatetime TNone); ($"withdrawn_time", TOr TDatetime TNone)];
     d_init := None |}.
(** security/cvss_v2_vuln_assessment_relationship.py:22-57 *)
Definition D_CvssV2VulnAssessmentRelationship : decl :=
  {| d_name := $"CvssV2VulnAssessmentRelationship"; d_base := Some $"VulnAssessmentRelationship";
     d_fields := [($"score", TStr); ($"severity", TOr TStr TNone); ($"vector", TOr TStr TNone)];
     d_init := Some
      [req $"spdx_id" TStr; req $"from_element" TStr; req $"relationship_type" (TIs $"spdx2.RelationshipType"); req $"to" (TList TStr);
       req $"score" TStr; opt $"creation_info" (TIs $"CreationInfo"); opt $"name" TStr; opt $"summary" TStr; opt $"description" TStr;
       opt $"comment" TStr; lst $"verified_using" (TList (TIs $"IntegrityMethod")); lst $"external_reference" (TList (TIs $"ExternalReference"));
       lst $"external_identifier" (TList (TIs $"ExternalIdentifier")); opt $"extension" TStr; opt $"completeness" (TIs $"RelationshipCompleteness");
       opt $"start_time" TDatetime; opt $"end_time" TDatetime; opt $"assessed_element" TStr; opt $"published_time" TDatetime;
       opt $"supplied_by" TStr; opt $"modified_time" TDatetime; opt $"withdrawn_time" TDatetime; opt $"severity" TStr; opt $"vector" TStr] |}.
(** security/cvss_v3_vuln_assessment_relationship.py:22-57 *)
Definition D_CvssV3VulnAssessmentRelationship : decl :=
  {| d_name := $"CvssV3VulnAssessmentRelationship"; d_base := Some $"VulnAssessmentRelationship";
     d_fields := [($"score", TStr); ($"severity", TOr TStr TNone); ($"vector", TOr TStr TNone)];
     d_init := Some
      [req $"spdx_id" TStr; req $"from_element" TStr; req $"to" (TList TStr); req $"relationship_type" (TIs $"spdx2.RelationshipType");
       req $"score" TStr; opt $"creation_info" (TIs $"CreationInfo"); opt $"name" TStr; opt $"summary" TStr; opt $"description" TStr;
       opt $"comment" TStr; lst $"verified_using" (TList (TIs $"IntegrityMethod")); lst $"external_reference" (TList (TIs $"ExternalReference"));
       lst $"external_identifier" (TList (TIs $"ExternalIdentifier")); opt $"extension" TStr; opt $"completeness" (TIs $"RelationshipCompleteness");
       opt $"start_time" TDatetime; opt $"end_time" TDatetime; opt $"assessed_element" TStr; opt $"published_time" TDatetime;
       opt $"supplied_by" TStr; opt $"modified_time" TDatetime; opt $"withdrawn_time" TDatetime; opt $"severity" TStr; opt $"vector" TStr] |}.
(** security/epss_vuln_assessment_relationship.py:22-55 *)
Definition D_EpssVulnAssessmentRelationship : decl :=
  {| d_name := $"EpssVulnAssessmentRelationship"; d_base := Some $"VulnAssessmentRelationship";
     d_fields := [($"probability", TInt); ($"severity", TOr TStr TNone)];
     d_init := Some
      [req $"spdx_id" TStr; req $"from_element" TStr; req $"relationship_type" (TIs $"spdx2.RelationshipType"); req $"to" (TList TStr);
       req $"probability" TInt; opt $"creation_info" (TIs $"CreationInfo"); opt $"name" TStr; opt $"summary" TStr; opt $"description" TStr;
       opt $"comment" TStr; lst $"verified_using" (TList (TIs $"IntegrityMethod")); lst $"external_reference" (TList (TIs $"ExternalReference"));
       lst $"external_identifier" (TList (TIs $"ExternalIdentifier")); opt $"extension" TStr; opt $"completeness" (TIs $"RelationshipCompleteness");
       opt $"start_time" TDatetime; opt $"end_time" TDatetime; opt $"assessed_element" TStr; opt $"published_time" TDatetime;
       opt $"supplied_by" TStr; opt $"modified_time" TDatetime; opt $"withdrawn_time" TDatetime; opt $"severity" TStr] |}.
(** security/exploit_catalog_vuln_assessment_relationship.py:28-63 *)
Definition D_ExploitCatalogVulnAssessmentRelationship : decl :=
  {| d_name := $"ExploitCatalogVulnAssessmentRelationship"; d_base := Some $"VulnAssessmentRelationship";
     d_fields := [($"catalog_type", TIs $"ExploitCatalogType"); ($"exploited", TBool); ($"locator", TStr)];
     d_init := Some
      [req $"spdx_id" TStr; req $"from_element" TStr; req $"relationship_type" (TIs $"spdx2.RelationshipType"); req $"to" (TList TStr);
       req $"catalog_type" (TIs $"ExploitCatalogType"); req $"exploited" TBool; req $"locator" TStr; opt $"creation_info" (TIs $"CreationInfo");
       opt $"name" TStr; opt $"summary" TStr; opt $"description" TStr; opt $"comment" TStr; lst $"verified_using" (TList (TIs $"IntegrityMethod"));
       lst $"external_reference" (TList (TIs $"ExternalReference")); lst $"external_identifier" (TList (TIs $"ExternalIdentifier"));
       opt $"extension" TStr; opt $"completeness" (TIs $"RelationshipCompleteness"); opt $"start_time" TDatetime; opt $"end_time" TDatetime;
       opt $"assessed_element" TStr; opt $"published_time" TDatetime; opt $"supplied_by" TStr; opt $"modified_time" TDatetime;
       opt $"withdrawn_time" TDatetime] |}.
(** security/ssvc_vuln_assessment_relationship.py:30-61 *)
Definition D_SsvcVulnAssessmentRelationship : decl :=
  {| d_name := $"SsvcVulnAssessmentRelationship"; d_base := Some $"VulnAssessmentRelationship";
     d_fields := [($"decision_type", TIs $"SsvcDecisionType")];
     d_init := Some
      [req $"spdx_id" TStr; req $"from_element" TStr; req $"relationship_type" (TIs $"spdx2.RelationshipType"); req $"to" (TList TStr);
       req $"decision_type" (TIs $"SsvcDecisionType"); opt $"creation_info" (TIs $"CreationInfo"); opt $"name" TStr; opt $"summary" TStr;
       opt $"description" TStr; opt $"comment" TStr; lst $"verified_using" (TList (TIs $"IntegrityMethod"));
       lst $"external_reference" (TList (TIs $"ExternalReference")); lst $"external_identifier" (TList (TIs $"ExternalIdentifier"));
       opt $"extension" TStr; opt $"completeness" (TIs $"RelationshipCompleteness"); opt $"start_time" TDatetime; opt $"end_time" TDatetime;
       opt $"assessed_element" TStr; opt $"published_time" TDatetime; opt $"supplied_by" TStr; opt $"modified_time" TDatetime;
       opt $"withdrawn_time" TDatetime] |}.
(** security/vex_vuln_assessment_relationship.py:13-19 *)
Definition D_VexVulnAssessmentRelationship : decl :=
  {| d_name := $"VexVulnAssessmentRelationship"; d_base := Some $"VulnAssessmentRelationship";
     d_fields := [($"vex_version", TOr TStr TNone); ($"status_notes", TOr TStr TNone)];
     d_init := None |}.
(** security/vex_affected_vuln_assessment_relationship.py:23-59 *)
Definition D_VexAffectedVulnAssessmentRelationship : decl :=
  {| d_name := $"VexAffectedVulnAssessmentRelationship"; d_base := Some $"VexVulnAssessmentRelationship";
     d_fields := [($"action_statement", TOr TStr TNone); ($"action_statement_time", TList TDatetime)];
     d_init := Some
      [req $"spdx_id" TStr; req $"from_element" TStr; req $"relationship_type" (TIs $"spdx2.RelationshipType"); req $"to" (TList TStr);
       opt $"creation_info" (TIs $"CreationInfo"); opt $"name" TStr; opt $"summary" TStr; opt $"description" TStr; opt $"comment" TStr;
       lst $"verified_using" (TList (TIs $"IntegrityMethod")); lst $"external_reference" (TList (TIs $"ExternalReference"));
       lst $"external_identifier" (TList (TIs $"ExternalIdentifier")); opt $"extension" TStr; opt $"completeness" (TIs $"RelationshipCompleteness");
       opt $"start_time" TDatetime; opt $"end_time" TDatetime; opt $"assessed_element" TStr; opt $"published_time" TDatetime;
       opt $"supplied_by" TStr; opt $"modified_time" TDatetime; opt $"withdrawn_time" TDatetime; opt $"vex_version" TStr; opt $"status_notes" TStr;
       opt $"action_statement" TStr; lst $"action_statement_time" (TList TDatetime)] |}.
(** security/vex_fixed_vuln_assessment_relationship.py:22-52 *)
Definition D_VexFixedVulnAssessmentRelationship : decl :=
  {| d_name := $"VexFixedVulnAssessmentRelationship"; d_base := Some $"VexVulnAssessmentRelationship";
     d_fields := [];
     d_init := Some
      [req $"spdx_id" TStr; req $"from_element" TStr; req $"relationship_type" (TIs $"spdx2.RelationshipType"); req $"to" (TList TStr);
       opt $"creation_info" (TIs $"CreationInfo"); opt $"name" TStr; opt $"summary" TStr; opt $"description" TStr; opt $"comment" TStr;
       lst $"verified_using" (TList (TIs $"IntegrityMethod")); lst $"external_reference" (TList (TIs $"ExternalReference"));
       lst $"external_identifier" (TList (TIs $"ExternalIdentifier")); opt $"extension" TStr; opt $"completeness" (TIs $"RelationshipCompleteness");
       opt $"start_time" TDatetime; opt $"end_time" TDatetime; opt $"assessed_element" TStr; opt $"published_time" TDatetime;
       opt $"supplied_by" TStr; opt $"modified_time" TDatetime; opt $"withdrawn_time" TDatetime; opt $"vex_version" TStr; opt $"status_notes" TStr] |}.
(** security/vex_not_affected_vuln_assessment_relationship.py:31-68 *)
Definition D_VexNotAffectedVulnAssessmentRelationship : decl :=
  {| d_name := $"VexNotAffectedVulnAssessmentRelationship"; d_base := Some $"VexVulnAssessmentRelationship";
     d_fields := [($"justification_type", TOr (TIs $"VexJustificationType") TNone); ($"impact_statement", TOr TStr TNone);
                  ($"impact_statement_time", TOr TDatetime TNone)];
     d_init := Some
      [req $"spdx_id" TStr; req $"from_element" TStr; req $"relationship_type" (TIs $"spdx2.RelationshipType"); req $"to" (TList TStr);
       opt $"creation_info" (TIs $"CreationInfo"); opt $"name" TStr; opt $"summary" TStr; opt $"description" TStr; opt $"comment" TStr;
       lst $"verified_using" (TList (TIs $"IntegrityMethod")); lst $"external_reference" (TList (TIs $"ExternalReference"));
       lst $"external_identifier" (TList (TIs $"ExternalIdentifier")); opt $"extension" TStr; opt $"completeness" (TIs $"RelationshipCompleteness");
       opt $"start_time" TDatetime; opt $"end_time" TDatetime; opt $"assessed_element" TStr; opt $"published_time" TDatetime;
       opt $"supplied_by" TStr; opt $"modified_time" TDatetime; opt $"withdrawn_time" TDatetime; opt $"vex_version" TStr; opt $"status_notes" TStr;
       opt $"justification_type" (TIs $"VexJustificationType"); opt $"impact_statement" TStr; opt $"impact_statement_time" TDatetime] |}.
(** security/vex_under_investigation_vuln_assessment_relationship.py:22-52 *)
Definition D_VexUnderInvestigationVulnAssessmentRelationship : decl :=
  {| d_name := $"VexUnderInvestigationVulnAssessmentRelationship"; d_base := Some $"VexVulnAssessmentRelationship";
     d_fields := [];
     d_init := Some
      [req $"spdx_id" TStr; req $"from_element" TStr; req $"relationship_type" (TIs $"spdx2.RelationshipType"); req $"to" (TList TStr);
       opt $"creation_info" (TIs $"CreationInfo"); opt $"name" TStr; opt $"summary" TStr; opt $"description" TStr; opt $"comment" TStr;
       lst $"verified_using" (TList (TIs $"IntegrityMethod")); lst $"external_reference" (TList (TIs $"ExternalReference"));
       lst $"external_identifier" (TList (TIs $"ExternalIdentifier")); opt $"extension" TStr; opt $"completeness" (TIs $"RelationshipCompleteness");
       opt $"start_time" TDatetime; opt $"end_time" TDatetime; opt $"assessed_element" TStr; opt $"published_time" TDatetime;
       opt $"supplied_by" TStr; opt $"modified_time" TDatetime; opt $"withdrawn_time" TDatetime; opt $"vex_version" TStr; opt $"status_notes" TStr] |}.
(** security/vulnerability.py:14-38 *)
Definition D_Vulnerability : decl :=
  {| d_name := $"Vulnerability"; d_base := Some $"Element";
     d_fields := [($"published_time", TOr TDatetime TNone); ($"modified_time", TOr TDatetime TNone); ($"withdrawn_time", TOr TDatetime TNone)];
     d_init := Some
      [req $"spdx_id" TStr; opt $"creation_info" (TIs $"CreationInfo"); opt $"name" TStr; opt $"summary" TStr; opt $"description" TStr;
       opt $"comment" TStr; lst $"verified_using" (TList (TIs $"IntegrityMethod")); lst $"external_reference" (TList (TIs $"ExternalReference"));
       lst $"external_identifier" (TList (TIs $"ExternalIdentifier")); opt $"extension" TStr; opt $"published_time" TDatetime;
       opt $"modified_time" TDatetime; opt $"withdrawn_time" TDatetime] |}.
(** software/file.py:17-54 *)
Definition D_File : decl :=
  {| d_name := $"File"; d_base := Some $"SoftwareArtifact";
     d_fields := [($"content_type", TOr TStr TNone)];
     d_init := Some
      [req $"spdx_id" TStr; req $"name" TStr; opt $"creation_info" (TIs $"CreationInfo"); opt $"summary" TStr; opt $"description" TStr;
       opt $"comment" TStr; lst $"verified_using" (TList (TIs $"IntegrityMethod")); lst $"external_reference" (TList (TIs $"ExternalReference"));
       lst $"external_identifier" (TList (TIs $"ExternalIdentifier")); opt $"extension" TStr; lst $"originated_by" (TList TStr);
       lst $"supplied_by" (TList TStr); opt $"built_time" TDatetime; opt $"release_time" TDatetime; opt $"valid_until_time" TDatetime;
       lst $"standard" (TList TStr); opt $"content_identifier" TStr; opt $"primary_purpose" (TIs $"SoftwarePurpose");
       lst $"additional_purpose" (TList (TIs $"SoftwarePurpose")); opt $"concluded_license" (TIs $"LicenseField");
       opt $"declared_license" (TIs $"LicenseField"); opt $"copyright_text" TStr; opt $"attribution_text" TStr; opt $"content_type" TStr] |}.
(** software/sbom.py:32-62 *)
Definition D_Sbom : decl :=
  {| d_name := $"Sbom"; d_base := Some $"Bom";
     d_fields := [($"sbom_type", TList (TIs $"SBOMType"))];
     d_init := Some
      [req $"spdx_id" TStr; req $"element" (TList TStr); req $"root_element" (TList TStr); opt $"creation_info" (TIs $"CreationInfo");
       opt $"name" TStr; opt $"summary" TStr; opt $"description" TStr; opt $"comment" TStr; lst $"verified_using" (TList (TIs $"IntegrityMethod"));
       lst $"external_reference" (TList (TIs $"ExternalReference")); lst $"external_identifier" (TList (TIs $"ExternalIdentifier"));
       opt $"extension" TStr; lst $"namespaces" (TList (TIs $"NamespaceMap")); lst $"imports" (TList (TIs $"ExternalMap")); opt $"context" TStr;
       lst $"sbom_type" (TList (TIs $"SBOMType"))] |}.
(** software/snippet.py:18-57 *)
Definition D_Snippet : decl :=
  {| d_name := $"Snippet"; d_base := Some $"SoftwareArtifact";
     d_fields := [($"byte_range", TOr (TIs $"PositiveIntegerRange") TNone); ($"line_range", TOr (TIs $"PositiveIntegerRange") TNone)];
     d_init := Some
      [req $"spdx_id" TStr; opt $"creation_info" (TIs $"CreationInfo"); opt $"name" TStr; opt $"summary" TStr; opt $"description" TStr;
       opt $"comment" TStr; lst $"verified_using" (TList (TIs $"IntegrityMethod")); lst $"external_reference" (TList (TIs $"ExternalReference"));
       lst $"external_identifier" (TList (TIs $"ExternalIdentifier")); opt $"extension" TStr; lst $"originated_by" (TList TStr);
       lst $"supplied_by" (TList TStr); opt $"built_time" TDatetime; opt $"release_time" TDatetime; opt $"valid_until_time" TDatetime;
       lst $"standard" (TList TStr); opt $"content_identifier" TStr; opt $"primary_purpose" (TIs $"SoftwarePurpose");
       lst $"additional_purpose" (TList (TIs $"SoftwarePurpose")); opt $"concluded_license" (TIs $"LicenseField");
       opt $"declared_license" (TIs $"LicenseField"); opt $"copyright_text" TStr; opt $"attribution_text" TStr;
       opt $"byte_range" (TIs $"PositiveIntegerRange"); opt $"line_range" (TIs $"PositiveIntegerRange")] |}.
(** software/software_dependency_relationship.py:39-69 *)
Definition D_SoftwareDependencyRelationship : decl :=
  {| d_name := $"SoftwareDependencyRelationship"; d_base := Some $"LifecycleScopedRelationship";
     d_fields := [($"software_linkage", TOr (TIs $"SoftwareDependencyLinkType") TNone);
                  ($"conditionality", TOr (TIs $"DependencyConditionalityType") TNone)];
     d_init := Some
      [req $"spdx_id" TStr; req $"from_element" TStr; req $"relationship_type" (TIs $"RelationshipType"); lst $"to" (TList TStr);
       opt $"creation_info" (TIs $"CreationInfo"); opt $"name" TStr; opt $"summary" TStr; opt $"description" TStr; opt $"comment" TStr;
       lst $"verified_using" (TList (TIs $"IntegrityMethod")); lst $"external_reference" (TList (TIs $"ExternalReference"));
       lst $"external_identifier" (TList (TIs $"ExternalIdentifier")); opt $"extension" TStr; opt $"completeness" (TIs $"RelationshipCompleteness");
       opt $"start_time" TDatetime; opt $"end_time" TDatetime; opt $"scope" (TIs $"LifecycleScopeType");
       opt $"software_linkage" (TIs $"SoftwareDependencyLinkType"); opt $"conditionality" (TIs $"DependencyConditionalityType")] |}.
(** software_agent.py:12-29 *)
Definition D_SoftwareAgent : decl :=
  {| d_name := $"SoftwareAgent"; d_base := Some $"Agent";
     d_fields := [];
     d_init := Some
      [req $"spdx_id" TStr; opt $"creation_info" (TIs $"CreationInfo"); opt $"name" TStr; opt $"summary" TStr; opt $"description" TStr;
       opt $"comment" TStr; lst $"verified_using" (TList (TIs $"IntegrityMethod")); lst $"external_reference" (TList (TIs $"ExternalReference"));
       lst $"external_identifier" (TList (TIs $"ExternalIdentifier")); opt $"extension" TStr] |}.
(** spdx_document.py:20-47 *)
Definition D_SpdxDocument : decl :=
  {| d_name := $"SpdxDocument"; d_base := Some $"Bundle";
     d_fields := [];
     d_init := Some
      [req $"spdx_id" TStr; req $"name" TStr; req $"element" (TList TStr); req $"root_element" (TList TStr);
       opt $"creation_info" (TIs $"CreationInfo"); opt $"summary" TStr; opt $"description" TStr; opt $"comment" TStr;
       lst $"verified_using" (TList (TIs $"IntegrityMethod")); lst $"external_reference" (TList (TIs $"ExternalReference"));
       lst $"external_identifier" (TList (TIs $"ExternalIdentifier")); opt $"extension" TStr; lst $"namespaces" (TList (TIs $"NamespaceMap"));
       lst $"imports" (TList (TIs $"ExternalMap")); opt $"context" TStr] |}.
(** tool.py:12-29 *)
Definition D_Tool : decl :=
  {| d_name := $"Tool"; d_base := Some $"Element";
     d_fields := [];
     d_init := Some
      [req $"spdx_id" TStr; opt $"creation_info" (TIs $"CreationInfo"); opt $"name" TStr; opt $"summary" TStr; opt $"description" TStr;
       opt $"comment" TStr; lst $"verified_using" (TList (TIs $"IntegrityMethod")); lst $"external_reference" (TList (TIs $"ExternalReference"));
       lst $"external_identifier" (TList (TIs $"ExternalIdentifier")); opt $"extension" TStr] |}.

Definition classes3 : list decl :=
  [D_Element; D_Agent; D_Artifact; D_SoftwareArtifact; D_Package; D_AIPackage; D_Annotation; D_ElementCollection; D_Bundle; D_Bom; D_Build;
   D_CreationInfo; D_Dataset; D_ExternalIdentifier; D_ExternalMap; D_ExternalReference; D_IntegrityMethod; D_Hash; D_LicenseField; D_AnyLicenseInfo;
   D_ConjunctiveLicenseSet; D_License; D_CustomLicense; D_LicenseAddition; D_CustomLicenseAddition; D_DisjunctiveLicenseSet; D_ListedLicense;
   D_ListedLicenseException; D_NoAssertionLicense; D_NoneLicense; D_OrLaterOperator; D_WithAdditionOperator; D_Relationship;
   D_LifecycleScopedRelationship; D_NamespaceMap; D_Organization; D_Person; D_PositiveIntegerRange; D_VulnAssessmentRelationship;
   D_CvssV2VulnAssessmentRelationship; D_CvssV3VulnAssessmentRelationship; D_EpssVulnAssessmentRelationship;
   D_ExploitCatalogVulnAssessmentRelationship; D_SsvcVulnAssessmentRelationship; D_VexVulnAssessmentRelationship;
   D_VexAffectedVulnAssessmentRelationship; D_VexFixedVulnAssessmentRelationship; D_VexNotAffectedVulnAssessmentRelationship;
   D_VexUnderInvestigationVulnAssessmentRelationship; D_Vulnerability; D_File; D_Sbom; D_Snippet; D_SoftwareDependencyRelationship; D_SoftwareAgent;
   D_SpdxDocument; D_Tool].
