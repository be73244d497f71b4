(** Type-checked data classes: common/typing/dataclass_with_properties.py, common/typing/type_checks.py,
    common/typing/constructor_type_errors.py and the constructors of spdx/model/*.py.

    beartype is outside the repository.  What it does with the hints used here: it checks a value against a hint by
    isinstance, the items of a fixed tuple one by one, and of a list only one item, chosen by a random number that is
    drawn for every call of a checked function.  The random numbers are an argument of the model. *)
From Verif Require Import Py Data.

(** Python values as far as the hints tell them apart.  Instances of the model classes and members of enumerations are
    [VObj]; their fields do not matter for isinstance.  Objects are values here: that a list given to a constructor
    can be changed afterwards without any check is not modelled. *)
Inductive pyval :=
| VNone
| VBool (b : bool)
| VInt (z : Z)
| VFloat (repr : pystr)
| VStr (s : pystr)
| VDatetime (d : datetime)
| VLicense (e : lexpr)
| VList (l : list pyval)
| VTuple (l : list pyval)
| VDict (kvs : list (pyval * pyval))
| VObj (cls : pystr) (fields : list (pystr * pyval)).

(** the type hints of the model classes; Optional[T] is [HOr T HNone] *)
Inductive hint :=
| HNone
| HStr
| HBool
| HInt
| HDatetime
| HLicense
| HClass (name : pystr)
| HOr (a b : hint)
| HPair (a b : hint)
| HList (a : hint).

(** beartype's check of one value with the random number [r]; bool is a subclass of int *)
Fixpoint accepts (r : nat) (h : hint) (v : pyval) : bool :=
  match h with
  | HNone => match v with VNone => true | _ => false end
  | HStr => match v with VStr _ => true | _ => false end
  | HBool => match v with VBool _ => true | _ => false end
  | HInt => match v with VInt _ | VBool _ => true | _ => false end
  | HDatetime => match v with VDatetime _ => true | _ => false end
  | HLicense => match v with VLicense _ => true | _ => false end
  | HClass name => match v with VObj c _ => str_eqb c name | _ => false end
  | HOr a b => accepts r a v || accepts r b v
  | HPair a b => match v with VTuple [x; y] => accepts r a x && accepts r b y | _ => false end
  | HList a =>
      match v with
      | VList [] => true
      | VList ((x :: _) as l) => accepts r a (nth (r mod List.length l) l x)
      | _ => false
      end
  end.

(** a parameter of __init__: its default if it has one, and whether None is replaced by [] in the body *)
Record param := { pa_name : pystr; pa_default : option pyval; pa_empty : bool }.
(** a class decorated with dataclass_with_properties: the annotated fields, in order, and the parameters of __init__ *)
Record class := { cl_name : pystr; cl_fields : list (pystr * hint); cl_params : list param }.

Definition required (n : pystr) : param := {| pa_name := n; pa_default := None; pa_empty := false |}.
Definition optional (n : pystr) : param := {| pa_name := n; pa_default := Some VNone; pa_empty := false |}.
Definition listed (n : pystr) : param := {| pa_name := n; pa_default := Some VNone; pa_empty := true |}.
Definition default (n : pystr) (v : pyval) : param := {| pa_name := n; pa_default := Some v; pa_empty := false |}.

(** dataclass_with_properties.py:33-43: the message of a failing setter; the text of beartype and the value that follow
    are not modelled *)
Definition setter_message (cls fld : pystr) : pystr := $"SetterError " ++ cls ++ $": " ++ fld.

(** an instance: its class and the values behind its properties *)
Definition instance := list (pystr * pyval).
(** dataclass_with_properties.py:25-45  the setter of a property *)
Definition set_field (r : nat) (c : class) (fld : pystr) (v : pyval) (i : instance) : result instance :=
  match assoc fld (cl_fields c) with
  | None => Raise (EAttr fld)
  | Some h => if accepts r h v then Ok (dict_set fld v i) else Raise (EType (setter_message (cl_name c) fld))
  end.
(** dataclass_with_properties.py:48-54  the getter *)
Definition get_field (fld : pystr) (i : instance) : result pyval :=
  match assoc fld i with Some v => Ok v | None => Raise (EAttr ($"_" ++ fld)) end.

(** type_checks.py:11-31  check_types_and_set_values: the loop over the fields; [rs k] is the random number of the k-th
    setter *)
Fixpoint set_values (rs : nat -> nat) (c : class) (fields : list (pystr * hint)) (locals : list (pystr * pyval))
  (i : instance) (errors : list pystr) : result instance :=
  match fields with
  | [] => match errors with [] => Ok i | _ => Raise (EConstructor errors) end
  | (key, _) :: fields' =>
      let value := match assoc key locals with Some v => v | None => VNone end in
      match set_field (rs O) c key value i with
      | Ok i' => set_values (fun k => rs (S k)) c fields' locals i' errors
      | Raise (EType m) => set_values (fun k => rs (S k)) c fields' locals i (errors ++ [m])
      | Raise e => Raise e
      end
  end.

(** binding of keyword arguments to the parameters, and the replacement of None by [] in the bodies of __init__ *)
Fixpoint bind_params (ps : list param) (kwargs : list (pystr * pyval)) : result (list (pystr * pyval)) :=
  match ps with
  | [] => Ok []
  | p :: ps' =>
      do v <- match assoc (pa_name p) kwargs with
              | Some v => Ok v
              | None => match pa_default p with
                        | Some v => Ok v
                        | None => Raise (EType ($"missing required argument: " ++ pa_name p))
                        end
              end;
      let v := match v with VNone => if pa_empty p then VList [] else v | _ => v end in
      do l <- bind_params ps' kwargs;
      Ok ((pa_name p, v) :: l)
  end.
(** C(k1=v1, ...): calling the class with keyword arguments *)
Definition new (rs : nat -> nat) (c : class) (kwargs : list (pystr * pyval)) : result pyval :=
  match filter (fun kv => negb (str_in (fst kv) (map pa_name (cl_params c)))) kwargs with
  | kv :: _ => Raise (EType ($"got an unexpected keyword argument " ++ fst kv))
  | [] =>
      do locals <- bind_params (cl_params c) kwargs;
      do i <- set_values rs c (cl_fields c) locals [] [];
      Ok (VObj (cl_name c) i)
  end.

(** ** The classes of spdx/model *)
Definition opt (h : hint) : hint := HOr h HNone.
Definition NA : hint := HClass $"SpdxNoAssertion".
Definition NONE : hint := HClass $"SpdxNone".
Definition str_or_nn : hint := HOr HStr (HOr NA NONE).
Definition license_or_nn : hint := HOr HLicense (HOr NA NONE).
Definition int_pair : hint := HPair HInt HInt.

(** actor.py:18-25 *)
Definition Actor : class :=
  {| cl_name := $"Actor";
     cl_fields := [($"actor_type", HClass $"ActorType"); ($"name", HStr); ($"email", opt HStr)];
     cl_params := [required $"actor_type"; required $"name"; optional $"email"] |}.
(** annotation.py:17-33 *)
Definition Annotation : class :=
  {| cl_name := $"Annotation";
     cl_fields := [($"spdx_id", HStr); ($"annotation_type", HClass $"AnnotationType"); ($"annotator", HClass $"Actor");
                   ($"annotation_date", HDatetime); ($"annotation_comment", HStr)];
     cl_params := [required $"spdx_id"; required $"annotation_type"; required $"annotator"; required $"annotation_date";
                   required $"annotation_comment"] |}.
(** checksum.py:30-36 *)
Definition Checksum : class :=
  {| cl_name := $"Checksum";
     cl_fields := [($"algorithm", HClass $"ChecksumAlgorithm"); ($"value", HStr)];
     cl_params := [required $"algorithm"; required $"value"] |}.
(** external_document_ref.py:10-17 *)
Definition ExternalDocumentRef : class :=
  {| cl_name := $"ExternalDocumentRef";
     cl_fields := [($"document_ref_id", HStr); ($"document_uri", HStr); ($"checksum", HClass $"Checksum")];
     cl_params := [required $"document_ref_id"; required $"document_uri"; required $"checksum"] |}.
(** document.py:24-53 *)
Definition CreationInfo : class :=
  {| cl_name := $"CreationInfo";
     cl_fields := [($"spdx_version", HStr); ($"spdx_id", HStr); ($"name", HStr); ($"document_namespace", HStr);
                   ($"creators", HList (HClass $"Actor")); ($"created", HDatetime); ($"creator_comment", opt HStr);
                   ($"data_license", HStr); ($"external_document_refs", HList (HClass $"ExternalDocumentRef"));
                   ($"license_list_version", opt (HClass $"Version")); ($"document_comment", opt HStr)];
     cl_params := [required $"spdx_version"; required $"spdx_id"; required $"name"; required $"document_namespace";
                   required $"creators"; required $"created"; optional $"creator_comment";
                   default $"data_license" (VStr $"CC0-1.0"); listed $"external_document_refs";
                   optional $"license_list_version"; optional $"document_comment"] |}.
(** document.py:56-83 *)
Definition Document : class :=
  {| cl_name := $"Document";
     cl_fields := [($"creation_info", HClass $"CreationInfo"); ($"packages", HList (HClass $"Package"));
                   ($"files", HList (HClass $"File")); ($"snippets", HList (HClass $"Snippet"));
                   ($"annotations", HList (HClass $"Annotation")); ($"relationships", HList (HClass $"Relationship"));
                   ($"extracted_licensing_info", HList (HClass $"ExtractedLicensingInfo"))];
     cl_params := [required $"creation_info"; listed $"packages"; listed $"files"; listed $"snippets";
                   listed $"annotations"; listed $"relationships"; listed $"extracted_licensing_info"] |}.
(** extracted_licensing_info.py:13-30 *)
Definition ExtractedLicensingInfo : class :=
  {| cl_name := $"ExtractedLicensingInfo";
     cl_fields := [($"license_id", opt HStr); ($"extracted_text", opt HStr); ($"license_name", opt (HOr HStr NA));
                   ($"cross_references", HList HStr); ($"comment", opt HStr)];
     cl_params := [optional $"license_id"; optional $"extracted_text"; optional $"license_name"; listed $"cross_references";
                   optional $"comment"] |}.
(** file.py:29-68 *)
Definition File : class :=
  {| cl_name := $"File";
     cl_fields := [($"name", HStr); ($"spdx_id", HStr); ($"checksums", HList (HClass $"Checksum"));
                   ($"file_types", HList (HClass $"FileType")); ($"license_concluded", opt license_or_nn);
                   ($"license_info_in_file", HList license_or_nn); ($"license_comment", opt HStr);
                   ($"copyright_text", opt str_or_nn); ($"comment", opt HStr); ($"notice", opt HStr);
                   ($"contributors", HList HStr); ($"attribution_texts", HList HStr)];
     cl_params := [required $"name"; required $"spdx_id"; required $"checksums"; listed $"file_types";
                   optional $"license_concluded"; listed $"license_info_in_file"; optional $"license_comment";
                   optional $"copyright_text"; optional $"comment"; optional $"notice"; listed $"contributors";
                   listed $"attribution_texts"] |}.
(** package.py:31-38 *)
Definition PackageVerificationCode : class :=
  {| cl_name := $"PackageVerificationCode";
     cl_fields := [($"value", HStr); ($"excluded_files", HList HStr)];
     cl_params := [required $"value"; listed $"excluded_files"] |}.
(** package.py:56-69 *)
Definition ExternalPackageRef : class :=
  {| cl_name := $"ExternalPackageRef";
     cl_fields := [($"category", HClass $"ExternalPackageRefCategory"); ($"reference_type", HStr); ($"locator", HStr);
                   ($"comment", opt HStr)];
     cl_params := [required $"category"; required $"reference_type"; required $"locator"; optional $"comment"] |}.
(** package.py:72-134 *)
Definition Package : class :=
  {| cl_name := $"Package";
     cl_fields := [($"spdx_id", HStr); ($"name", HStr); ($"download_location", str_or_nn); ($"version", opt HStr);
                   ($"file_name", opt HStr); ($"supplier", opt (HOr (HClass $"Actor") NA));
                   ($"originator", opt (HOr (HClass $"Actor") NA)); ($"files_analyzed", HBool);
                   ($"verification_code", opt (HClass $"PackageVerificationCode"));
                   ($"checksums", HList (HClass $"Checksum")); ($"homepage", opt str_or_nn); ($"source_info", opt HStr);
                   ($"license_concluded", opt license_or_nn); ($"license_info_from_files", HList license_or_nn);
                   ($"license_declared", opt license_or_nn); ($"license_comment", opt HStr);
                   ($"copyright_text", opt str_or_nn); ($"summary", opt HStr); ($"description", opt HStr);
                   ($"comment", opt HStr); ($"external_references", HList (HClass $"ExternalPackageRef"));
                   ($"attribution_texts", HList HStr); ($"primary_package_purpose", opt (HClass $"PackagePurpose"));
                   ($"release_date", opt HDatetime); ($"built_date", opt HDatetime); ($"valid_until_date", opt HDatetime)];
     cl_params := [required $"spdx_id"; required $"name"; required $"download_location"; optional $"version";
                   optional $"file_name"; optional $"supplier"; optional $"originator";
                   default $"files_analyzed" (VBool true); optional $"verification_code"; listed $"checksums";
                   optional $"homepage"; optional $"source_info"; optional $"license_concluded";
                   listed $"license_info_from_files"; optional $"license_declared"; optional $"license_comment";
                   optional $"copyright_text"; optional $"summary"; optional $"description"; optional $"comment";
                   listed $"external_references"; listed $"attribution_texts"; optional $"primary_package_purpose";
                   optional $"release_date"; optional $"built_date"; optional $"valid_until_date"] |}.
(** relationship.py:61-75 *)
Definition Relationship : class :=
  {| cl_name := $"Relationship";
     cl_fields := [($"spdx_element_id", HStr); ($"relationship_type", HClass $"RelationshipType");
                   ($"related_spdx_element_id", HOr HStr (HOr NONE NA)); ($"comment", opt HStr)];
     cl_params := [required $"spdx_element_id"; required $"relationship_type"; required $"related_spdx_element_id";
                   optional $"comment"] |}.
(** snippet.py:14-44 *)
Definition Snippet : class :=
  {| cl_name := $"Snippet";
     cl_fields := [($"spdx_id", HStr); ($"file_spdx_id", HStr); ($"byte_range", int_pair); ($"line_range", opt int_pair);
                   ($"license_concluded", opt license_or_nn); ($"license_info_in_snippet", HList license_or_nn);
                   ($"license_comment", opt HStr); ($"copyright_text", opt str_or_nn); ($"comment", opt HStr);
                   ($"name", opt HStr); ($"attribution_texts", HList HStr)];
     cl_params := [required $"spdx_id"; required $"file_spdx_id"; required $"byte_range"; optional $"line_range";
                   optional $"license_concluded"; listed $"license_info_in_snippet"; optional $"license_comment";
                   optional $"copyright_text"; optional $"comment"; optional $"name"; listed $"attribution_texts"] |}.

Definition model_classes : list class :=
  [Actor; Annotation; Checksum; ExternalDocumentRef; CreationInfo; Document; ExtractedLicensingInfo; File;
   PackageVerificationCode; ExternalPackageRef; Package; Relationship; Snippet].
