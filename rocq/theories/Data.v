(** The SPDX 2.x data model: spdx/model/*.py.

    Constructors and setters of these classes are type checked at run time (C36), so a Python object of one of
    these classes always has the shape of the corresponding record. *)
From Verif Require Import Py.

(** spdx/model/actor.py:12-15 (ActorType) *)
Inductive actor_type :=
| AT_PERSON | AT_ORGANIZATION | AT_TOOL.

(** The members of actor_type in declaration order. *)
Definition actor_type_all : list actor_type :=
  [AT_PERSON; AT_ORGANIZATION; AT_TOOL].

(** [member.name] *)
Definition actor_type_name (x : actor_type) : pystr :=
  match x with
  | AT_PERSON => $"PERSON"
  | AT_ORGANIZATION => $"ORGANIZATION"
  | AT_TOOL => $"TOOL"
  end.

Definition actor_type_eq_dec (x y : actor_type) : {x = y} + {x <> y}.
Proof. decide equality. Defined.
Definition actor_type_eqb (x y : actor_type) : bool := if actor_type_eq_dec x y then true else false.

(** spdx/model/annotation.py:12-14 (AnnotationType) *)
Inductive annotation_type :=
| ANT_REVIEW | ANT_OTHER.

(** The members of annotation_type in declaration order. *)
Definition annotation_type_all : list annotation_type :=
  [ANT_REVIEW; ANT_OTHER].

(** [member.name] *)
Definition annotation_type_name (x : annotation_type) : pystr :=
  match x with
  | ANT_REVIEW => $"REVIEW"
  | ANT_OTHER => $"OTHER"
  end.

Definition annotation_type_eq_dec (x y : annotation_type) : {x = y} + {x <> y}.
Proof. decide equality. Defined.
Definition annotation_type_eqb (x y : annotation_type) : bool := if annotation_type_eq_dec x y then true else false.

(** spdx/model/checksum.py:10-27 (ChecksumAlgorithm) *)
Inductive checksum_alg :=
| CA_SHA1 | CA_SHA224 | CA_SHA256 | CA_SHA384 | CA_SHA512 | CA_SHA3_256 | CA_SHA3_384 | CA_SHA3_512
| CA_BLAKE2B_256 | CA_BLAKE2B_384 | CA_BLAKE2B_512 | CA_BLAKE3 | CA_MD2 | CA_MD4 | CA_MD5 | CA_MD6
| CA_ADLER32.

(** The members of checksum_alg in declaration order. *)
Definition checksum_alg_all : list checksum_alg :=
  [CA_SHA1; CA_SHA224; CA_SHA256; CA_SHA384; CA_SHA512;
   CA_SHA3_256; CA_SHA3_384; CA_SHA3_512; CA_BLAKE2B_256; CA_BLAKE2B_384;
   CA_BLAKE2B_512; CA_BLAKE3; CA_MD2; CA_MD4; CA_MD5;
   CA_MD6; CA_ADLER32].

(** [member.name] *)
Definition checksum_alg_name (x : checksum_alg) : pystr :=
  match x with
  | CA_SHA1 => $"SHA1"
  | CA_SHA224 => $"SHA224"
  | CA_SHA256 => $"SHA256"
  | CA_SHA384 => $"SHA384"
  | CA_SHA512 => $"SHA512"
  | CA_SHA3_256 => $"SHA3_256"
  | CA_SHA3_384 => $"SHA3_384"
  | CA_SHA3_512 => $"SHA3_512"
  | CA_BLAKE2B_256 => $"BLAKE2B_256"
  | CA_BLAKE2B_384 => $"BLAKE2B_384"
  | CA_BLAKE2B_512 => $"BLAKE2B_512"
  | CA_BLAKE3 => $"BLAKE3"
  | CA_MD2 => $"MD2"
  | CA_MD4 => $"MD4"
  | CA_MD5 => $"MD5"
  | CA_MD6 => $"MD6"
  | CA_ADLER32 => $"ADLER32"
  end.

Definition checksum_alg_eq_dec (x y : checksum_alg) : {x = y} + {x <> y}.
Proof. decide equality. Defined.
Definition checksum_alg_eqb (x y : checksum_alg) : bool := if checksum_alg_eq_dec x y then true else false.

(** spdx/model/file.py:15-26 (FileType) *)
Inductive file_type :=
| FT_SOURCE | FT_BINARY | FT_ARCHIVE | FT_APPLICATION | FT_AUDIO | FT_IMAGE | FT_TEXT | FT_VIDEO
| FT_DOCUMENTATION | FT_SPDX | FT_OTHER.

(** The members of file_type in declaration order. *)
Definition file_type_all : list file_type :=
  [FT_SOURCE; FT_BINARY; FT_ARCHIVE; FT_APPLICATION; FT_AUDIO;
   FT_IMAGE; FT_TEXT; FT_VIDEO; FT_DOCUMENTATION; FT_SPDX;
   FT_OTHER].

(** [member.name] *)
Definition file_type_name (x : file_type) : pystr :=
  match x with
  | FT_SOURCE => $"SOURCE"
  | FT_BINARY => $"BINARY"
  | FT_ARCHIVE => $"ARCHIVE"
  | FT_APPLICATION => $"APPLICATION"
  | FT_AUDIO => $"AUDIO"
  | FT_IMAGE => $"IMAGE"
  | FT_TEXT => $"TEXT"
  | FT_VIDEO => $"VIDEO"
  | FT_DOCUMENTATION => $"DOCUMENTATION"
  | FT_SPDX => $"SPDX"
  | FT_OTHER => $"OTHER"
  end.

Definition file_type_eq_dec (x y : file_type) : {x = y} + {x <> y}.
Proof. decide equality. Defined.
Definition file_type_eqb (x y : file_type) : bool := if file_type_eq_dec x y then true else false.

(** spdx/model/package.py:16-28 (PackagePurpose) *)
Inductive purpose :=
| PP_APPLICATION | PP_FRAMEWORK | PP_LIBRARY | PP_CONTAINER | PP_OPERATING_SYSTEM | PP_DEVICE | PP_FIRMWARE
| PP_SOURCE | PP_ARCHIVE | PP_FILE | PP_INSTALL | PP_OTHER.

(** The members of purpose in declaration order. *)
Definition purpose_all : list purpose :=
  [PP_APPLICATION; PP_FRAMEWORK; PP_LIBRARY; PP_CONTAINER; PP_OPERATING_SYSTEM;
   PP_DEVICE; PP_FIRMWARE; PP_SOURCE; PP_ARCHIVE; PP_FILE;
   PP_INSTALL; PP_OTHER].

(** [member.name] *)
Definition purpose_name (x : purpose) : pystr :=
  match x with
  | PP_APPLICATION => $"APPLICATION"
  | PP_FRAMEWORK => $"FRAMEWORK"
  | PP_LIBRARY => $"LIBRARY"
  | PP_CONTAINER => $"CONTAINER"
  | PP_OPERATING_SYSTEM => $"OPERATING_SYSTEM"
  | PP_DEVICE => $"DEVICE"
  | PP_FIRMWARE => $"FIRMWARE"
  | PP_SOURCE => $"SOURCE"
  | PP_ARCHIVE => $"ARCHIVE"
  | PP_FILE => $"FILE"
  | PP_INSTALL => $"INSTALL"
  | PP_OTHER => $"OTHER"
  end.

Definition purpose_eq_dec (x y : purpose) : {x = y} + {x <> y}.
Proof. decide equality. Defined.
Definition purpose_eqb (x y : purpose) : bool := if purpose_eq_dec x y then true else false.

(** spdx/model/package.py:41-45 (ExternalPackageRefCategory) *)
Inductive ref_category :=
| RC_SECURITY | RC_PACKAGE_MANAGER | RC_PERSISTENT_ID | RC_OTHER.

(** The members of ref_category in declaration order. *)
Definition ref_category_all : list ref_category :=
  [RC_SECURITY; RC_PACKAGE_MANAGER; RC_PERSISTENT_ID; RC_OTHER].

(** [member.name] *)
Definition ref_category_name (x : ref_category) : pystr :=
  match x with
  | RC_SECURITY => $"SECURITY"
  | RC_PACKAGE_MANAGER => $"PACKAGE_MANAGER"
  | RC_PERSISTENT_ID => $"PERSISTENT_ID"
  | RC_OTHER => $"OTHER"
  end.

Definition ref_category_eq_dec (x y : ref_category) : {x = y} + {x <> y}.
Proof. decide equality. Defined.
Definition ref_category_eqb (x y : ref_category) : bool := if ref_category_eq_dec x y then true else false.

(** spdx/model/relationship.py:13-58 (RelationshipType) *)
Inductive rel_type :=
| RT_AMENDS | RT_ANCESTOR_OF | RT_BUILD_DEPENDENCY_OF | RT_BUILD_TOOL_OF | RT_CONTAINED_BY | RT_CONTAINS
| RT_COPY_OF | RT_DATA_FILE_OF | RT_DEPENDENCY_MANIFEST_OF | RT_DEPENDENCY_OF | RT_DEPENDS_ON | RT_DESCENDANT_OF
| RT_DESCRIBED_BY | RT_DESCRIBES | RT_DEV_DEPENDENCY_OF | RT_DEV_TOOL_OF | RT_DISTRIBUTION_ARTIFACT
| RT_DOCUMENTATION_OF | RT_DYNAMIC_LINK | RT_EXAMPLE_OF | RT_EXPANDED_FROM_ARCHIVE | RT_FILE_ADDED
| RT_FILE_DELETED | RT_FILE_MODIFIED | RT_GENERATED_FROM | RT_GENERATES | RT_HAS_PREREQUISITE | RT_METAFILE_OF
| RT_OPTIONAL_COMPONENT_OF | RT_OPTIONAL_DEPENDENCY_OF | RT_OTHER | RT_PACKAGE_OF | RT_PATCH_APPLIED
| RT_PATCH_FOR | RT_PREREQUISITE_FOR | RT_PROVIDED_DEPENDENCY_OF | RT_REQUIREMENT_DESCRIPTION_FOR
| RT_RUNTIME_DEPENDENCY_OF | RT_SPECIFICATION_FOR | RT_STATIC_LINK | RT_TEST_CASE_OF | RT_TEST_DEPENDENCY_OF
| RT_TEST_OF | RT_TEST_TOOL_OF | RT_VARIANT_OF.

(** The members of rel_type in declaration order. *)
Definition rel_type_all : list rel_type :=
  [RT_AMENDS; RT_ANCESTOR_OF; RT_BUILD_DEPENDENCY_OF; RT_BUILD_TOOL_OF; RT_CONTAINED_BY;
   RT_CONTAINS; RT_COPY_OF; RT_DATA_FILE_OF; RT_DEPENDENCY_MANIFEST_OF; RT_DEPENDENCY_OF;
   RT_DEPENDS_ON; RT_DESCENDANT_OF; RT_DESCRIBED_BY; RT_DESCRIBES; RT_DEV_DEPENDENCY_OF;
   RT_DEV_TOOL_OF; RT_DISTRIBUTION_ARTIFACT; RT_DOCUMENTATION_OF; RT_DYNAMIC_LINK; RT_EXAMPLE_OF;
   RT_EXPANDED_FROM_ARCHIVE; RT_FILE_ADDED; RT_FILE_DELETED; RT_FILE_MODIFIED; RT_GENERATED_FROM;
   RT_GENERATES; RT_HAS_PREREQUISITE; RT_METAFILE_OF; RT_OPTIONAL_COMPONENT_OF; RT_OPTIONAL_DEPENDENCY_OF;
   RT_OTHER; RT_PACKAGE_OF; RT_PATCH_APPLIED; RT_PATCH_FOR; RT_PREREQUISITE_FOR;
   RT_PROVIDED_DEPENDENCY_OF; RT_REQUIREMENT_DESCRIPTION_FOR; RT_RUNTIME_DEPENDENCY_OF; RT_SPECIFICATION_FOR; RT_STATIC_LINK;
   RT_TEST_CASE_OF; RT_TEST_DEPENDENCY_OF; RT_TEST_OF; RT_TEST_TOOL_OF; RT_VARIANT_OF].

(** [member.name] *)
Definition rel_type_name (x : rel_type) : pystr :=
  match x with
  | RT_AMENDS => $"AMENDS"
  | RT_ANCESTOR_OF => $"ANCESTOR_OF"
  | RT_BUILD_DEPENDENCY_OF => $"BUILD_DEPENDENCY_OF"
  | RT_BUILD_TOOL_OF => $"BUILD_TOOL_OF"
  | RT_CONTAINED_BY => $"CONTAINED_BY"
  | RT_CONTAINS => $"CONTAINS"
  | RT_COPY_OF => $"COPY_OF"
  | RT_DATA_FILE_OF => $"DATA_FILE_OF"
  | RT_DEPENDENCY_MANIFEST_OF => $"DEPENDENCY_MANIFEST_OF"
  | RT_DEPENDENCY_OF => $"DEPENDENCY_OF"
  | RT_DEPENDS_ON => $"DEPENDS_ON"
  | RT_DESCENDANT_OF => $"DESCENDANT_OF"
  | RT_DESCRIBED_BY => $"DESCRIBED_BY"
  | RT_DESCRIBES => $"DESCRIBES"
  | RT_DEV_DEPENDENCY_OF => $"DEV_DEPENDENCY_OF"
  | RT_DEV_TOOL_OF => $"DEV_TOOL_OF"
  | RT_DISTRIBUTION_ARTIFACT => $"DISTRIBUTION_ARTIFACT"
  | RT_DOCUMENTATION_OF => $"DOCUMENTATION_OF"
  | RT_DYNAMIC_LINK => $"DYNAMIC_LINK"
  | RT_EXAMPLE_OF => $"EXAMPLE_OF"
  | RT_EXPANDED_FROM_ARCHIVE => $"EXPANDED_FROM_ARCHIVE"
  | RT_FILE_ADDED => $"FILE_ADDED"
  | RT_FILE_DELETED => $"FILE_DELETED"
  | RT_FILE_MODIFIED => $"FILE_MODIFIED"
  | RT_GENERATED_FROM => $"GENERATED_FROM"
  | RT_GENERATES => $"GENERATES"
  | RT_HAS_PREREQUISITE => $"HAS_PREREQUISITE"
  | RT_METAFILE_OF => $"METAFILE_OF"
  | RT_OPTIONAL_COMPONENT_OF => $"OPTIONAL_COMPONENT_OF"
  | RT_OPTIONAL_DEPENDENCY_OF => $"OPTIONAL_DEPENDENCY_OF"
  | RT_OTHER => $"OTHER"
  | RT_PACKAGE_OF => $"PACKAGE_OF"
  | RT_PATCH_APPLIED => $"PATCH_APPLIED"
  | RT_PATCH_FOR => $"PATCH_FOR"
  | RT_PREREQUISITE_FOR => $"PREREQUISITE_FOR"
  | RT_PROVIDED_DEPENDENCY_OF => $"PROVIDED_DEPENDENCY_OF"
  | RT_REQUIREMENT_DESCRIPTION_FOR => $"REQUIREMENT_DESCRIPTION_FOR"
  | RT_RUNTIME_DEPENDENCY_OF => $"RUNTIME_DEPENDENCY_OF"
  | RT_SPECIFICATION_FOR => $"SPECIFICATION_FOR"
  | RT_STATIC_LINK => $"STATIC_LINK"
  | RT_TEST_CASE_OF => $"TEST_CASE_OF"
  | RT_TEST_DEPENDENCY_OF => $"TEST_DEPENDENCY_OF"
  | RT_TEST_OF => $"TEST_OF"
  | RT_TEST_TOOL_OF => $"TEST_TOOL_OF"
  | RT_VARIANT_OF => $"VARIANT_OF"
  end.

Definition rel_type_eq_dec (x y : rel_type) : {x = y} + {x <> y}.
Proof. decide equality. Defined.
Definition rel_type_eqb (x y : rel_type) : bool := if rel_type_eq_dec x y then true else false.

(** [EnumClass[name]]: the member with this name; None models the KeyError. *)
Definition enum_lookup {A} (all : list A) (name : A -> pystr) (s : pystr) : option A :=
  find (fun a => str_eqb (name a) s) all.

(** Union[T, SpdxNoAssertion, SpdxNone] (spdx/model/spdx_none.py, spdx_no_assertion.py) *)
Inductive nn (A : Type) := NVal (a : A) | NNoAssertion | NNone.
Arguments NVal {A} a.
Arguments NNoAssertion {A}.
Arguments NNone {A}.

(** Union[T, SpdxNoAssertion] *)
Inductive na (A : Type) := AVal (a : A) | ANoAssertion.
Arguments AVal {A} a.
Arguments ANoAssertion {A}.

(** A license_expression.LicenseExpression: the syntax trees built by the external library.  [LSym] is a
    LicenseSymbol (its key), [LWith] a LicenseWithExceptionSymbol (license key and exception key). *)
Inductive lexpr :=
| LSym (key : pystr)
| LWith (lic exc : pystr)
| LAnd (args : list lexpr)
| LOr (args : list lexpr).

(** Union[LicenseExpression, SpdxNoAssertion, SpdxNone] *)
Definition license := nn lexpr.

(** A Python datetime: calendar fields, microseconds, and for aware datetimes the UTC offset in microseconds. *)
Record datetime := { dt_year : Z; dt_month : Z; dt_day : Z; dt_hour : Z; dt_min : Z; dt_sec : Z; dt_us : Z;
                     dt_off : option Z }.

(** spdx/model/version.py:8-33 *)
Record version := { v_major : N; v_minor : N }.

(** spdx/model/actor.py:18-25 *)
Record actor := { ac_type : actor_type; ac_name : pystr; ac_email : option pystr }.

(** spdx/model/annotation.py:17-33 *)
Record annotation := { an_id : pystr; an_type : annotation_type; an_annotator : actor; an_date : datetime;
                       an_comment : pystr }.

(** spdx/model/checksum.py:30-36 *)
Record checksum := { ck_alg : checksum_alg; ck_value : pystr }.

(** spdx/model/external_document_ref.py:10-17 *)
Record ext_doc_ref := { edr_id : pystr; edr_uri : pystr; edr_checksum : checksum }.

(** spdx/model/extracted_licensing_info.py:13-30 *)
Record extracted := { el_id : option pystr; el_text : option pystr; el_name : option (na pystr);
                      el_xrefs : list pystr; el_comment : option pystr }.

(** spdx/model/file.py:29-68 *)
Record file := { fi_name : pystr; fi_id : pystr; fi_checksums : list checksum; fi_types : list file_type;
                 fi_concluded : option license; fi_info : list license; fi_lic_comment : option pystr;
                 fi_copyright : option (nn pystr); fi_comment : option pystr; fi_notice : option pystr;
                 fi_contributors : list pystr; fi_attribution : list pystr }.

(** spdx/model/package.py:31-38 *)
Record verif_code := { vc_value : pystr; vc_excluded : list pystr }.

(** spdx/model/package.py:56-69 *)
Record ext_pkg_ref := { er_category : ref_category; er_type : pystr; er_locator : pystr; er_comment : option pystr }.

(** spdx/model/package.py:72-134 *)
Record package := { pk_id : pystr; pk_name : pystr; pk_download : nn pystr; pk_version : option pystr;
                    pk_file_name : option pystr; pk_supplier : option (na actor); pk_originator : option (na actor);
                    pk_files_analyzed : bool; pk_verif : option verif_code; pk_checksums : list checksum;
                    pk_homepage : option (nn pystr); pk_source_info : option pystr;
                    pk_concluded : option license; pk_info : list license; pk_declared : option license;
                    pk_lic_comment : option pystr; pk_copyright : option (nn pystr);
                    pk_summary : option pystr; pk_description : option pystr; pk_comment : option pystr;
                    pk_refs : list ext_pkg_ref; pk_attribution : list pystr; pk_purpose : option purpose;
                    pk_release : option datetime; pk_built : option datetime; pk_valid_until : option datetime }.

(** spdx/model/relationship.py:61-75 *)
Record relationship := { re_id : pystr; re_type : rel_type; re_related : nn pystr; re_comment : option pystr }.

(** spdx/model/snippet.py:14-44 *)
Record snippet := { sn_id : pystr; sn_file : pystr; sn_bytes : Z * Z; sn_lines : option (Z * Z);
                    sn_concluded : option license; sn_info : list license; sn_lic_comment : option pystr;
                    sn_copyright : option (nn pystr); sn_comment : option pystr; sn_name : option pystr;
                    sn_attribution : list pystr }.

(** spdx/model/document.py:24-53 *)
Record creation_info := { ci_version : pystr; ci_id : pystr; ci_name : pystr; ci_namespace : pystr;
                          ci_creators : list actor; ci_created : datetime; ci_creator_comment : option pystr;
                          ci_data_license : pystr; ci_refs : list ext_doc_ref; ci_list_version : option version;
                          ci_doc_comment : option pystr }.

(** spdx/model/document.py:56-83 *)
Record document := { do_ci : creation_info; do_packages : list package; do_files : list file;
                     do_snippets : list snippet; do_annotations : list annotation;
                     do_relationships : list relationship; do_extracted : list extracted }.

(** Equality of dataclasses is equality of their fields. *)
Definition char_list_eq_dec (a b : pystr) : {a = b} + {a <> b} := list_eq_dec N.eq_dec a b.
Definition nn_str_eq_dec (a b : nn pystr) : {a = b} + {a <> b}.
Proof. decide equality; apply char_list_eq_dec. Defined.
Definition opt_str_eq_dec (a b : option pystr) : {a = b} + {a <> b}.
Proof. decide equality; apply char_list_eq_dec. Defined.
Definition relationship_eq_dec (a b : relationship) : {a = b} + {a <> b}.
Proof.
  decide equality; [apply opt_str_eq_dec | apply nn_str_eq_dec | apply rel_type_eq_dec | apply char_list_eq_dec].
Defined.
Definition checksum_eq_dec (a b : checksum) : {a = b} + {a <> b}.
Proof. decide equality; [apply char_list_eq_dec | apply checksum_alg_eq_dec]. Defined.
Definition actor_eq_dec (a b : actor) : {a = b} + {a <> b}.
Proof. decide equality; [apply opt_str_eq_dec | apply char_list_eq_dec | apply actor_type_eq_dec]. Defined.
Definition ext_doc_ref_eq_dec (a b : ext_doc_ref) : {a = b} + {a <> b}.
Proof. decide equality; [apply checksum_eq_dec | apply char_list_eq_dec | apply char_list_eq_dec]. Defined.
Definition ext_pkg_ref_eq_dec (a b : ext_pkg_ref) : {a = b} + {a <> b}.
Proof.
  decide equality; [apply opt_str_eq_dec | apply char_list_eq_dec | apply char_list_eq_dec | apply ref_category_eq_dec].
Defined.
Definition eqb_of {A} (dec : forall a b : A, {a = b} + {a <> b}) (a b : A) : bool := if dec a b then true else false.

(** spdx/constants.py *)
Definition DOCUMENT_SPDX_ID : pystr := $"SPDXRef-DOCUMENT".
