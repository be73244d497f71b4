(** The tag-value writer: spdx/writer/tagvalue/*.py.

    The text stream is the string written so far.  When a function raises, the part it has already written is not
    part of the result. *)
From Verif Require Import Py Data Oracles Basics JsonConv.

(** successive writes to the stream *)
Fixpoint writes (l : list (result pystr)) : result pystr :=
  match l with
  | [] => Ok []
  | w :: l' => do a <- w; do b <- writes l'; Ok (a ++ b)
  end.
(** a loop that writes something for every item *)
Definition write_each {A} (f : A -> result pystr) (l : list A) : result pystr := writes (map f l).

(** ** tagvalue_writer_helper_functions.py *)

(** line 24-25 *)
Definition write_separator : result pystr := Ok [LF].
(** line 28-32, for a value that is not None, given as str(value) *)
Definition write_value (tag v : pystr) : result pystr := Ok (tag ++ $": " ++ v ++ [LF]).
(** line 28-32 for an optional value *)
Definition write_opt (tag : pystr) (v : option pystr) : result pystr :=
  match v with Some s => write_value tag s | None => Ok [] end.
(** line 35-37; a pair is always truthy *)
Definition write_range (tag : pystr) (v : option (Z * Z)) : result pystr :=
  match v with
  | Some (a, b) => Ok (tag ++ $": " ++ str_of_Z a ++ $":" ++ str_of_Z b ++ [LF])
  | None => Ok []
  end.
(** line 40-44 on a str *)
Definition write_text (tag v : pystr) : result pystr :=
  if has_char LF v then Ok (tag ++ $": <text>" ++ v ++ $"</text>" ++ [LF]) else write_value tag v.
Definition write_opt_text (tag : pystr) (v : option pystr) : result pystr :=
  match v with Some s => write_text tag s | None => Ok [] end.
(** line 40-44 on Optional[Union[str, SpdxNone, SpdxNoAssertion]] *)
Definition write_text_value (tag : pystr) (v : option (nn pystr)) : result pystr :=
  match v with
  | Some (NVal s) => write_text tag s
  | Some x => write_value tag (text_str x)
  | None => Ok []
  end.
(** line 47-48 *)
Definition transform_enum_name_to_tv (s : pystr) : pystr := replace $"_" $"-" s.
(** line 51-53 *)
Definition write_optional_heading {A} (l : list A) (heading : pystr) : result pystr :=
  Ok (if truthy_list l then heading else []).
(** line 56-65 *)
Definition write_list_of_elements {A} (l : list A) (w : A -> result pystr) (with_separator : bool) : result pystr :=
  write_each (fun x => writes [w x; if with_separator then write_separator else Ok []]) l.
(** line 68-72 *)
Definition write_actor (tag : pystr) (a : option (na actor)) : result pystr :=
  write_opt tag (option_map (na_to_str actor_str) a).

(** d.setdefault(k, []).append(v) on an insertion-ordered dict *)
Fixpoint dict_append {A} (k : pystr) (v : A) (l : list (pystr * list A)) : list (pystr * list A) :=
  match l with
  | [] => [(k, [v])]
  | (k', vs) :: l' => if str_eqb k k' then (k', vs ++ [v]) :: l' else (k', vs) :: dict_append k v l'
  end.

(** line 80: {file.spdx_id: file for file in files}; the last file with an id wins *)
Definition file_by_id (files : list file) (id : pystr) : option file :=
  find (fun f => str_eqb (fi_id f) id) (rev files).

(** line 75-110  scan_relationships *)
Fixpoint scan_relationships (rels : list relationship) (package_ids : list pystr) (files : list file)
         (to_write : list relationship) (contained : list (pystr * list file))
  : list relationship * list (pystr * list file) :=
  match rels with
  | [] => (to_write, contained)
  | r :: rels' =>
      let keep := if truthy_opt (re_comment r) then to_write ++ [r] else to_write in
      let other := scan_relationships rels' package_ids files (to_write ++ [r]) contained in
      match re_related r with
      | NVal related =>
          if rel_type_eqb (re_type r) RT_CONTAINS && str_in (re_id r) package_ids
             && str_in related (map fi_id files)
          then match file_by_id files related with
               | Some f => scan_relationships rels' package_ids files keep (dict_append (re_id r) f contained)
               | None => other
               end
          else if rel_type_eqb (re_type r) RT_CONTAINED_BY && str_in related package_ids
                  && str_in (re_id r) (map fi_id files)
          then match file_by_id files (re_id r) with
               | Some f => scan_relationships rels' package_ids files keep (dict_append related f contained)
               | None => other
               end
          else other
      | _ => other
      end
  end.

(** line 113-121  get_file_ids_with_contained_snippets *)
Fixpoint get_file_ids_with_contained_snippets (snippets : list snippet) (file_ids : list pystr)
         (acc : list (pystr * list snippet)) : list (pystr * list snippet) :=
  match snippets with
  | [] => acc
  | s :: l => get_file_ids_with_contained_snippets l file_ids
                (if str_in (sn_file s) file_ids then dict_append (sn_file s) s acc else acc)
  end.

(** ** Element writers *)

(** apply to a datetime, then write *)
Definition write_date (tag : pystr) (d : datetime) : result pystr :=
  do s <- datetime_to_iso_string d; write_value tag s.
Definition write_opt_date (tag : pystr) (d : option datetime) : result pystr :=
  match d with Some x => write_date tag x | None => Ok [] end.

(** annotation_writer.py:19-24 *)
Definition write_annotation (a : annotation) : result pystr :=
  writes [ write_value $"Annotator" (actor_str (an_annotator a));
           write_date $"AnnotationDate" (an_date a);
           write_value $"AnnotationType" (annotation_type_name (an_type a));
           write_value $"SPDXREF" (an_id a);
           write_text $"AnnotationComment" (an_comment a) ].

(** checksum_writer.py:25-32 *)
Definition CHECKSUM_ALGORITHM_TO_TV : list (pystr * pystr) :=
  [ (checksum_alg_name CA_BLAKE2B_256, $"BLAKE2b-256"); (checksum_alg_name CA_BLAKE2B_384, $"BLAKE2b-384");
    (checksum_alg_name CA_BLAKE2B_512, $"BLAKE2b-512"); (checksum_alg_name CA_SHA3_256, $"SHA3-256");
    (checksum_alg_name CA_SHA3_384, $"SHA3-384"); (checksum_alg_name CA_SHA3_512, $"SHA3-512") ].
(** checksum_writer.py:15-22 *)
Definition write_checksum_to_tag_value (c : checksum) : result pystr :=
  let name := checksum_alg_name (ck_alg c) in
  if has_char #"_" name then
    match assoc name CHECKSUM_ALGORITHM_TO_TV with
    | Some n => Ok (n ++ $": " ++ ck_value c)
    | None => Raise (EValue ($"Missing conversion rule for converting " ++ name ++ $" to tag-value string"))
    end
  else Ok (name ++ $": " ++ ck_value c).
Definition write_checksum (tag : pystr) (c : checksum) : result pystr :=
  do s <- write_checksum_to_tag_value c; write_value tag s.

(** creation_info_writer.py:33-41 *)
Definition write_external_document_ref (r : ext_doc_ref) : result pystr :=
  write_value $"ExternalDocumentRef"
    (join $" " [edr_id r; edr_uri r; checksum_alg_name (ck_alg (edr_checksum r)) ++ $": " ++ ck_value (edr_checksum r)]).

(** creation_info_writer.py:24-49 *)
Definition write_creation_info (c : creation_info) : result pystr :=
  writes [ write_value $"SPDXVersion" (ci_version c);
           write_value $"DataLicense" (ci_data_license c);
           write_value $"SPDXID" (ci_id c);
           write_value $"DocumentName" (ci_name c);
           write_value $"DocumentNamespace" (ci_namespace c);
           write_opt_text $"DocumentComment" (ci_doc_comment c);
           write_optional_heading (ci_refs c) (LF :: $"## External Document References" ++ [LF]);
           write_each write_external_document_ref (ci_refs c);
           write_separator;
           Ok ($"## Creation Information" ++ [LF]);
           write_opt $"LicenseListVersion" (option_map version_str (ci_list_version c));
           write_each (fun a => write_value $"Creator" (actor_str a)) (ci_creators c);
           write_date $"Created" (ci_created c);
           write_opt_text $"CreatorComment" (ci_creator_comment c) ].

(** <= on str: lexicographic order of code points *)
Fixpoint str_leb (a b : pystr) : bool :=
  match a, b with
  | [], _ => true
  | _ :: _, [] => false
  | x :: a', y :: b' => if N.eqb x y then str_leb a' b' else (x <? y)%N
  end.
(** sorted(l): stable; equal strings cannot be told apart *)
Fixpoint insert_str (x : pystr) (l : list pystr) : list pystr :=
  match l with
  | [] => [x]
  | y :: l' => if str_leb x y then x :: l else y :: insert_str x l'
  end.
Definition sorted (l : list pystr) : list pystr := fold_right insert_str [] l.

(** extracted_licensing_info_writer.py:18-26 *)
Definition write_extracted_licensing_info (e : extracted) : result pystr :=
  writes [ write_opt $"LicenseID" (el_id e);
           write_opt_text $"ExtractedText" (el_text e);
           write_opt $"LicenseName" (option_map (na_to_str (fun s => s)) (el_name e));
           write_each (write_value $"LicenseCrossReference") (sorted (el_xrefs e));
           write_opt_text $"LicenseComment" (el_comment e) ].

(** relationship_writer.py:18-30 *)
Definition write_relationship (r : relationship) : result pystr :=
  writes [ write_value $"Relationship" (join $" " [re_id r; rel_type_name (re_type r); text_str (re_related r)]);
           write_opt_text $"RelationshipComment" (re_comment r) ].

Section WithOracles.
Variable O : oracles.

(** write_value(tag, license, ...) *)
Definition write_license (tag : pystr) (l : license) : result pystr := write_value tag (lic_str O l).
Definition write_opt_license (tag : pystr) (l : option license) : result pystr :=
  write_opt tag (option_map (lic_str O) l).

(** file_writer.py:19-44 *)
Definition write_file (f : file) : result pystr :=
  writes [ Ok ($"## File Information" ++ [LF]);
           write_value $"FileName" (fi_name f);
           write_value $"SPDXID" (fi_id f);
           write_each (fun t => write_value $"FileType" (file_type_name t)) (fi_types f);
           write_each (write_checksum $"FileChecksum") (fi_checksums f);
           write_opt_license $"LicenseConcluded" (fi_concluded f);
           write_each (write_license $"LicenseInfoInFile") (fi_info f);
           write_opt_text $"LicenseComments" (fi_lic_comment f);
           write_text_value $"FileCopyrightText" (fi_copyright f);
           write_opt_text $"FileComment" (fi_comment f);
           write_opt_text $"FileNotice" (fi_notice f);
           write_each (write_value $"FileContributor") (sorted (fi_contributors f));
           write_each (write_text $"FileAttributionText") (fi_attribution f) ].

(** package_writer.py:86-91 *)
Definition get_package_verification_code_string (v : verif_code) : pystr :=
  match vc_excluded v with
  | [] => vc_value v
  | ex => vc_value v ++ $" (excludes: " ++ join $" " ex ++ $")"
  end.

(** package_writer.py:58-68 *)
Definition write_external_ref (r : ext_pkg_ref) : result pystr :=
  writes [ write_value $"ExternalRef"
             (join $" " [transform_enum_name_to_tv (ref_category_name (er_category r)); er_type r; er_locator r]);
           if truthy_opt (er_comment r) then write_opt_text $"ExternalRefComment" (er_comment r) else Ok [] ].

(** package_writer.py:25-83 *)
Definition write_package (p : package) : result pystr :=
  writes [ Ok ($"## Package Information" ++ [LF]);
           write_value $"PackageName" (pk_name p);
           write_value $"SPDXID" (pk_id p);
           write_opt $"PackageVersion" (pk_version p);
           write_opt $"PackageFileName" (pk_file_name p);
           write_actor $"PackageSupplier" (pk_supplier p);
           write_actor $"PackageOriginator" (pk_originator p);
           write_value $"PackageDownloadLocation" (text_str (pk_download p));
           write_value $"FilesAnalyzed" (if pk_files_analyzed p then $"true" else $"false");
           write_opt $"PackageVerificationCode" (option_map get_package_verification_code_string (pk_verif p));
           write_each (write_checksum $"PackageChecksum") (pk_checksums p);
           write_opt $"PackageHomePage" (option_map text_str (pk_homepage p));
           write_opt_text $"PackageSourceInfo" (pk_source_info p);
           write_opt_license $"PackageLicenseConcluded" (pk_concluded p);
           write_each (write_license $"PackageLicenseInfoFromFiles") (pk_info p);
           write_opt_license $"PackageLicenseDeclared" (pk_declared p);
           write_opt_text $"PackageLicenseComments" (pk_lic_comment p);
           write_text_value $"PackageCopyrightText" (pk_copyright p);
           write_opt_text $"PackageSummary" (pk_summary p);
           write_opt_text $"PackageDescription" (pk_description p);
           write_opt_text $"PackageComment" (pk_comment p);
           write_each write_external_ref (pk_refs p);
           write_each (write_text $"PackageAttributionText") (pk_attribution p);
           write_opt $"PrimaryPackagePurpose"
             (option_map (fun x => transform_enum_name_to_tv (purpose_name x)) (pk_purpose p));
           write_opt_date $"ReleaseDate" (pk_release p);
           write_opt_date $"BuiltDate" (pk_built p);
           write_opt_date $"ValidUntilDate" (pk_valid_until p) ].

(** snippet_writer.py:18-36 *)
Definition write_snippet (s : snippet) : result pystr :=
  writes [ Ok ($"## Snippet Information" ++ [LF]);
           write_value $"SnippetSPDXID" (sn_id s);
           write_value $"SnippetFromFileSPDXID" (sn_file s);
           write_range $"SnippetByteRange" (Some (sn_bytes s));
           write_range $"SnippetLineRange" (sn_lines s);
           write_opt_license $"SnippetLicenseConcluded" (sn_concluded s);
           write_each (write_license $"LicenseInfoInSnippet") (sn_info s);
           write_opt_text $"SnippetLicenseComments" (sn_lic_comment s);
           write_text_value $"SnippetCopyrightText" (sn_copyright s);
           write_opt_text $"SnippetComment" (sn_comment s);
           write_opt $"SnippetName" (sn_name s);
           write_each (write_text $"SnippetAttributionText") (sn_attribution s) ].

(** ** tagvalue_writer.py *)

(** lines 61-66 and 75-84: a file followed by its snippets *)
Definition write_file_with_snippets (by_file : list (pystr * list snippet)) (f : file) : result pystr :=
  writes [ write_file f; write_separator;
           match assoc (fi_id f) by_file with
           | Some l => write_list_of_elements l write_snippet true
           | None => Ok []
           end ].

(** lines 73-85: the files of one package; [written] is already_written_file_ids *)
Fixpoint write_package_files (by_file : list (pystr * list snippet)) (package_id : pystr) (files : list file)
         (written : list pystr) (to_write : list relationship) (out : pystr)
  : result (pystr * list pystr * list relationship) :=
  match files with
  | [] => Ok (out, written, to_write)
  | f :: l =>
      if str_in (fi_id f) written
      then write_package_files by_file package_id l written
             (to_write ++ [{| re_id := package_id; re_type := RT_CONTAINS; re_related := NVal (fi_id f);
                              re_comment := None |}]) out
      else do t <- write_file_with_snippets by_file f;
           write_package_files by_file package_id l (written ++ [fi_id f]) to_write (out ++ t)
  end.

(** lines 68-85: the packages *)
Fixpoint write_packages (by_file : list (pystr * list snippet)) (contained : list (pystr * list file))
         (packages : list package) (written : list pystr) (to_write : list relationship) (out : pystr)
  : result (pystr * list relationship) :=
  match packages with
  | [] => Ok (out, to_write)
  | p :: l =>
      do t <- writes [write_package p; write_separator];
      do (out', written', to_write') <-
        write_package_files by_file (pk_id p)
          (match assoc (pk_id p) contained with Some fs => fs | None => [] end) written to_write (out ++ t);
      write_packages by_file contained l written' to_write' out'
  end.

(** tagvalue_writer.py:39-102  write_document *)
Definition write_document (d : document) : result pystr :=
  let '(to_write, contained) := scan_relationships (do_relationships d) (map pk_id (do_packages d)) (do_files d) [] [] in
  let by_file := get_file_ids_with_contained_snippets (do_snippets d) (map fi_id (do_files d)) [] in
  let packaged_file_ids := List.concat (map (fun kv => map fi_id (snd kv)) contained) in
  let filed_snippet_ids := List.concat (map (fun kv => map sn_id (snd kv)) by_file) in
  do head <- writes [ Ok ($"## Document Information" ++ [LF]); write_creation_info (do_ci d); write_separator ];
  do snippets <- write_each (fun s => if str_in (sn_id s) filed_snippet_ids then Ok []
                                      else writes [write_snippet s; write_separator]) (do_snippets d);
  do files <- write_each (fun f => if str_in (fi_id f) packaged_file_ids then Ok []
                                   else write_file_with_snippets by_file f) (do_files d);
  do (packages, to_write) <- write_packages by_file contained (do_packages d) [] to_write [];
  do rest <- writes [ write_optional_heading (do_extracted d) ($"## License Information" ++ [LF]);
                      write_list_of_elements (do_extracted d) write_extracted_licensing_info true;
                      write_optional_heading to_write ($"## Relationships" ++ [LF]);
                      write_list_of_elements to_write write_relationship false;
                      write_separator;
                      write_optional_heading (do_annotations d) ($"## Annotations" ++ [LF]);
                      write_list_of_elements (do_annotations d) write_annotation true ];
  Ok (head ++ snippets ++ files ++ packages ++ rest).

End WithOracles.
