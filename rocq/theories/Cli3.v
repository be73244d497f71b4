(** The command line tool of SPDX 3: spdx3/clitools/pyspdxtools3.py, and spdx3/writer/json_ld/json_ld_writer.py. *)
From Verif Require Import Py Data Oracles Basics Json DocUtils Validation Payload Bump BumpLog Jsonld Console Files.

(** What is outside the repository, beside the [environment] of Files.v: the contents of the resource context.json (or
    the exception of loading it), json.dump with indent=2, str(datetime). *)
Record environment3 := {
  e3_base : environment;
  e3_context : json + fault;
  e3_dump : json -> written;
  e3_str_of_date : datetime -> pystr }.

Section WithEnvironment.
Variable E : environment3.
Local Notation O := (e_oracles (e3_base E)).

(** bump_utils.py:10-12: a download location NONE is reported on stdout, not on stderr; package.py:33, 42: after the id
    has been resolved.  What the conversion of the packages prints before it ends or raises. *)
Fixpoint printed_for (l : list package) (ns : pystr) (refs : list ext_doc_ref) (doc : nat) (st : bstate) : pystr :=
  match l with
  | [] => []
  | p :: l' =>
      match get_full_element_spdx_id (pk_id p) ns refs with
      | Raise _ => []
      | Ok _ =>
          (match pk_download p with
           | NNone => $"package.download_location: Missing conversion for SpdxNone." ++ [LF]
           | _ => []
           end)
          ++ match bump_package p ns refs doc st with Raise _ => [] | Ok st' => printed_for l' ns refs doc st' end
      end
  end.
(** spdx_document.py:21-43: the packages come after the creation info and the root elements; nothing else prints to stdout *)
Definition printed_by_conversion (d : document) : pystr :=
  let c := do_ci d in
  let ns := ci_namespace c in
  match bump_creation_info c {| b_objs := []; b_cis := []; b_map := [] |} with
  | Raise _ => []
  | Ok (st, doc) =>
      let st := update_document (set_root (map (fun r => ns ++ $"#" ++ nn_text (re_related r))
                                               (filter_by_type_and_origin (do_relationships d) RT_DESCRIBES DOCUMENT_SPDX_ID)))
                                doc st in
      printed_for (do_packages d) ns (ci_refs c) doc (add_element st doc)
  end.

(** json_ld_writer.py:13-25  write_payload; the file is opened after everything has been converted *)
Definition write_payload (fs : files) (st : bstate) (name : pystr) : files * option fault :=
  match convert_payload_to_json_ld st with
  | Raise e => (fs, Some (Library e))
  | Ok graph =>
      match e3_context E with
      | inr f => (fs, Some f)
      | inl context =>
          let name := name ++ $".jsonld" in
          match e_write_error (e3_base E) name with
          | Some f => (fs, Some f)
          | None => let w := e3_dump E (json_ld_file context graph) in (put_file name (fst w) fs, snd w)
          end
      end
  end.

(** the visible effects: the lines on stderr, what is printed to stdout, the files *)
Record run3 := { r3_exit : exit_status; r3_stderr : list pystr; r3_stdout : pystr; r3_files : files }.

(** pyspdxtools3.py:61-63  only NotImplementedError is caught; sys.exit(1) of a parser passes through *)
Definition end_with (f : fault) (err : list pystr) (out : pystr) (fs : files) : run3 :=
  match f with
  | NotImplementedError m => {| r3_exit := Exit 1; r3_stderr := err; r3_stdout := out ++ m ++ [LF]; r3_files := fs |}
  | Library (EExit _) => {| r3_exit := Exit 1; r3_stderr := err; r3_stdout := out; r3_files := fs |}
  | _ => {| r3_exit := Crash f; r3_stderr := err; r3_stdout := out; r3_files := fs |}
  end.

(** pyspdxtools3.py:54-59  the conversion *)
Definition convert3 (fs : files) (d : document) (outfile : option pystr) (err : list pystr) : run3 :=
  match outfile with
  | Some ((_ :: _) as o) =>
      let out := printed_by_conversion d in
      let err := err ++ conversion_log d in
      match bump_spdx_document d with
      | Raise e => end_with (Library e) err out fs
      | Ok (st, _) =>
          if str_eqb o $"-" then
            let w := match write_payload_to_console (e3_str_of_date E) st with
                     | (t, None) => e_text (e3_base E) t
                     | (t, Some e) => (t, Some (Library e))
                     end in
            match snd w with
            | Some f => end_with f err (out ++ fst w) fs
            | None => {| r3_exit := Exit 0; r3_stderr := err; r3_stdout := out ++ fst w; r3_files := fs |}
            end
          else
            match write_payload fs st o with
            | (fs', Some f) => end_with f err out fs'
            | (fs', None) => {| r3_exit := Exit 0; r3_stderr := err; r3_stdout := out; r3_files := fs' |}
            end
      end
  | _ => {| r3_exit := Exit 0; r3_stderr := err; r3_stdout := []; r3_files := fs |}
  end.

(** pyspdxtools3.py:36-63  main; [version] has the default "SPDX-2.3" *)
Definition main3 (fs : files) (infile : pystr) (outfile : option pystr) (version : pystr) (novalidation : bool) : run3 :=
  match parse_any_file (e3_base E) fs infile with
  | inr f => end_with f [] [] fs
  | inl d =>
      if novalidation then convert3 fs d outfile []
      else
        let ms := validate_full_spdx_document O d (Some version) in
        if truthy_list ms then
          {| r3_exit := Exit 1;
             r3_stderr := $"The document is invalid. The following issues have been found:" :: map vm_text ms;
             r3_stdout := []; r3_files := fs |}
        else convert3 fs d outfile [$"The document is valid."]
  end.
End WithEnvironment.
