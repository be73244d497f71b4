(** Files and the command line tool: spdx/writer/write_anything.py, the write_document_to_stream / write_document_to_file
    functions of the writers, spdx/parser/parse_anything.py, the parse_from_file functions of the parsers,
    spdx/clitools/pyspdxtools.py.

    The decoders and encoders of JSON, YAML, XML and RDF/XML, the RDF library, the file system, the license library and
    the drawing of graphs are outside the repository: theorems quantify over them ([environment]). *)
From Verif Require Import Py Data Oracles Basics Json JsonConv JsonParse Loading TvWriter TvLexer TvParser Graph.
From Verif Require Import Validation.
From Verif Require Rdf RdfWriter RdfParser.

(** Exceptions: those of the library, those that pyspdxtools names, and any other. *)
Inductive fault :=
| Library (e : exn)                 (* exceptions of the modelled code; EParsing is SPDXParsingError, EExit SystemExit *)
| JSONDecodeError (msg : pystr)
| ScannerError (msg : pystr)
| ExpatError (msg : pystr)
| SAXParseException (msg : pystr)
| NotImplementedError (msg : pystr)
| ImportError
| OtherError (msg : pystr).         (* e.g. PermissionError, UnicodeDecodeError *)

(** the texts of the files that exist *)
Definition files := pystr -> option pystr.
Definition put_file (name text : pystr) (fs : files) : files := fun n => if str_eqb n name then Some text else fs n.

(** What arrived in a stream, and the exception that ended the writing. *)
Definition written : Type := (pystr * option fault)%type.

Record environment := {
  e_oracles : oracles;
  (** open(name) for reading an existing file; open(name, "w") *)
  e_read_error : pystr -> option fault;
  e_write_error : pystr -> option fault;
  (** json.load without the hook, yaml.safe_load, xmltodict.parse, Graph.parse with format="xml" *)
  e_json_load : pystr -> json + fault;
  e_yaml_load : pystr -> json + fault;
  e_xml_parse : pystr -> json + fault;
  e_rdf_parse : pystr -> Rdf.graph + fault;
  (** json.dump, yaml.safe_dump, xmltodict.unparse, Graph.serialize with "pretty-xml" *)
  e_json_dump : json -> written;
  e_yaml_dump : json -> written;
  e_xml_unparse : json -> written;
  e_rdf_serialize : list Rdf.triple -> written;
  (** other functions of rdflib; the labels of the blank nodes that a writer makes *)
  e_rdf_library : Rdf.rdf_library;
  e_label : nat -> pystr;
  (** writing text to a stream; what a tag-value writer that raises has written before *)
  e_text : pystr -> written;
  e_partial : document -> pystr;
  (** networkx and pygraphviz are installed; drawing a graph to a file, with the text
      that the file has then if it was opened *)
  e_graphs : bool;
  e_draw : digraph -> option pystr -> option pystr * option fault }.

Section WithEnvironment.
Variable E : environment.
Local Notation O := (e_oracles E).

Definition lift {A} (r : result A) : A + fault := match r with Ok a => inl a | Raise e => inr (Library e) end.
Definition andthen {A B} (r : A + fault) (k : A -> B + fault) : B + fault := match r with inl a => k a | inr f => inr f end.

(** ** Reading *)
(** open(file_name, encoding=encoding) and reading it *)
Definition read_file (fs : files) (name : pystr) : pystr + fault :=
  match fs name with
  | None => inr (Library (EFileNotFound name))
  | Some text => match e_read_error E name with Some f => inr f | None => inl text end
  end.

(** the parse_from_file functions: json_parser.py:31-35, yaml_parser.py:11-15, xml_parser.py:39-48,
    tagvalue_parser.py:8-13, rdf_parser.py:25-31 *)
Definition parse_from_file (x : file_format) (fs : files) (name : pystr) : document + fault :=
  andthen (read_file fs name) (fun text =>
  match x with
  | F_JSON => andthen (e_json_load E text) (fun j => lift (parse_json O j))
  | F_YAML => andthen (e_yaml_load E text) (fun j => lift (parse_yaml O j))
  | F_XML => andthen (e_xml_parse E text) (fun j => lift (parse_xml O j))
  | F_TAG_VALUE => lift (tv_parse_from_file O text)
  | F_RDF_XML => andthen (e_rdf_parse E text) (fun g => lift (RdfParser.translate_graph_to_document O (e_rdf_library E) g))
  end).

(** parse_anything.py:23-41  parse_file with the encoding utf-8 *)
Definition parse_any_file (fs : files) (name : pystr) : document + fault :=
  match file_name_to_format name with
  | Raise e => inr (Library e)
  | Ok F_RDF_XML => parse_from_file F_RDF_XML fs name
  | Ok F_TAG_VALUE => parse_from_file F_TAG_VALUE fs name
  | Ok F_JSON => parse_from_file F_JSON fs name
  | Ok F_XML => parse_from_file F_XML fs name
  | Ok F_YAML => parse_from_file F_YAML fs name
  end.

(** ** Writing *)
(** the serialisation after validate_and_deduplicate: json_writer.py:26-27, yaml_writer.py:25-26, xml_writer.py:25-26,
    rdf_writer.py:24-53, tagvalue_writer.py:34 *)
Definition serialize (x : file_format) (d : document) : written :=
  match x with
  | F_JSON => match convert_document O d with Ok j => e_json_dump E j | Raise e => ([], Some (Library e)) end
  | F_YAML => match convert_document O d with Ok j => e_yaml_dump E j | Raise e => ([], Some (Library e)) end
  | F_XML => match convert_document O d with Ok j => e_xml_unparse E (JObj [($"Document", j)]) | Raise e => ([], Some (Library e)) end
  | F_RDF_XML =>
      match RdfWriter.write_graph O (e_label E) d with Ok ts => e_rdf_serialize E ts | Raise e => ([], Some (Library e)) end
  | F_TAG_VALUE => match write_document O d with Ok text => e_text E text | Raise e => (e_partial E d, Some (Library e)) end
  end.

(** the write_document_to_stream functions: json_writer.py:13-27, yaml_writer.py:12-26, xml_writer.py:12-26,
    rdf_writer.py:20-53, tagvalue_writer.py:32-34 *)
Definition write_document_to_stream (x : file_format) (d : document) (validate drop : bool) : written :=
  match validate_and_deduplicate O d validate drop with
  | Raise e => ([], Some (Library e))
  | Ok d' => serialize x d'
  end.

(** the write_document_to_file functions: json_writer.py:30-38, yaml_writer.py:29-37, xml_writer.py:29-37,
    rdf_writer.py:56-58, tagvalue_writer.py:37-39.  Opening a file for writing truncates it. *)
Definition write_document_to_file (x : file_format) (fs : files) (d : document) (name : pystr) (validate drop : bool) : files * option fault :=
  match e_write_error E name with
  | Some f => (fs, Some f)
  | None => let w := write_document_to_stream x d validate drop in (put_file name (fst w) fs, snd w)
  end.

(** write_anything.py:13-24  write_file *)
Definition write_any_file (fs : files) (d : document) (name : pystr) (validate : bool) : files * option fault :=
  match file_name_to_format name with
  | Raise e => (fs, Some (Library e))
  | Ok F_JSON => write_document_to_file F_JSON fs d name validate true
  | Ok F_YAML => write_document_to_file F_YAML fs d name validate true
  | Ok F_XML => write_document_to_file F_XML fs d name validate true
  | Ok F_TAG_VALUE => write_document_to_file F_TAG_VALUE fs d name validate true
  | Ok F_RDF_XML => write_document_to_file F_RDF_XML fs d name validate true
  end.

(** ** pyspdxtools *)
Inductive exit_status :=
| Exit (code : Z)
| Crash (f : fault).   (* an exception that main does not catch *)
Inductive log_entry :=
| LogInfo (msg : pystr) | LogError (msg : pystr).
(** the visible effects of a run *)
Record run := { r_exit : exit_status; r_log : list log_entry; r_stdout : pystr; r_files : files }.

(** pyspdxtools.py:102-138  the except clauses: what is logged before sys.exit(1).  They do not catch SystemExit: what
    has been logged before stays, and the exit status is 1 as well. *)
Definition caught (f : fault) : option pystr :=
  match f with
  | NotImplementedError m =>
      Some (m ++ [LF] ++ $"Please note that this project is currently undergoing a major refactoring and therefore missing "
            ++ $"a few features which will be added in time (refer to https://github.com/spdx/tools-python/issues "
            ++ $"for insights into the current status)." ++ [LF]
            ++ $"In the meantime, please use the current PyPI release version.")
  | Library (EParsing ms) => Some (join [LF] ($"There have been issues while parsing the provided document:" :: ms))
  | JSONDecodeError m => Some ($"Invalid JSON provided: " ++ m)
  | ScannerError m => Some ($"Invalid YAML provided: " ++ m)
  | ExpatError m => Some ($"Invalid XML provided: " ++ m)
  | SAXParseException m => Some ($"Invalid RDF-XML provided: " ++ m)
  | Library (EFileNotFound m) => Some ($"No such file or directory: " ++ m)
  | Library (EExit m) => Some m
  | _ => None
  end.
Definition fail (f : fault) (log : list log_entry) (out : pystr) (fs : files) : run :=
  match caught f with
  | Some m => {| r_exit := Exit 1; r_log := log ++ [LogError m]; r_stdout := out; r_files := fs |}
  | None => {| r_exit := Crash f; r_log := log; r_stdout := out; r_files := fs |}
  end.
Definition finish (f : option fault) (log : list log_entry) (out : pystr) (fs : files) : run :=
  match f with
  | Some f => fail f log out fs
  | None => {| r_exit := Exit 0; r_log := log; r_stdout := out; r_files := fs |}
  end.

(** pyspdxtools.py:86-100  the conversion *)
Definition convert_step (fs : files) (d : document) (outfile : option pystr) (graph : bool) (log : list log_entry) : run :=
  if (match outfile with Some o => str_eqb o $"-" | None => false end) then
    match write_document O d with
    | Ok text => let w := e_text E text in finish (snd w) log (fst w) fs
    | Raise e => fail (Library e) log (e_partial E d) fs
    end
  else if graph then
    if e_graphs E then
      let w := e_draw E (color_nodes (generate_relationship_graph_from_spdx d)) outfile in
      finish (snd w) log [] (match outfile, fst w with Some o, Some text => put_file o text fs | _, _ => fs end)
    else {| r_exit := Exit 1; r_log := log ++ [LogError ($"To be able to draw a relationship graph of the parsed document "
            ++ $"you need to install 'networkx' and 'pygraphviz'. Run 'pip install "".[graph_generation]""'.")]; r_stdout := []; r_files := fs |}
  else match outfile with
       | Some ((_ :: _) as o) => let w := write_any_file fs d o false in finish (snd w) log [] (fst w)
       | _ => {| r_exit := Exit 0; r_log := log; r_stdout := []; r_files := fs |}
       end.

(** pyspdxtools.py:58-138  main *)
Definition main (fs : files) (infile : pystr) (outfile version : option pystr) (novalidation graph : bool) : run :=
  match parse_any_file fs infile with
  | inr f => fail f [] [] fs
  | inl d =>
      if novalidation then convert_step fs d outfile graph []
      else
        let v := match version with Some ((_ :: _) as v) => v | _ => ci_version (do_ci d) end in
        if negb (str_in v [$"SPDX-2.2"; $"SPDX-2.3"]) then
          {| r_exit := Exit 1; r_log := [LogError ($"This tool only supports SPDX versions SPDX-2.2 and SPDX-2.3, but got: " ++ v)];
             r_stdout := []; r_files := fs |}
        else
          let ms := validate_full_spdx_document O d (Some v) in
          if truthy_list ms then
            {| r_exit := Exit 1;
               r_log := [LogError (join [LF] ($"The document is invalid. The following issues have been found:" :: map vm_text ms))];
               r_stdout := []; r_files := fs |}
          else convert_step fs d outfile graph [LogInfo $"The document is valid."]
  end.
End WithEnvironment.
