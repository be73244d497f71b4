(** Specifications: what the command line tool decides. *)
From Verif Require Import Py Data Oracles Basics Files Validation.

(** the version that decides: the one given on the command line, else the one in the document *)
Definition Chosen (given : option pystr) (d : document) (v : pystr) : Prop :=
  (given = Some v /\ v <> []) \/ ((given = None \/ given = Some []) /\ v = ci_version (do_ci d)).
Definition Supported (v : pystr) : Prop := v = $"SPDX-2.2" \/ v = $"SPDX-2.3".
(** the input file holds a document that is valid for the version that decides *)
Definition ValidInput (E : environment) (fs : files) (infile : pystr) (given : option pystr) : Prop :=
  exists d v, parse_any_file E fs infile = inl d /\ Chosen given d v /\ Supported v
    /\ validate_full_spdx_document (e_oracles E) d (Some v) = [].
(** the message of a valid document was logged *)
Definition SaysValid (r : run) : Prop := In (LogInfo $"The document is valid.") (r_log r).

(** the exceptions that end a run with status 1 and this message; SystemExit is raised after its message was logged *)
Inductive Reported : fault -> pystr -> Prop :=
| Reported_not_implemented : forall m,
    Reported (NotImplementedError m)
      (m ++ [LF] ++ $"Please note that this project is currently undergoing a major refactoring and therefore missing a few features which will be added in time (refer to https://github.com/spdx/tools-python/issues for insights into the current status)."
         ++ [LF] ++ $"In the meantime, please use the current PyPI release version.")
| Reported_parsing : forall ms,
    Reported (Library (EParsing ms)) (join [LF] ($"There have been issues while parsing the provided document:" :: ms))
| Reported_json : forall m, Reported (JSONDecodeError m) ($"Invalid JSON provided: " ++ m)
| Reported_yaml : forall m, Reported (ScannerError m) ($"Invalid YAML provided: " ++ m)
| Reported_xml : forall m, Reported (ExpatError m) ($"Invalid XML provided: " ++ m)
| Reported_rdf : forall m, Reported (SAXParseException m) ($"Invalid RDF-XML provided: " ++ m)
| Reported_missing : forall name, Reported (Library (EFileNotFound name)) ($"No such file or directory: " ++ name)
| Reported_exit : forall m, Reported (Library (EExit m)) m.
