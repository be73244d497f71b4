(** Notions for stating what pyspdxtools3 does. *)
From Verif Require Import Py Data Oracles Basics Json DocUtils Validation Payload Bump Files Cli3.

(** one line for each package whose download location is NONE *)
Definition none_line : pystr := $"package.download_location: Missing conversion for SpdxNone." ++ [LF].
Definition none_lines (d : document) : pystr :=
  List.concat (map (fun p => match pk_download p with NNone => none_line | _ => [] end) (do_packages d)).

(** the input file contains the document, and it is valid for the version unless validation is off *)
Definition Accepted (E : environment3) (fs : files) (infile version : pystr) (nov : bool) (d : document) : Prop :=
  parse_any_file (e3_base E) fs infile = inl d
  /\ (nov = false -> validate_full_spdx_document (e_oracles (e3_base E)) d (Some version) = []).
