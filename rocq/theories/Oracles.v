(** Calls into libraries that are not part of the repository.  Theorems quantify over all of them. *)
From Verif Require Import Py Data.

(** Objects whose representation occurs in messages: lists of relationships, of licenses and of texts, and verification codes *)
Inductive shown := Sh_Relationships (l : list relationship) | Sh_Licenses (l : list license) | Sh_Code (c : verif_code) | Sh_Texts (l : list pystr).

(** External libraries as seen by the validators and converters. *)
Record oracles := {
  (** spdx_licensing.validate(e).invalid_symbols *)
  o_invalid_symbols : lexpr -> list pystr;
  (** the ExpressionParseError of spdx_licensing.parse(str(e), validate=True, strict=True), if it raises one *)
  o_strict_parse_error : lexpr -> option pystr;
  (** str(e) *)
  o_lic_str : lexpr -> pystr;
  (** spdx_licensing.parse(s) *)
  o_lic_parse : pystr -> result lexpr;
  (** == on license expressions *)
  o_lic_eqb : lexpr -> lexpr -> bool;
  (** uritools.isabsuri(s) *)
  o_isabsuri : pystr -> bool;
  (** uritools.urisplit(s).scheme is not None *)
  o_has_scheme : pystr -> bool;
  (** uritools.isuri(s) *)
  o_isuri : pystr -> bool;
  (** str(x) for such objects: the __repr__ of dataclasses, license expressions and texts *)
  o_repr : shown -> pystr
}.

