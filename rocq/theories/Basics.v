(** Small conversions: versions, actors, timestamps, casing, file formats. *)
From Verif Require Import Py PyRe Data.

(** ** spdx/model/version.py *)

(** version.py:11  VERSION_REGEX = ^(\d+)\.(\d+)$ *)
Definition version_re : prx :=
  pcats [PGroup 1 (pplus is_digit); PSet (N.eqb #"."); PGroup 2 (pplus is_digit); PEnd].

(** version.py:23-28  Version.from_string *)
Definition version_from_string (value : pystr) : result version :=
  match re_match version_re value with
  | None => Raise (EValue (value ++ $" is not a valid version string"))
  | Some g =>
      match group 1 g, group 2 g with
      | Some a, Some b =>
          match dec_val a, dec_val b with
          | Some x, Some y => Ok {| v_major := x; v_minor := y |}
          | _, _ => Raise (EValue ($"invalid literal for int()"))
          end
      | _, _ => Raise (EType ($"int() argument must be a string"))
      end
  end.

(** version.py:34-35  Version.__str__.  Simplification: components are non-negative. *)
Definition version_str (v : version) : pystr := str_of_N (v_major v) ++ $"." ++ str_of_N (v_minor v).

(** ** spdx/model/actor.py *)

(** actor.py:27-32  Actor.to_serialized_string *)
Definition actor_str (a : actor) : pystr :=
  title (actor_type_name (ac_type a)) ++ $":" ++ $" " ++ ac_name a
  ++ match ac_email a with
     | Some [] => []
     | Some e => $" (" ++ e ++ $")"
     | None => []
     end.

(** ** spdx/parser/actor_parser.py *)

(** actor_parser.py:16  ^Tool:\s*(.+) *)
Definition tool_re : prx := pcats [plit $"Tool:"; PStar is_space; PGroup 1 (pplus (fun c => negb (N.eqb c LF)))].
(** actor_parser.py:17-18  ^Person:\s*(?:( .* )\(( .* )\)|( .* ))$ (blanks added) and the same with Organization *)
Definition any_char (c : char) : bool := negb (N.eqb c LF).
Definition person_or_org_re (prefix : pystr) : prx :=
  pcats [plit prefix; PStar is_space;
         PAlt (pcats [PGroup 1 (PStar any_char); PSet (N.eqb #"("); PGroup 2 (PStar any_char); PSet (N.eqb #")")])
              (PGroup 3 (PStar any_char));
         PEnd].
Definition person_re : prx := person_or_org_re $"Person:".
Definition org_re : prx := person_or_org_re $"Organization:".

(** actor_parser.py:38-53  the part common to persons and organizations *)
Definition actor_of_match (actor_s : pystr) (t : actor_type) (g : groups) : result actor :=
  if truthy_opt (group 3 g) then
    Ok {| ac_type := t; ac_name := strip (match group 3 g with Some x => x | None => [] end); ac_email := None |}
  else
    match group 1 g with
    | None | Some [] => Raise (EParsing [$"No name for Actor provided: " ++ actor_s ++ $"."])
    | Some name =>
        match group 2 g with
        | None => Raise (EAttr $"'NoneType' object has no attribute 'strip'")
        | Some e => Ok {| ac_type := t; ac_name := strip name;
                          ac_email := match strip e with [] => None | e' => Some e' end |}
        end
    end.

(** actor_parser.py:15-53  ActorParser.parse_actor *)
Definition parse_actor (s : pystr) : result actor :=
  match re_match tool_re s with
  | Some g =>
      match strip (match group 1 g with Some x => x | None => [] end) with
      | [] => Raise (EParsing [$"No name for Tool provided: " ++ s ++ $"."])
      | name => Ok {| ac_type := AT_TOOL; ac_name := name; ac_email := None |}
      end
  | None =>
      match re_match person_re s with
      | Some g => actor_of_match s AT_PERSON g
      | None =>
          match re_match org_re s with
          | Some g => actor_of_match s AT_ORGANIZATION g
          | None => Raise (EParsing [$"Actor " ++ s ++ $" doesn't match any of person, organization or tool."])
          end
      end
  end.

(** ** Calendar arithmetic of Python's datetime module (proleptic Gregorian calendar) *)
Open Scope Z_scope.

Definition is_leap (y : Z) : bool := ((y mod 4 =? 0) && (negb (y mod 100 =? 0) || (y mod 400 =? 0))).
Definition days_in_month (y m : Z) : Z :=
  match m with
  | 1 => 31 | 2 => if is_leap y then 29 else 28 | 3 => 31 | 4 => 30 | 5 => 31 | 6 => 30 | 7 => 31 | 8 => 31
  | 9 => 30 | 10 => 31 | 11 => 30 | 12 => 31 | _ => 0
  end.
Definition days_before_month (y m : Z) : Z :=
  (match m with
   | 1 => 0 | 2 => 31 | 3 => 59 | 4 => 90 | 5 => 120 | 6 => 151 | 7 => 181 | 8 => 212 | 9 => 243 | 10 => 273
   | 11 => 304 | 12 => 334 | _ => 0 end)
  + (if (2 <? m) && is_leap y then 1 else 0).
Definition days_before_year (y : Z) : Z := let p := y - 1 in p * 365 + p / 4 - p / 100 + p / 400.
(** date.toordinal: 1 for 0001-01-01 *)
Definition ymd2ord (y m d : Z) : Z := days_before_year y + days_before_month y m + d.
(** datetime._ord2ymd *)
Definition ord2ymd (n : Z) : Z * Z * Z :=
  let n := n - 1 in
  let n400 := n / 146097 in
  let n := n mod 146097 in
  let year := n400 * 400 + 1 in
  let n100 := n / 36524 in
  let n := n mod 36524 in
  let n4 := n / 1461 in
  let n := n mod 1461 in
  let n1 := n / 365 in
  let n := n mod 365 in
  let year := year + n100 * 100 + n4 * 4 + n1 in
  if (n1 =? 4) || (n100 =? 4) then (year - 1, 12, 31)
  else
    let leap := (n1 =? 3) && (negb (n4 =? 24) || (n100 =? 3)) in
    let month := (n + 50) / 32 in
    let preceding := days_before_month (if leap then 4 else 1) month in
    if n <? preceding then
      let month := month - 1 in
      (year, month, n - days_before_month (if leap then 4 else 1) month + 1)
    else (year, month, n - preceding + 1).

Definition US_PER_SEC : Z := 1000000.
Definition US_PER_DAY : Z := 86400000000.

(** Microseconds since 0001-01-01T00:00:00 of the calendar fields (ignoring the offset). *)
Definition local_us (d : datetime) : Z :=
  (ymd2ord (dt_year d) (dt_month d) (dt_day d) - 1) * US_PER_DAY
  + ((dt_hour d * 60 + dt_min d) * 60 + dt_sec d) * US_PER_SEC + dt_us d.

(** The naive datetime at a number of microseconds; OverflowError outside the years 1 to 9999. *)
Definition of_local_us (t : Z) : result datetime :=
  let day := t / US_PER_DAY in
  let us := t mod US_PER_DAY in
  if (0 <=? day) && (day <? 3652059) then
    let '(y, m, d) := ord2ymd (day + 1) in
    let sec := us / US_PER_SEC in
    Ok {| dt_year := y; dt_month := m; dt_day := d; dt_hour := sec / 3600; dt_min := (sec / 60) mod 60;
          dt_sec := sec mod 60; dt_us := us mod US_PER_SEC; dt_off := None |}
  else Raise (EOverflow $"date value out of range").

(** [str(n).zfill(k)] for non-negative n: the "%0kd" format *)
Definition pad (k : nat) (z : Z) : pystr :=
  let s := str_of_N (Z.abs_N z) in repeat #"0" (k - List.length s)%nat ++ s.

(** datetime.isoformat for a naive datetime without microseconds *)
Definition isoformat (d : datetime) : pystr :=
  pad 4 (dt_year d) ++ $"-" ++ pad 2 (dt_month d) ++ $"-" ++ pad 2 (dt_day d) ++ $"T"
  ++ pad 2 (dt_hour d) ++ $":" ++ pad 2 (dt_min d) ++ $":" ++ pad 2 (dt_sec d).

(** ** spdx/datetime_conversions.py *)

(** datetime_conversions.py:15-26  datetime_to_iso_string *)
Definition datetime_to_iso_string (d : datetime) : result pystr :=
  do d <- match dt_off d with
          | None => Ok d
          | Some off => of_local_us (local_us d - off)
          end;
  Ok (isoformat d ++ $"Z").

(** A character class in a case-insensitive pattern: the literal letter in both cases. *)
Definition pci (c : char) : prx := PSet (fun x => N.eqb (upc x) c).
Definition range_c (a b : char) (c : char) : bool := ((a <=? c) && (c <=? b))%N.
Definition pd : prx := PSet is_digit.
(** The pattern that _strptime builds for "%Y-%m-%dT%H:%M:%SZ" *)
Definition strptime_re : prx :=
  let r a b := PSet (range_c a b) in
  pcats
    [PGroup 1 (pcats [pd; pd; pd; pd]); plit $"-";
     PGroup 2 (palts [PCat (plit $"1") (r #"0" #"2"); PCat (plit $"0") (r #"1" #"9"); r #"1" #"9"]); plit $"-";
     PGroup 3 (palts [PCat (plit $"3") (r #"0" #"1"); PCat (r #"1" #"2") pd; PCat (plit $"0") (r #"1" #"9");
                      r #"1" #"9"; PCat (plit $" ") (r #"1" #"9")]); pci #"T";
     PGroup 4 (palts [PCat (plit $"2") (r #"0" #"3"); PCat (r #"0" #"1") pd; pd]); plit $":";
     PGroup 5 (palts [PCat (r #"0" #"5") pd; pd]); plit $":";
     PGroup 6 (palts [PCat (plit $"6") (r #"0" #"1"); PCat (r #"0" #"5") pd; pd]); pci #"Z"].

(** [int(group)]; int() ignores surrounding blanks (the day may be " 1"). *)
Definition group_int (n : nat) (g : groups) : option Z :=
  match group n g with
  | Some s => match dec_val (strip s) with Some v => Some (Z.of_N v) | None => None end
  | None => None
  end.

(** datetime.strptime(date_str, "%Y-%m-%dT%H:%M:%SZ"): pattern match, no unconverted data, valid fields. *)
Definition strptime (s : pystr) : result datetime :=
  match re_match_rest strptime_re s with
  | Some ([], g) =>
      match group_int 1 g, group_int 2 g, group_int 3 g, group_int 4 g, group_int 5 g, group_int 6 g with
      | Some y, Some m, Some d, Some h, Some mi, Some sec =>
          if (1 <=? y) && (d <=? days_in_month y m) && (sec <=? 59) then
            Ok {| dt_year := y; dt_month := m; dt_day := d; dt_hour := h; dt_min := mi; dt_sec := sec;
                  dt_us := 0; dt_off := None |}
          else Raise (EValue $"day, year or second out of range")
      | _, _, _, _, _, _ => Raise (EValue $"invalid literal for int()")
      end
  | Some (_, _) => Raise (EValue $"unconverted data remains")
  | None => Raise (EValue ($"time data " ++ s ++ $" does not match format"))
  end.

(** datetime_conversions.py:7-12  datetime_from_str on a str argument (other types are handled by callers). *)
Definition datetime_from_str (s : pystr) : result datetime := strptime s.

Close Scope Z_scope.

(** ** spdx/casing_tools.py *)

(** sub(r"[_\-]+", " ", s): every maximal run of '_' and '-' becomes one blank *)
Definition is_sep (c : char) : bool := N.eqb c #"_" || N.eqb c #"-".
Fixpoint sub_seps (in_run : bool) (s : pystr) : pystr :=
  match s with
  | [] => []
  | c :: s' => if is_sep c then (if in_run then sub_seps true s' else #" " :: sub_seps true s')
               else c :: sub_seps false s'
  end.

(** casing_tools.py:7-9  snake_case_to_camel_case.  On an input without any word the code raises IndexError
    ([each_word_capitalized[0]]); the model then returns the empty string.  All callers pass non-empty names. *)
Definition snake_to_camel (s : pystr) : pystr :=
  match filter (fun c => negb (N.eqb c #" ")) (title (sub_seps false s)) with
  | [] => []
  | c :: r => loc c :: r
  end.

(** sub("(?!^)([A-Z]+)", r"_\1", s): an underscore before every run of capitals that does not start at 0 *)
Fixpoint sub_caps (in_run : bool) (s : pystr) : pystr :=
  match s with
  | [] => []
  | c :: s' => if is_upper c then (if in_run then c :: sub_caps true s' else #"_" :: c :: sub_caps true s')
               else c :: sub_caps false s'
  end.

(** casing_tools.py:12-14  camel_case_to_snake_case *)
Definition camel_to_snake (s : pystr) : pystr :=
  match s with
  | [] => []
  | c :: s' => lower (c :: sub_caps false s')
  end.

(** ** spdx/formats.py *)

(** formats.py:9-14  FileFormat *)
Inductive file_format := F_JSON | F_YAML | F_XML | F_TAG_VALUE | F_RDF_XML.

(** formats.py:17-29  file_name_to_format *)
Definition file_name_to_format (f : pystr) : result file_format :=
  if endswith $".rdf" f || endswith $".rdf.xml" f then Ok F_RDF_XML
  else if endswith $".tag" f || endswith $".spdx" f then Ok F_TAG_VALUE
  else if endswith $".json" f then Ok F_JSON
  else if endswith $".xml" f then Ok F_XML
  else if endswith $".yaml" f || endswith $".yml" f then Ok F_YAML
  else Raise (EParsing [$"Unsupported SPDX file type: " ++ f]).
