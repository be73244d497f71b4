(** Specifications for the small conversions. *)
From Verif Require Import Py Data Basics ValidationSpec.

(** ** Versions *)
(** s is a decimal numeral (Unicode decimal digits allowed) with value n. *)
Inductive DecimalOf : pystr -> N -> Prop :=
| Dec_one : forall c d, digit_val c = Some d -> DecimalOf [c] d
| Dec_snoc : forall s n c d, DecimalOf s n -> digit_val c = Some d -> DecimalOf (s ++ [c]) (10 * n + d)%N.
Definition VersionText (v : version) (s : pystr) : Prop :=
  exists a b, s = a ++ $"." ++ b /\ DecimalOf a (v_major v) /\ DecimalOf b (v_minor v).

(** ** Actors *)
Definition Trimmed (s : pystr) : Prop :=
  (forall c t, s = c :: t -> is_space c = false) /\ (forall c t, s = t ++ [c] -> is_space c = false).
(** The actors whose textual form reads back as the same actor *)
Definition ReadableActor (a : actor) : Prop :=
  ac_name a <> [] /\ Trimmed (ac_name a) /\ ~ In LF (ac_name a)
  /\ match ac_type a, ac_email a with
     | AT_TOOL, e => e = None
     | _, None => ~ exists x y, ac_name a = x ++ $"(" ++ y ++ $")"
     | _, Some e => e <> [] /\ Trimmed e /\ ~ In LF e /\ ~ In #"(" e
     end.

(** ** Timestamps *)
Open Scope Z_scope.
Definition leap (y : Z) : Prop := (4 | y) /\ (~ (100 | y) \/ (400 | y)).
Definition month_days (y m : Z) : Z -> Prop := fun n =>
  (In m [1; 3; 5; 7; 8; 10; 12] /\ n = 31) \/ (In m [4; 6; 9; 11] /\ n = 30)
  \/ (m = 2 /\ leap y /\ n = 29) \/ (m = 2 /\ ~ leap y /\ n = 28).
(** the fields of a datetime object are in range *)
Record ValidDatetime (d : datetime) : Prop := {
  vd_year : 1 <= dt_year d <= 9999;
  vd_month : 1 <= dt_month d <= 12;
  vd_day : exists n, month_days (dt_year d) (dt_month d) n /\ 1 <= dt_day d <= n;
  vd_hour : 0 <= dt_hour d <= 23;
  vd_min : 0 <= dt_min d <= 59;
  vd_sec : 0 <= dt_sec d <= 59;
  vd_us : 0 <= dt_us d <= 999999
}.
(** The calendar, day by day: the date after a date, and the number of a date counted from 0001-01-01. *)
Definition date : Type := Z * Z * Z.
Inductive Tomorrow : date -> date -> Prop :=
| T_day : forall y m d n, month_days y m n -> d < n -> Tomorrow (y, m, d) (y, m, d + 1)
| T_month : forall y m d, month_days y m d -> m < 12 -> Tomorrow (y, m, d) (y, m + 1, 1)
| T_year : forall y, Tomorrow (y, 12, 31) (y + 1, 1, 1).
Inductive DayNumber : date -> Z -> Prop :=
| DN_first : DayNumber (1, 1, 1) 0
| DN_next : forall a b n, DayNumber a n -> Tomorrow a b -> DayNumber b (n + 1).
(** the instant a datetime object denotes, in microseconds after 0001-01-01T00:00:00 UTC (naive ones are read as UTC) *)
Definition Instant (d : datetime) (t : Z) : Prop :=
  exists n, DayNumber (dt_year d, dt_month d, dt_day d) n
    /\ t = n * 86400000000 + dt_hour d * 3600000000 + dt_min d * 60000000 + dt_sec d * 1000000 + dt_us d
           - match dt_off d with Some off => off | None => 0 end.
(** 10000-01-01T00:00:00 *)
Definition END_OF_TIME : Z := 3652059 * 86400000000.

(** ** Names *)
Close Scope Z_scope.
(** a word: letters followed by digits, at least one letter *)
Definition Word (w : pystr) : Prop :=
  exists a b, w = a ++ b /\ a <> [] /\ Forall Letter a /\ Forall Digit b.
(** a snake-case name: words separated by single underscores; no one-letter word between two others *)
Definition SnakeName (s : pystr) : Prop :=
  exists ws, s = join $"_" ws /\ ws <> [] /\ Forall Word ws
    /\ forall u v w x y, ws = u :: x ++ v :: w :: y -> 2 <= List.length v.
(** ASCII lower case *)
Definition LowerCased (s t : pystr) : Prop :=
  Forall2 (fun c d => (65 <= c <= 90 /\ d = c + 32)%N \/ (~ (65 <= c <= 90)%N /\ d = c)) s t.

(** ** File names *)
(** the recognised suffixes and their formats *)
Definition suffixes : list (pystr * file_format) :=
  [($".rdf", F_RDF_XML); ($".rdf.xml", F_RDF_XML); ($".tag", F_TAG_VALUE); ($".spdx", F_TAG_VALUE); ($".json", F_JSON);
   ($".xml", F_XML); ($".yaml", F_YAML); ($".yml", F_YAML)].
(** f ends with a recognised suffix of that format; ".rdf.xml" takes precedence over ".xml" *)
Definition HasFormat (f : pystr) (x : file_format) : Prop :=
  (exists p suf, f = p ++ suf /\ In (suf, x) suffixes) /\ ~ (x = F_XML /\ exists p, f = p ++ $".rdf.xml").
