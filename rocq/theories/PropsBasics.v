(** Property theorems: versions (C09), timestamps (C10), actors (C11), casing (C19), file formats (C27). *)
From Verif Require Import Py Data Basics ValidationSpec BasicsSpec Samples.
From Verif Require BasicsFacts ActorFacts DateFacts StampFacts CasingFacts.

(** ** C09 *)
Theorem C09_version_round_trip : forall v : version, version_from_string (version_str v) = Ok v.
Proof. exact BasicsFacts.version_round_trip. Qed.
Print Assumptions C09_version_round_trip.
(** A string is accepted exactly when it is two decimal numerals around a dot (one final line feed is tolerated),
    and the result is the pair of numbers it denotes. *)
Theorem C09_version_accepted :
  forall (s : pystr) (v : version), version_from_string s = Ok v <-> modulo_final_LF (VersionText v) s.
Proof. exact BasicsFacts.version_from_string_spec. Qed.
Print Assumptions C09_version_accepted.
Theorem C09_version_rejected :
  forall s : pystr, (~ exists v, modulo_final_LF (VersionText v) s) ->
    version_from_string s = Raise (EValue (s ++ $" is not a valid version string")).
Proof. exact BasicsFacts.version_rejects. Qed.
Print Assumptions C09_version_rejected.
Example C09_sample : version_from_string $"3.19" = Ok {| v_major := 3; v_minor := 19 |} /\ is_ok (version_from_string $"3.") = false
  /\ is_ok (version_from_string $"3.19.1") = false.
Proof. split; [|split]; reflexivity. Qed.

(** ** C10 *)
(** Naive timestamps (read as UTC) come back without their microseconds. *)
Theorem C10_naive_round_trip :
  forall d : datetime, ValidDatetime d -> dt_off d = None ->
  exists s, datetime_to_iso_string d = Ok s
    /\ datetime_from_str s = Ok {| dt_year := dt_year d; dt_month := dt_month d; dt_day := dt_day d; dt_hour := dt_hour d;
                                   dt_min := dt_min d; dt_sec := dt_sec d; dt_us := 0; dt_off := None |}.
Proof. exact StampFacts.stamp_naive. Qed.
Print Assumptions C10_naive_round_trip.
(** Any timestamp comes back as the same instant, cut to whole seconds, as long as that instant lies in the years 1 to 9999. *)
Theorem C10_instant_round_trip :
  forall (d : datetime) (t : Z), ValidDatetime d -> Instant d t -> (0 <= t < END_OF_TIME)%Z ->
  exists s d', datetime_to_iso_string d = Ok s /\ datetime_from_str s = Ok d'
    /\ ValidDatetime d' /\ dt_off d' = None /\ Instant d' (t / 1000000 * 1000000)%Z.
Proof. exact StampFacts.stamp_instant. Qed.
Print Assumptions C10_instant_round_trip.
(** Otherwise the conversion to UTC overflows. *)
Theorem C10_overflow :
  forall (d : datetime) (t : Z), ValidDatetime d -> Instant d t -> ~ (0 <= t < END_OF_TIME)%Z ->
    datetime_to_iso_string d = Raise (EOverflow $"date value out of range").
Proof. exact StampFacts.stamp_overflow. Qed.
Print Assumptions C10_overflow.
(** Different seconds never have the same text. *)
Theorem C10_injective :
  forall (d1 d2 : datetime) (t1 t2 : Z) (s : pystr), ValidDatetime d1 -> ValidDatetime d2 -> Instant d1 t1 -> Instant d2 t2 ->
    datetime_to_iso_string d1 = Ok s -> datetime_to_iso_string d2 = Ok s -> (t1 / 1000000 = t2 / 1000000)%Z.
Proof. exact StampFacts.stamp_injective. Qed.
Print Assumptions C10_injective.
(** Every valid timestamp denotes exactly one instant. *)
Theorem C10_instant_defined :
  forall d : datetime, ValidDatetime d -> (exists t, Instant d t) /\ forall t t', Instant d t -> Instant d t' -> t = t'.
Proof. intros d V. split; [apply StampFacts.Instant_total; exact V|]. intros t t'. exact (StampFacts.Instant_fun d t t' V). Qed.
Print Assumptions C10_instant_defined.
Definition C10_leap_day : datetime :=
  {| dt_year := 2024; dt_month := 2; dt_day := 29; dt_hour := 23; dt_min := 30; dt_sec := 5; dt_us := 123456; dt_off := Some (-3600000000)%Z |}.
Example C10_sample : ValidDatetime C10_leap_day /\ datetime_to_iso_string C10_leap_day = Ok $"2024-03-01T00:30:05Z".
Proof.
  split; [|vm_compute; reflexivity]. apply DateFacts.ValidDatetime_iff. cbn. repeat split; lia.
Qed.

(** ** C11 *)
(** An actor survives serialisation and parsing exactly when its name and e-mail are readable: no surrounding blanks, no line
    feeds, not empty; a name without e-mail does not look like "x(y)", an e-mail contains no opening parenthesis, a tool has none. *)
Theorem C11_actor_round_trip : forall a : actor, parse_actor (actor_str a) = Ok a <-> ReadableActor a.
Proof. exact ActorFacts.actor_round_trip. Qed.
Print Assumptions C11_actor_round_trip.
(** Every parsed actor is readable but for one case. *)
Theorem C11_parsed_actors :
  forall (s : pystr) (a : actor), parse_actor s = Ok a ->
  ac_name a <> [] /\ Trimmed (ac_name a) /\ ~ In LF (ac_name a)
  /\ match ac_type a, ac_email a with
     | AT_TOOL, e => e = None
     | _, None => True
     | _, Some e => e <> [] /\ Trimmed e /\ ~ In LF e /\ ~ In #"(" e
     end.
Proof. exact ActorFacts.parse_actor_result. Qed.
Print Assumptions C11_parsed_actors.
(** The case: reading "Person: A (b) ()" gives a name that is read differently after writing it again. *)
Theorem C11_stable_after_parsing_refuted :
  exists s a b, parse_actor s = Ok a /\ parse_actor (actor_str a) = Ok b /\ a <> b.
Proof.
  exists $"Person: A (b) ()", {| ac_type := AT_PERSON; ac_name := $"A (b)"; ac_email := None |},
    {| ac_type := AT_PERSON; ac_name := $"A"; ac_email := Some $"b" |}.
  split; [vm_compute; reflexivity|]. split; [vm_compute; reflexivity|discriminate].
Qed.
Print Assumptions C11_stable_after_parsing_refuted.
(** Altered actors: parentheses, blanks, empty e-mail. *)
Theorem C11_all_actors_round_trip_refuted :
  exists a b c, parse_actor (actor_str a) <> Ok a /\ parse_actor (actor_str b) <> Ok b /\ parse_actor (actor_str c) <> Ok c
    /\ ac_name a = $"Jane (Acme)" /\ ac_name b = $" Jane" /\ ac_email c = Some [].
Proof.
  exists {| ac_type := AT_PERSON; ac_name := $"Jane (Acme)"; ac_email := None |},
    {| ac_type := AT_PERSON; ac_name := $" Jane"; ac_email := None |}, {| ac_type := AT_PERSON; ac_name := $"Jane"; ac_email := Some [] |}.
  repeat split; vm_compute; discriminate.
Qed.
Print Assumptions C11_all_actors_round_trip_refuted.
Example C11_sample : parse_actor $"Organization: Acme Inc. (info@acme.org)"
  = Ok {| ac_type := AT_ORGANIZATION; ac_name := $"Acme Inc."; ac_email := Some $"info@acme.org" |}.
Proof. vm_compute. reflexivity. Qed.

(** ** C19 *)
Theorem C19_camel_inverts_snake :
  forall s : pystr, SnakeName s -> LowerCased s (camel_to_snake (snake_to_camel s)).
Proof. intros s H. apply CasingFacts.lower_spec. apply CasingFacts.camel_snake. exact H. Qed.
Print Assumptions C19_camel_inverts_snake.
(** Hence snake-case names that differ in more than case never get the same camel-case name. *)
Theorem C19_camel_injective :
  forall s t u : pystr, SnakeName s -> SnakeName t -> snake_to_camel s = snake_to_camel t -> LowerCased s u -> LowerCased t u.
Proof. exact CasingFacts.camel_injective. Qed.
Print Assumptions C19_camel_injective.
(** The member names of the enumerations that are written in camel case are such names. *)
Theorem C19_enum_names :
  (forall x, SnakeName (rel_type_name x)) /\ (forall x, SnakeName (file_type_name x)) /\ (forall x, SnakeName (purpose_name x))
  /\ (forall x, SnakeName (ref_category_name x)) /\ (forall x, SnakeName (annotation_type_name x)).
Proof. exact CasingFacts.enum_names_snake. Qed.
Print Assumptions C19_enum_names.
(** Without the side condition on one-letter words the inversion fails. *)
Theorem C19_one_letter_words_refuted :
  exists s, Forall Word (split_on #"_" s) /\ camel_to_snake (snake_to_camel s) <> lower s.
Proof.
  exists $"a_b_c". split; [|vm_compute; discriminate].
  change (split_on #"_" $"a_b_c") with [$"a"; $"b"; $"c"].
  apply Forall_cons; [|apply Forall_cons; [|apply Forall_cons; [|apply Forall_nil]]]; apply CasingFacts.word_b_spec; reflexivity.
Qed.
Print Assumptions C19_one_letter_words_refuted.
Example C19_sample : snake_to_camel $"license_info_in_file" = $"licenseInfoInFile" /\ camel_to_snake $"licenseInfoInFile" = $"license_info_in_file".
Proof. split; reflexivity. Qed.

(** ** C27 *)
Theorem C27_format_of_file_name : forall (f : pystr) (x : file_format), file_name_to_format f = Ok x <-> HasFormat f x.
Proof. exact CasingFacts.format_spec. Qed.
Print Assumptions C27_format_of_file_name.
Theorem C27_other_names_rejected :
  forall f : pystr, (forall x, ~ HasFormat f x) <-> exists m, file_name_to_format f = Raise (EParsing m).
Proof. exact CasingFacts.format_rejects. Qed.
Print Assumptions C27_other_names_rejected.
Example C27_sample : file_name_to_format $"a.rdf.xml" = Ok F_RDF_XML /\ file_name_to_format $"a.b.xml" = Ok F_XML.
Proof. split; reflexivity. Qed.
