(** What a document read from a tag-value file needs in order to be saved and read again without change. *)
From Verif Require Import Py Data Oracles Basics BasicsSpec JsonSpec TvSpec ResaveSpec.

(** ** The texts of a document *)
Definition word_text (o : option (nn pystr)) : option pystr := match o with Some (NVal s) => Some s | _ => None end.
Definition copyright_texts (d : document) : list (option pystr) :=
  map (fun p => word_text (pk_copyright p)) (do_packages d) ++ map (fun f => word_text (fi_copyright f)) (do_files d)
  ++ map (fun s => word_text (sn_copyright s)) (do_snippets d).
(** download locations and home pages *)
Definition location_texts (d : document) : list (option pystr) :=
  flat_map (fun p => [word_text (Some (pk_download p)); word_text (pk_homepage p)]) (do_packages d).
(** free texts other than copyright texts *)
Definition free_texts (d : document) : list (option pystr) :=
  [ci_creator_comment (do_ci d); ci_doc_comment (do_ci d)]
  ++ flat_map (fun p => [pk_source_info p; pk_lic_comment p; pk_summary p; pk_description p; pk_comment p]
                        ++ map er_comment (pk_refs p) ++ map Some (pk_attribution p)) (do_packages d)
  ++ flat_map (fun f => [fi_lic_comment f; fi_comment f; fi_notice f] ++ map Some (fi_attribution f)) (do_files d)
  ++ flat_map (fun s => [sn_lic_comment s; sn_comment s] ++ map Some (sn_attribution s)) (do_snippets d)
  ++ map (fun a => Some (an_comment a)) (do_annotations d)
  ++ map re_comment (do_relationships d)
  ++ flat_map (fun e => [el_text e; el_comment e]) (do_extracted d).
Definition checksums_of (d : document) : list checksum :=
  flat_map pk_checksums (do_packages d) ++ flat_map fi_checksums (do_files d).

(** ** Conditions *)
(** no copyright text is one of the two reserved words *)
Definition CopyrightsPlain (d : document) : Prop :=
  forall s, In (Some s) (copyright_texts d) -> s <> $"NONE" /\ s <> $"NOASSERTION".
Record TvKept (O : oracles) (d : document) : Prop := {
  (** the license library reads what it prints; what it prints is a plain line *)
  kept_licenses : forall e, LicenseOf d e -> TvLicense O (NVal e);
  kept_actors : ActorsRead d;
  kept_copyrights : CopyrightsPlain d;
  (** a text of one line is a plain line, or one of the reserved words; texts of several lines need nothing *)
  kept_texts : forall s, In (Some s) (free_texts d) \/ In (Some s) (copyright_texts d) -> ~ In LF s ->
                 Line s \/ In s [$"NOASSERTION"; $"NONE"];
  kept_locations : forall s, In (Some s) (location_texts d) -> Line s;
  kept_uris : forall r, In r (ci_refs (do_ci d)) -> Unspaced (edr_uri r);
  kept_refs : forall p r, In p (do_packages d) -> In r (pk_refs p) ->
                Unspaced (er_type r) /\ Unspaced (er_locator r) /\ er_comment r <> Some [];
  kept_digests : forall c, In c (checksums_of d) -> ck_value c <> [];
  (** verification codes exclude at most one file *)
  kept_codes : forall p v, In p (do_packages d) -> pk_verif p = Some v ->
                 vc_excluded v = [] \/ exists c t, vc_excluded v = [c :: t] /\ is_space c = false }.
