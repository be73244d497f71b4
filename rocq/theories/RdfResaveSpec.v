(** What a document read from RDF needs in order to be saved and read again without change. *)
From Verif Require Import Py Data Oracles Basics BasicsSpec JsonSpec ResaveSpec.
From Verif Require Rdf RdfSpec TvSpec.
From Verif Require Import TvResaveSpec.

(** ** The texts of a document *)
Definition name_text (o : option (na pystr)) : option pystr := match o with Some (AVal s) => Some s | _ => None end.
(** names, versions and paths: texts that are meant to be of one line *)
Definition line_texts (d : document) : list (option pystr) :=
  [Some (ci_version (do_ci d)); Some (ci_name (do_ci d)); Some (ci_namespace (do_ci d))]
  ++ flat_map (fun p => [Some (pk_name p); pk_version p; pk_file_name p]) (do_packages d)
  ++ flat_map (fun f => Some (fi_name f) :: map Some (fi_contributors f)) (do_files d)
  ++ map sn_name (do_snippets d)
  ++ flat_map (fun e => name_text (el_name e) :: map Some (el_xrefs e)) (do_extracted d).
(** texts that RDF gives as the only value of a property; the namespace of the document is no such text *)
Definition single_texts (d : document) : list (option pystr) :=
  [Some (ci_version (do_ci d)); Some (ci_name (do_ci d)); ci_creator_comment (do_ci d); ci_doc_comment (do_ci d)]
  ++ flat_map (fun r => [Some (edr_uri r); Some (ck_value (edr_checksum r))]) (ci_refs (do_ci d))
  ++ flat_map (fun p => [Some (pk_name p); word_text (Some (pk_download p)); pk_version p; pk_file_name p;
                         match pk_verif p with Some v => Some (vc_value v) | None => None end; word_text (pk_homepage p);
                         pk_source_info p; pk_lic_comment p; word_text (pk_copyright p); pk_summary p; pk_description p;
                         pk_comment p]
                        ++ map (fun c => Some (ck_value c)) (pk_checksums p)
                        ++ flat_map (fun r => [Some (er_locator r); er_comment r]) (pk_refs p)) (do_packages d)
  ++ flat_map (fun f => [Some (fi_name f); fi_lic_comment f; word_text (fi_copyright f); fi_comment f; fi_notice f]
                        ++ map (fun c => Some (ck_value c)) (fi_checksums f)) (do_files d)
  ++ flat_map (fun s => [sn_lic_comment s; word_text (sn_copyright s); sn_comment s; sn_name s]) (do_snippets d)
  ++ map (fun a => Some (an_comment a)) (do_annotations d)
  ++ map re_comment (do_relationships d)
  ++ flat_map (fun e => [el_text e; name_text (el_name e); el_comment e]) (do_extracted d).
(** the ids that a document gives and those that it refers to *)
Definition mentioned_ids (d : document) : list pystr :=
  RdfSpec.ids_in d ++ map sn_file (do_snippets d) ++ map an_id (do_annotations d)
  ++ flat_map (fun r => re_id r :: match re_related r with NVal i => [i] | _ => [] end) (do_relationships d).

(** ** Conditions *)
(** no copyright text is one of the two reserved words, no license is named NOASSERTION *)
Definition WordsPlain (d : document) : Prop :=
  CopyrightsPlain d /\ forall e, In e (do_extracted d) -> el_name e <> Some (AVal $"NOASSERTION").
(** The pattern for ids tolerates a line feed at the end, the others exclude it. *)
Definition IdsOfOneLine (d : document) : Prop := forall i, In i (mentioned_ids d) -> ~ In LF i.
Definition NoneBlank (d : document) : Prop :=
  (forall s, In (Some s) (single_texts d) -> s <> []) /\ forall e, In e (do_extracted d) -> el_id e <> Some [].
(** no list has an entry twice *)
Record Repetitionless (d : document) : Prop := {
  rep_creators : NoDup (ci_creators (do_ci d));
  rep_packages : forall p, In p (do_packages d) -> NoDup (pk_info p) /\ NoDup (pk_attribution p);
  rep_files : forall f, In f (do_files d) ->
    NoDup (fi_types f) /\ NoDup (fi_info f) /\ NoDup (fi_contributors f) /\ NoDup (fi_attribution f);
  rep_snippets : forall s, In s (do_snippets d) -> NoDup (sn_info s) /\ NoDup (sn_attribution s);
  rep_extracted : forall e, In e (do_extracted d) -> NoDup (el_xrefs e) }.
Record RdfKept (O : oracles) (d : document) : Prop := {
  (** license expressions are in disjunctive normal form *)
  rk_licenses : forall e, LicenseOf d e -> RdfSpec.Dnf O e;
  rk_actors : ActorsRead d;
  rk_words : WordsPlain d;
  rk_names : forall e, In e (do_extracted d) -> el_name e <> Some (AVal $"NONE");
  rk_blank : NoneBlank d;
  rk_ids : IdsOfOneLine d;
  (** elements have ids of the document, not of another one *)
  rk_own : forall i, In i (element_ids d) -> ~ ValidationSpec.ExternalId d i;
  rk_distinct : NoDup (map edr_id (ci_refs (do_ci d))) /\ NoDup (map el_id (do_extracted d));
  rk_namespace : RdfSpec.RdfNamespace (ci_namespace (do_ci d));
  rk_refs : forall r, In r (ci_refs (do_ci d)) -> ~ In #"#" (edr_uri r) /\ edr_uri r <> ci_namespace (do_ci d);
  rk_types : forall p r, In p (do_packages d) -> In r (pk_refs p) -> RdfSpec.Unspaced (er_type r);
  rk_excluded : forall p v, In p (do_packages d) -> pk_verif p = Some v -> NoDup (vc_excluded v);
  (** the writer cannot do without a range of lines *)
  rk_lines : forall s, In s (do_snippets d) -> sn_lines s <> None }.
Record TvFit (O : oracles) (d : document) : Prop := {
  tf_kept : TvKept O d;
  tf_ids : IdsOfOneLine d;
  tf_lines : forall s, In (Some s) (line_texts d) -> TvSpec.Line s;
  (** texts of several lines *)
  tf_texts : forall s, In (Some s) (free_texts d) \/ In (Some s) (copyright_texts d) -> In LF s ->
               ~ In TvSpec.CR s /\ contains $"</text>" s = false;
  tf_actors : forall a, ActorOf d a -> ~ In TvSpec.CR (ac_name a) /\ IfSome (fun e => ~ In TvSpec.CR e) (ac_email a);
  tf_no_tools : forall p a, In p (do_packages d) -> pk_supplier p = Some (AVal a) \/ pk_originator p = Some (AVal a) ->
                  ac_type a <> AT_TOOL;
  tf_refs : forall r, In r (ci_refs (do_ci d)) -> ck_alg (edr_checksum r) = CA_SHA1;
  tf_excluded : forall p v x, In p (do_packages d) -> pk_verif p = Some v -> In x (vc_excluded v) ->
                  ~ In LF x /\ ~ In TvSpec.CR x /\ ~ In #"," x }.
