(** Specifications for the document utilities, stated without their code. *)
From Verif Require Import Py Data DocUtils.
From Coq Require Import Sorting.Permutation.
From Coq Require Sorting.Sorted.
Notation StronglySorted := Coq.Sorting.Sorted.StronglySorted.

(** ** Deduplication: reading the list from left to right, an element is kept iff nothing kept before is the same. *)
Inductive FirstOccurrences {A} (same : A -> A -> Prop) : list A -> list A -> Prop :=
| FO_nil : FirstOccurrences same [] []
| FO_new : forall l l' x, FirstOccurrences same l l' -> (forall y, In y l' -> ~ same x y) ->
           FirstOccurrences same (l ++ [x]) (l' ++ [x])
| FO_old : forall l l' x y, FirstOccurrences same l l' -> In y l' -> same x y -> FirstOccurrences same (l ++ [x]) l'.

(** order preserving selection of some elements of a list *)
Inductive Subseq {A} : list A -> list A -> Prop :=
| Sub_nil : Subseq [] []
| Sub_skip : forall x l l', Subseq l l' -> Subseq l (x :: l')
| Sub_keep : forall x l l', Subseq l l' -> Subseq (x :: l) (x :: l').

Section Dedup.
  (** two license expressions the license library considers equal *)
  Variable same_license : lexpr -> lexpr -> Prop.
  Definition SameLicense (a b : license) : Prop :=
    match a, b with
    | NVal x, NVal y => same_license x y
    | NNoAssertion, NNoAssertion => True
    | NNone, NNone => True
    | _, _ => False
    end.
  Notation FO := (FirstOccurrences eq).
  Notation FOL := (FirstOccurrences SameLicense).

  Record DedupCreationInfo (a b : creation_info) : Prop := {
    dc_lists : FO (ci_creators a) (ci_creators b) /\ FO (ci_refs a) (ci_refs b);
    dc_rest : b = {| ci_version := ci_version a; ci_id := ci_id a; ci_name := ci_name a; ci_namespace := ci_namespace a;
                     ci_creators := ci_creators b; ci_created := ci_created a; ci_creator_comment := ci_creator_comment a;
                     ci_data_license := ci_data_license a; ci_refs := ci_refs b; ci_list_version := ci_list_version a;
                     ci_doc_comment := ci_doc_comment a |}
  }.
  Record DedupFile (a b : file) : Prop := {
    df_lists : FO (fi_checksums a) (fi_checksums b) /\ FO (fi_types a) (fi_types b) /\ FOL (fi_info a) (fi_info b)
               /\ FO (fi_contributors a) (fi_contributors b) /\ FO (fi_attribution a) (fi_attribution b);
    df_rest : b = {| fi_name := fi_name a; fi_id := fi_id a; fi_checksums := fi_checksums b; fi_types := fi_types b;
                     fi_concluded := fi_concluded a; fi_info := fi_info b; fi_lic_comment := fi_lic_comment a;
                     fi_copyright := fi_copyright a; fi_comment := fi_comment a; fi_notice := fi_notice a;
                     fi_contributors := fi_contributors b; fi_attribution := fi_attribution b |}
  }.
  Record DedupPackage (a b : package) : Prop := {
    dp_lists : FO (pk_checksums a) (pk_checksums b) /\ FOL (pk_info a) (pk_info b) /\ FO (pk_refs a) (pk_refs b)
               /\ FO (pk_attribution a) (pk_attribution b);
    dp_rest : b = {| pk_id := pk_id a; pk_name := pk_name a; pk_download := pk_download a; pk_version := pk_version a;
       pk_file_name := pk_file_name a; pk_supplier := pk_supplier a; pk_originator := pk_originator a;
       pk_files_analyzed := pk_files_analyzed a; pk_verif := pk_verif a; pk_checksums := pk_checksums b;
       pk_homepage := pk_homepage a; pk_source_info := pk_source_info a; pk_concluded := pk_concluded a;
       pk_info := pk_info b; pk_declared := pk_declared a; pk_lic_comment := pk_lic_comment a;
       pk_copyright := pk_copyright a; pk_summary := pk_summary a; pk_description := pk_description a;
       pk_comment := pk_comment a; pk_refs := pk_refs b; pk_attribution := pk_attribution b; pk_purpose := pk_purpose a;
       pk_release := pk_release a; pk_built := pk_built a; pk_valid_until := pk_valid_until a |}
  }.
  Record DedupSnippet (a b : snippet) : Prop := {
    ds_lists : FOL (sn_info a) (sn_info b) /\ FO (sn_attribution a) (sn_attribution b);
    ds_rest : b = {| sn_id := sn_id a; sn_file := sn_file a; sn_bytes := sn_bytes a; sn_lines := sn_lines a;
       sn_concluded := sn_concluded a; sn_info := sn_info b; sn_lic_comment := sn_lic_comment a;
       sn_copyright := sn_copyright a; sn_comment := sn_comment a; sn_name := sn_name a;
       sn_attribution := sn_attribution b |}
  }.
  Record DedupExtracted (a b : extracted) : Prop := {
    de_lists : FO (el_xrefs a) (el_xrefs b);
    de_rest : b = {| el_id := el_id a; el_text := el_text a; el_name := el_name a; el_xrefs := el_xrefs b;
                     el_comment := el_comment a |}
  }.
  Record DedupDocument (a b : document) : Prop := {
    dd_ci : DedupCreationInfo (do_ci a) (do_ci b);
    dd_packages : Forall2 DedupPackage (do_packages a) (do_packages b);
    dd_files : Forall2 DedupFile (do_files a) (do_files b);
    dd_snippets : Forall2 DedupSnippet (do_snippets a) (do_snippets b);
    dd_annotations : do_annotations b = do_annotations a;
    dd_relationships : do_relationships b = do_relationships a;
    dd_extracted : Forall2 DedupExtracted (do_extracted a) (do_extracted b)
  }.
End Dedup.

(** ** Selection: exactly the elements with the property, in order, with multiplicity *)
Inductive Selected {A} (P : A -> Prop) : list A -> list A -> Prop :=
| Sel_nil : Selected P [] []
| Sel_in : forall x l l', P x -> Selected P l l' -> Selected P (x :: l) (x :: l')
| Sel_out : forall x l l', ~ P x -> Selected P l l' -> Selected P (x :: l) l'.

(** ** Elements of a document *)
Definition all_elements (d : document) : list element :=
  map EPackage (do_packages d) ++ map EFile (do_files d) ++ map ESnippet (do_snippets d).
Definition type_of (e : element) : element_type :=
  match e with EPackage _ => TPackage | EFile _ => TFile | ESnippet _ => TSnippet end.

(** ** Hashing *)
(** Code point order of strings *)
Inductive StrLe : pystr -> pystr -> Prop :=
| SL_nil : forall b, StrLe [] b
| SL_lt : forall x a y b, (x < y)%N -> StrLe (x :: a) (y :: b)
| SL_eq : forall x a b, StrLe a b -> StrLe (x :: a) (x :: b).

Section Hash.
  (** digest of a byte string, and the files on disk *)
  Variable digest : list N -> pystr.
  Variable fs : pystr -> option (list N).
  (** the SHA1 values a file carries *)
  Definition sha1_values (f : file) : list pystr :=
    map ck_value (filter (fun c => checksum_alg_eqb (ck_alg c) CA_SHA1) (fi_checksums f)).
  (** h is the hash that represents f: the last SHA1 value listed, or, when there is none (or it is empty), the SHA1 of
      the file found on disk *)
  Inductive FileHash (f : file) : pystr -> Prop :=
  | FH_listed : forall vs v, sha1_values f = vs ++ [v] -> v <> [] -> FileHash f v
  | FH_disk : forall content, (sha1_values f = [] \/ exists vs, sha1_values f = vs ++ [[]]) ->
              fs (fi_name f) = Some content -> FileHash f (digest content).
End Hash.
