(** One mistake in a snippet or an extracted license of an RDF graph, with the message about it. *)
From Verif Require Import Py Data Rdf RdfReadSpec JsonReportSpec RdfReportSpec.

Section Mistakes.
Variable L : rdf_library.
Variable G : list triple.

(** A range that has no single start, no single end, or a start and an end of different kinds *)
Inductive BadRange (n : node) : pystr -> Prop :=
| BR_no_start : Objects n (pointer "startPointer") G [] -> BadRange n ($"Couldn't find pointer of type " ++ pointer "startPointer")
| BR_starts a b l : Objects n (pointer "startPointer") G (a :: b :: l) -> BadRange n ($"Multiple values for " ++ pointer "startPointer")
| BR_no_end x : Objects n (pointer "startPointer") G [x] -> Truthy L x -> Objects n (pointer "endPointer") G [] ->
    BadRange n ($"Couldn't find pointer of type " ++ pointer "endPointer")
| BR_ends x a b l : Objects n (pointer "startPointer") G [x] -> Truthy L x -> Objects n (pointer "endPointer") G (a :: b :: l) ->
    BadRange n ($"Multiple values for " ++ pointer "endPointer")
| BR_kinds x y t u : Objects n (pointer "startPointer") G [x] -> Truthy L x -> Objects n (pointer "endPointer") G [y] -> Truthy L y ->
    First G x is_a t -> First G y is_a u -> t <> u -> BadRange n $"Types of startPointer and endPointer don't match".
End Mistakes.

(** [n] is a bad range in place of the ranges [old], or another range of bytes or lines after the ranges [l] *)
Inductive SnippetMistake (L : rdf_library) (G G' : list triple) (s : node) : pystr -> pystr -> Prop :=
| RS_range a old c n m : Objects s (term "range") G (a ++ old ++ c) -> Objects s (term "range") G' (a ++ n :: c) -> BadRange L G n m ->
    SnippetMistake L G G' s (term "range") m
| RS_again l bytes r v n w : Objects s (term "range") G l -> In r l -> RangeIn L G r (bytes, v) -> Objects s (term "range") G' (l ++ [n]) ->
    RangeIn L G n (bytes, w) ->
    SnippetMistake L G G' s (term "range") (if bytes then $"Multiple ByteOffsetPointer found." else $"Multiple LineCharPointer found.").
Inductive ExtractedMistake (L : rdf_library) (G : list triple) (s : node) : pystr -> pystr -> Prop :=
| RX_text m : Bad L G s (term "extractedText") Anything m -> ExtractedMistake L G s (term "extractedText") m.
