# Formal model of spdx/tools-python — design

## Approach

The model is a shallow embedding in Rocq (Coq 8.16.1, standard library only): every Python function
becomes a small total Gallina function that mirrors it branch by branch; exceptions are values of a
`result` type; loops are structural recursion or folds; library calls whose code is not in the repository
(license-expression, uritools, hashlib, rdflib, ply) are either written out (the parts of `re`, `str`,
`datetime`, `ply` that the code relies on) or explicit universally quantified arguments ("oracles") of the
theorems.  A Python `str` is a list of Unicode code points (`list N`).

Layout of `rocq/theories`:

* `Py*.v`, `Rx.v` – Python strings, regular expressions, results/loggers.
* model files – one per area of the code, only definitions, each with a file/line citation.
* `*Spec.v` – small declarative specifications used in theorem statements.
* `*Facts.v` – proofs.
* `Props*.v` – only the property theorems (`exact lemma`), `Print Assumptions`, and examples showing that
  the hypotheses are satisfiable.

## Plan per property

| id | modelled | method |
|----|----------|--------|
| C01 C02 C47 | checksum / id / locator regexes over arbitrary strings, Python `re.match`, `$` semantics | exact characterisation, structural induction over regex/strings |
| C03 C04 C05 C06 C07 C08 C48 | all validators of `spdx/validation`; license and URI libraries as oracles | `validate = [] <-> WellFormed` against a declarative predicate, corollaries |
| C09 C10 C11 | Version, datetime conversion, Actor serialiser and regex parser | round-trip laws |
| C12 C13 C14 C15 C16 C46 | converter classes to a JSON value type and JSON-like dict parser | round trip per element by lemma, lists by induction, document theorem |
| C17 C18 | JSON control character hook, XML list repair on the JSON value type | induction over values |
| C19 C42 | casing tools, enum spellings | induction over words; finite sweep for enums |
| C20 C21 C22 C23 C24 C25 C26 C27 | document utilities | list inductions, permutation invariance |
| C28 – C32 C49 | tag-value writer to lines, lexer on characters, parser state machine over tokens | lexing lemma per line, invariant over the token stream |
| C33 | graph generation as a finite set of nodes and edges | fold invariant |
| C34 C35 C50 | file system state and the writer/CLI as a state transformer | case analysis; refutation of C34 by witness |
| C51 | what an entry says, as a relation between JSON objects and elements (JsonReadSpec.v) | iff, field by field, through the constructors |
| C36 | constructor checking as a loop over the fields collecting errors; the type checker's random choice of list items is an argument | induction on the field list; refutation for list items |
| C52 – C55 | bump_spdx_document as one function on objects, creation infos and the payload map | phases (creation, elements, relationships, annotations), each with the invariant that it overwrites only its own ids; that no actor is made up is an invariant of the objects and the map (`BumpActors.v`, vocabulary in `BumpActorsSpec.v`), and likewise that there is one document (`BumpOneDoc.v`) |
| C37 – C40 | spdx3 payload map and bump functions (object identity modelled where it matters) | history induction, refutations by witness |
| C41 C43 C44 C45 | RDF writers/parsers over a triple set | round trip up to order, induction over expression trees |
| C56 | what a graph describes, as relations between nodes and elements (RdfReadSpec.v, vocabulary spelled out) | iff, property by property; documents by combining the elements |
| C57 | the attributes of the objects in the order of `vars()`; the entry of each element spelled out field by field (JsonldSpec.v) | iff per element by computing the converter on symbolic attributes; an invariant of the conversion gives known words and creation infos |
| C58 | the writers as functions from attributes to text and an optional exception; the lines of each element spelled out (ConsoleSpec.v) | each writer says exactly these lines; composition over the payload; partial output by case distinction |
| C59 | `main` with the file system, decoders and encoders as parameters (Cli3.v) | case distinction on each step, combined with C57 and C58 |
| C60 C61 | nothing new: parser, validator, converter, files and `main` together | what an entry says (C51) and validity (C04) give the conditions of the round trip (C12); composition with C35 and C50 |
| C62 | nothing new: tag-value lexer and parser | `TvReadSpec.v` says what each tag and each block of attributes says; each action of the grammar is an operation on the fields of the element at hand, and operations on different fields commute, so an element depends, field by field, on the attributes with one tag (`TvRead*.v`) |
| C63 | nothing new: tag-value lexer and parser with the error recovery of ply | `TvStreamSpec.v` lists what is taken and what is passed over; the automaton is a list of events (`TvRead9.v`), events other than attributes leave a message that is raised, except for broken attributes without elements; events and `Taken` agree by induction over the tokens (`TvRead10.v`, `TvRead11.v`) |
| C64 | nothing new: tag-value reader, validator, JSON and tag-value writers | what the values of the tokens of an arbitrary text look like (`TvTokens.v`), what C63 then says about every field of the parsed document, and what validity adds: `JsonDocument` (`TvResave.v`) and `TvDocument` (`TvResave2.v`); then C12/C32 and C61 (`TvResave3.v`); the remaining conditions are in `TvResaveSpec.v`, with witnesses that they are needed |
| C65 | the 57 classes of `spdx3/model` (fields, base classes, signatures, abstract constructors) as a table, with the mechanism of `common/typing` and inheritance of fields (`Typing3.v`) | invariants of the table (names, chains of base classes, every field has a parameter) by computation; everything else by induction over fields, base classes and hints (`Typing3Facts.v`, `Typing3More.v`) |
| C66 | nothing new: RDF reader, validator, JSON, RDF and tag-value writers | what C56 says about every field of a document read from an arbitrary graph, and what validity adds: `JsonDocument` (`RdfResave.v`), `RdfDocument` (`RdfResave2.v`, also without duplicates) and `TvDocument` (`RdfResave3.v`); then C12/C43/C32 and C61 (`RdfResave4.v`); the remaining conditions are in `RdfResaveSpec.v`, with witnesses that some of them are needed |
| C67 | the instances of `Typing3.v` as the converter of `Jsonld.v` meets them, and the members of the 19 enumerations (`Jsonld3.v`) | the keys and words are tables of the specification (`Jsonld3Spec.v`), compared with the model by computation; what is shown of a value is an inductive relation; equivalence with the converter, failures and lookup by induction over values (`Jsonld3Facts.v`); every element of the conversion is `object_of` a sound instance (`Jsonld3Bump.v`) |
| C68 | the writers of `Console.v` for all classes, on the instances of `Typing3.v` | the layouts are a table of the specification (`Console3Spec.v`): a heading and sections for each class, each section a list of texts and exceptions; equality with the writers section by section (`Console3Facts.v`, `Console3Blocks.v`); the causes of exceptions from the types of the fields, by computation over the table of classes (`Console3Stops.v`) |
| C69 | `owl_to_context.py` on arbitrary JSON values (`Owl.v`); the resources `SPDX_OWL.json` (of every node the members that are read) and `context.json` as data (`OwlData.v`) | what nodes say and which definition wins are inductive relations (`OwlSpec.v`); invariant over the list of nodes: the definition of each term wins among the candidates so far (`OwlFacts.v`); the shipped context by computation |
| C70 | nothing new: the converter of C67 with the context and ontology of `OwlData.v` | expansion of terms and words by JSON-LD 1.1 as inductive relations (`MeaningSpec.v`): prefixes, property-scoped contexts, vocabularies; tables of keys, classes and words by computation, objects at every depth by induction over values (`MeaningFacts.v`) |
| C71 | the texts of all messages of `spdx/validation` and their contexts, `repr` of lists and objects as an oracle | `MessageSpec.v` says which messages a document deserves, with text, ids, kind and element; iff validator by validator (`MessageFacts.v`), lists by membership |
| C72 | what the conversion prints to stderr until it ends or raises (`BumpLog.v`), also in `Cli3.v` | the report, the kept fields and what is lost are spelled out (`BumpLogSpec.v`); success prints the report, failure a prefix of it; the payload and the lines are functions of the kept and told fields (`BumpLogFacts.v`) |
| C73 (and the messages of C32) | nothing new: tag-value lexer (with line numbers) and parser; `repr` of messages in `Construct.v` | numbers of lines by induction over the text (`TvLines.v`); the parser's actions commute with adding messages to its state (`TvReport.v`), so one mistake leaves the rest of the run as it is; the kinds of mistake in `TvReport2.v`, values of another kind in `TvReport3.v`, unknown tags in `TvReport4.v`, vocabulary in `TvReportSpec.v` |
| C74 | nothing new: the parser of JSON-like dictionaries (`JsonParse.v`) | a successful run has empty logs, so the run on the changed dictionary differs in one step only: lists in `JsonReport.v`, the document around packages, files and snippets in `JsonReport2.v`, creation info in `JsonReport3.v`, relationships in `JsonReport4.v` (the implicit relationships are computed again without the broken list), annotations and references of packages in `JsonReport5.v`; vocabulary in `JsonReportSpec.v` |
| C75 | nothing new: the RDF reader (`RdfParser.v`); its message about unknown names of enumerations now has the exact text | two graphs that differ in one property of one node answer all other queries alike; which queries each function makes is listed in `RdfReport.v`, with a lemma per function that other queries do not matter; the step with the mistake in `RdfReport2.v` (packages) and `RdfReport3.v` (others), the whole document in `RdfReport4.v` and `RdfReport5.v`, checksums and references in `RdfReport6.v`, any number of mistakes in `RdfReport7.v`, snippets and extracted licenses in `RdfReport8.v`, creators in `RdfReport9.v`; vocabulary in `RdfReportSpec.v` and `RdfReportSpec2.v` |

No property is inexpressible; those whose user-level statement is false of the code get a `_refuted`
theorem with a witness and a positive theorem under the exact side condition.

## Which theorem says what

`MANIFEST.json` lists the theorems of each property; they are all in `Props*.v`, together with an `Example`
beside each group that shows a concrete case meeting the hypotheses. Statements use the API functions of the
model files and the predicates of the `*Spec.v` files. A theorem named `…_refuted` gives a witness that the
user-level statement fails for the code as it is; the neighbouring theorem has the exact side condition.
`…_partial` marks a theorem that covers only a part of the property (see the manifest note).

## Modelled parts of the code

| code (`src/spdx_tools`) | model |
|---|---|
| `spdx/model/*` (data classes, enums, `__str__`, `__eq__`, `__hash__`), `relationship_filters.py` | `Data.v`, `Basics.v`, `DocUtils.v` |
| `common/typing/*` | `Typing.v` (the mechanism, for all classes and values), `Construct.v` (its use in the parsers; `TypingJson.v` proves both agree) |
| `spdx/validation/*` | `Validation.v`, `Rx.v` (patterns) |
| `spdx/datetime_conversions.py`, `casing_tools.py`, `formats.py`, `parser/actor_parser.py`, `model/version.py` | `Basics.v`, `PyRe.v` |
| `spdx/document_utils.py`, `spdx_element_utils.py`, `writer/write_utils.py` | `DocUtils.v`, `Validation.v` |
| `spdx/jsonschema/*` | `JsonConv.v` |
| `spdx/parser/jsonlikedict/*`, `parser/logger.py`, `parser/parsing_functions.py`, `parser/error.py` | `JsonParse.v` |
| `spdx/parser/json`, `yaml`, `xml` | `Loading.v` |
| `spdx/writer/tagvalue/*` | `TvWriter.v` |
| `spdx/parser/tagvalue/lexer.py`; `parser.py`, `helper_methods.py` | `TvLexer.v`; `TvParser.v` |
| `spdx/writer/rdf/*`, `rdfschema/namespace.py` | `Rdf.v`, `RdfWriter.v` |
| `spdx/parser/rdf/*` | `RdfParser.v` |
| `spdx/graph_generation.py` | `Graph.v` |
| `spdx/writer/write_anything.py`, `writer/{json,yaml,xml,rdf,tagvalue}/*_writer.py`, `parser/parse_anything.py`, `clitools/pyspdxtools.py` | `Files.v` |
| `spdx3/payload.py`, `spdx3/bump_from_spdx2/*` and the constructors of `spdx3/model/*` that it calls | `Payload.v`, `Bump.v` |
| `spdx3/model/**` (classes and constructors) | `Typing3.v` |
| `spdx3/writer/json_ld/json_ld_converter.py`, `json_ld_writer.py` | `Jsonld.v`, `Jsonld3.v` (all classes), `Cli3.v` |
| `spdx3/writer/json_ld/owl_to_context.py`, `SPDX_OWL.json`, `context.json` | `Owl.v`, `OwlData.v` |
| `spdx3/writer/console/*` | `Console.v` |
| `spdx3/clitools/pyspdxtools3.py`, `bump_from_spdx2/bump_utils.py` (what it prints), `message.py` | `Cli3.v`, `BumpLog.v` |

Not modelled: `spdx3/validation/*` (SHACL by pyshacl), what `logging` prints without influence on results.

## Trusted base

* The kernel of Coq 8.16.1 (`coqc` when building, `coqchk` for checking again). `vm_compute` is used in some
  proofs about concrete cases and finite tables; no `native_compute`, no plugins, no unsafe flags.
* Axioms: none. `Print Assumptions` stands after every property theorem and prints
  "Closed under the global context" for each of them. (A scan of all loaded modules also reports the seven fields of the module type
  `Coq.ssr.ssrunder.Under_rel` of the standard library. They are part of a module type loaded with `ssreflect`'s
  library files, not axioms in use: no theorem depends on them.)
* No functors, module types, `Declare Module`, section-less variables, or `Admitted` in the sources.
* That the model mirrors the code. Every definition cites the lines it models. The mutants of
  `seeded/LOG.jsonl` show that the theorems notice changes of the model; they do not show that the model
  is faithful.
* Libraries that are not in the repository are arguments of the theorems, quantified over all behaviours, or with
  hypotheses that the statement names:
  * `oracles` (`Oracles.v`): license-expression (parse, str, equality, unknown symbols) and uritools.
    Hypotheses used: `LicenseGrammar` and friends (parsing what `str` prints gives the expression back),
    and that parsing raises no exceptions of this package (`Foreign`).
  * `rdf_library` (`Rdf.v`): values of typed literals, fragments and shortening of URIs. Hypotheses:
    `RdfLibrary` (fragment of `namespace#id` is `id`), `Shortens` (bound prefixes are used). A graph is a list of triples
    in the order in which rdflib happens to enumerate it; round-trip theorems hold for every order and all labels of blank nodes.
  * `environment` (`Files.v`): the file system and the encoders/decoders of json, yaml, xmltodict and rdflib.
    Hypotheses: decoding undoes encoding (`XmlImage` in `XmlSpec.v` describes what xmltodict makes of lists and
    empty values).
* Library code that is written out in the model and therefore trusted: the parts of `re` (backtracking matcher, `PyRe.v`;
  languages, `Rx.v`), `str` (`Py.v`, tables of Unicode 15 white space, digits and word characters in `UniTables.v`),
  `datetime.strptime/strftime` for the one format in use, `ply.lex` token loop and `ply.yacc` error recovery
  as far as this grammar reaches it (`TvLexer.v`, `TvParser.v`), beartype's check of annotations (`Typing.v`).

## Simplifications

* `upper`/`lower`/`title` map ASCII letters only.
* Texts of validation messages are literal, except that `repr` of lists and objects is an oracle. Texts of other errors are shortened
  where a library words them; which messages exist, and the elements they belong to, are modelled.
* `int()` of more than 4300 digits and with underscores; floats in JSON other than as opaque values; components of versions are non-negative.
* Mutation of objects after construction, object identity other than in the SPDX 3 conversion (where it matters and is modelled).
* `EValue`, `EType`, … stand for Python exceptions of these classes; tracebacks are not modelled. Recursion depth is
  modelled only where the code recurses on user input (`r_depth` for license expressions in RDF).
* Messages printed by the command line tool are modelled as the exit and log, not as characters on a terminal.

## Checks against wrong programs

`seeded/LOG.jsonl` has one line per edit of the model in a scratch copy: the definition, the edit, the claim that it breaks, the
first proofs that failed (the build stops there), the property theorems that depend on them, and the theorems that were
added or tightened when the edit survived.

What the build showed is `first_failing`. `theorems_failed` is derived from it and was not observed: it lists the property
theorems whose proofs mention these lemmas, directly or through others, found in the source text with names resolved
through the imports of each file. It can miss uses through hints and can name a theorem that would have survived. Up to
the commit before this note names were matched without regard to files, which listed about 22500 theorems where about
6300 are listed now; many of the former were unrelated lemmas of the same name. An empty list beside a non-empty
`first_failing` means that a supporting lemma or an example broke and no property theorem was traced to it: such an edit
is not shown to be noticed by a property theorem. The note "survived at
first" marks edits that nothing noticed when they were made; the theorems under `theorems_tightened` were written then.
