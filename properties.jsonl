{"id": "C01", "title": "Checksum validation accepts exactly the well-formed digests", "statement": "For every checksum algorithm, validating a Checksum yields no message if and only if its value consists only of lower-case hexadecimal digits and has one of the lengths the algorithm prescribes (a fixed number of digits, at least 256 digits for BLAKE3, at most 512 digits for MD6), where one trailing line feed is tolerated because the pattern uses '$'.", "quantifier": "all 17 algorithms and all strings", "why_tests_cant": "infinitely many strings; tests sample a handful of lengths and alphabets", "anchors": ["src/spdx_tools/spdx/validation/checksum_validator.py:validate_checksum", "src/spdx_tools/spdx/model/checksum.py:ChecksumAlgorithm"]}
{"id": "C02", "title": "SPDX identifier syntax is decided exactly", "statement": "An internal SPDX id is accepted if and only if it is 'SPDXRef-' followed by one or more letters, digits, '.' or '-'; an external document reference id if and only if it is 'DocumentRef-' followed by one or more letters, digits, '.', '+' or '-'; each up to one trailing line feed.", "quantifier": "all strings", "why_tests_cant": "infinitely many strings", "anchors": ["src/spdx_tools/spdx/validation/spdx_id_validators.py:is_valid_internal_spdx_id", "src/spdx_tools/spdx/validation/spdx_id_validators.py:is_valid_external_doc_ref_id"]}
{"id": "C03", "title": "An accepted element reference really resolves", "statement": "validate_spdx_id with check_document on returns no message exactly when the id is a well-formed internal id of the document itself or of one of its packages, files or snippets, or has the form 'DocumentRef-x:SPDXRef-y' with both parts well formed and DocumentRef-x listed in the external document references.", "quantifier": "all documents and all id strings", "why_tests_cant": "unbounded documents and strings", "anchors": ["src/spdx_tools/spdx/validation/spdx_id_validators.py:validate_spdx_id", "src/spdx_tools/spdx/document_utils.py:get_contained_spdx_element_ids"]}
{"id": "C04", "title": "A document without validation messages is well formed, and conversely", "statement": "validate_full_spdx_document(document, version) returns the empty list if and only if the document satisfies a declarative well-formedness predicate: supported and matching version, well-formed creation info, packages, files, snippets, annotations, relationships and extracted licensing infos, all references resolved, a DESCRIBES relationship when required, and pairwise distinct element ids.", "quantifier": "all documents, all version strings, all behaviours of the license and URI libraries", "why_tests_cant": "documents are unbounded and the rules interact across elements", "anchors": ["src/spdx_tools/spdx/validation/document_validator.py:validate_full_spdx_document", "src/spdx_tools/spdx/validation"]}
{"id": "C05", "title": "Element ids are unique in every document that validates", "statement": "If validate_full_spdx_document returns no message, no two packages, files, snippets (or the document itself and one of them) share an SPDX id.", "quantifier": "all documents of any size", "why_tests_cant": "pairs of elements in unbounded documents", "anchors": ["src/spdx_tools/spdx/validation/document_validator.py:validate_full_spdx_document"]}
{"id": "C06", "title": "Version gating of validation", "statement": "If the version to validate against is unsupported, or no usable version can be found, or the given version contradicts the document, exactly the corresponding version message(s) and nothing else is reported and no other rule is evaluated.", "quantifier": "all documents, all version strings", "why_tests_cant": "all combinations of argument and document version strings", "anchors": ["src/spdx_tools/spdx/validation/document_validator.py:validate_full_spdx_document"]}
{"id": "C07", "title": "SPDX-2.2 is stricter than SPDX-2.3", "statement": "Every document that validates as SPDX-2.2 still validates as SPDX-2.3 after only its version string is changed; and a document that validates as SPDX-2.2 uses none of the features introduced in 2.3 and provides every field that is mandatory in 2.2.", "quantifier": "all documents", "why_tests_cant": "the implication ranges over every document that passes the 2.2 rules", "anchors": ["src/spdx_tools/spdx/validation/package_validator.py", "src/spdx_tools/spdx/validation/file_validator.py", "src/spdx_tools/spdx/validation/snippet_validator.py", "src/spdx_tools/spdx/validation/relationship_validator.py"]}
{"id": "C08", "title": "Validation does not depend on the order of the elements", "statement": "Permuting packages, files, snippets, annotations, relationships or extracted licensing infos never changes whether the document validates, nor the messages and how often each is reported, up to the order of the relationships that one message about a package lists in its text. (False: the texts are not the same in every order, because that message lists relationships in the order of the document.)", "quantifier": "all documents and all permutations of their lists", "why_tests_cant": "factorially many orders of unboundedly many documents", "anchors": ["src/spdx_tools/spdx/validation/document_validator.py"]}
{"id": "C09", "title": "Version strings round-trip", "statement": "Version.from_string(str(v)) = v for every pair of non-negative integers, and whenever from_string accepts a string the result denotes exactly the two decimal numbers written there; every other string is rejected.", "quantifier": "all pairs of naturals, all strings", "why_tests_cant": "unbounded integers and strings", "anchors": ["src/spdx_tools/spdx/model/version.py:Version"]}
{"id": "C10", "title": "Timestamps round-trip at second precision", "statement": "Serialising a date-time with datetime_to_iso_string and reading the result back with datetime_from_str yields the same instant truncated to whole seconds (in UTC), for every valid calendar date; and two different second-precision timestamps never serialise to the same string.", "quantifier": "all valid date-times incl. time zone offset and microseconds", "why_tests_cant": "hundreds of billions of timestamps; leap years", "anchors": ["src/spdx_tools/spdx/datetime_conversions.py:datetime_from_str", "src/spdx_tools/spdx/datetime_conversions.py:datetime_to_iso_string"]}
{"id": "C11", "title": "Actor strings round-trip", "statement": "Parsing Actor.to_serialized_string() gives back the same actor for every actor whose name and e-mail are free of the delimiters the textual form uses; the exact side conditions are necessary (names with parentheses or surrounding blanks, and empty e-mails, are altered).", "quantifier": "all actors", "why_tests_cant": "infinitely many names and e-mails", "anchors": ["src/spdx_tools/spdx/model/actor.py:Actor.to_serialized_string", "src/spdx_tools/spdx/parser/actor_parser.py:ActorParser.parse_actor"]}
{"id": "C12", "title": "JSON/YAML/XML conversion round-trips whole documents", "statement": "For every document in the supported class, converting it to the JSON-like dictionary and parsing that dictionary returns the same document (annotations regrouped by element; nothing else changes).", "quantifier": "all documents satisfying stated side conditions, any size", "why_tests_cant": "unbounded nested documents with optional fields in every combination", "anchors": ["src/spdx_tools/spdx/jsonschema/document_converter.py", "src/spdx_tools/spdx/parser/jsonlikedict/json_like_dict_parser.py"]}
{"id": "C13", "title": "No annotation is lost or duplicated in the JSON form", "statement": "In the JSON-like form of a document with distinct element ids, every annotation occurs exactly once: under the element whose id it names, or at document level otherwise.", "quantifier": "all documents with distinct ids", "why_tests_cant": "all assignments of annotations to elements", "anchors": ["src/spdx_tools/spdx/jsonschema/document_converter.py", "src/spdx_tools/spdx/jsonschema/annotation_converter.py"]}
{"id": "C14", "title": "Absent optional values are omitted, present ones kept", "statement": "The JSON-like form of any element contains each property name at most once and contains no null: a property is present exactly when the element has a value for it (a non-empty list for list-valued properties).", "quantifier": "all elements", "why_tests_cant": "all combinations of optional fields", "anchors": ["src/spdx_tools/spdx/jsonschema/converter.py:TypedConverter.convert"]}
{"id": "C15", "title": "Implicit relationships are added once", "statement": "Parsing a JSON-like document keeps the listed relationships in order and adds, for documentDescribes and hasFiles, exactly the DESCRIBES / CONTAINS relationships that are not already stated directly or by their inverse, never twice.", "quantifier": "all JSON-like documents", "why_tests_cant": "all interleavings of explicit, inverted and implicit relationships", "anchors": ["src/spdx_tools/spdx/parser/jsonlikedict/relationship_parser.py:RelationshipParser"]}
{"id": "C16", "title": "Parsing reports every broken element and never returns a partial document", "statement": "JsonLikeDictParser.parse returns a document only if no element of any list produced a parsing error; otherwise it raises one SPDXParsingError containing the messages of all broken elements in order.", "quantifier": "all JSON-like inputs", "why_tests_cant": "arbitrarily many simultaneous defects", "anchors": ["src/spdx_tools/spdx/parser/jsonlikedict/dict_parsing_functions.py", "src/spdx_tools/spdx/parser/jsonlikedict/json_like_dict_parser.py"]}
{"id": "C17", "title": "Stripping of control characters", "statement": "Loading JSON removes every backspace and form feed character from string values that the object hook visits and changes nothing else; doing it twice is the same as once.", "quantifier": "all JSON values of any depth", "why_tests_cant": "unbounded nesting", "anchors": ["src/spdx_tools/spdx/parser/json/json_parser.py:remove_control_characters_hook"]}
{"id": "C18", "title": "XML list repair", "statement": "After _fix_list_like_fields every list-like field that is present at any depth holds a list, fields that already are lists and all other fields are unchanged except for recursion, and repairing twice is the same as once.", "quantifier": "all dictionaries of any depth", "why_tests_cant": "unbounded nesting", "anchors": ["src/spdx_tools/spdx/parser/xml/xml_parser.py:_fix_list_like_fields"]}
{"id": "C19", "title": "Casing conversions are inverse on the names in use", "statement": "camel_case_to_snake_case inverts snake_case_to_camel_case on every snake-case name (lower-case words, each starting with a letter, single underscores) and the enum spelling used in JSON, tag-value and RDF is injective, so distinct members are never confused.", "quantifier": "all snake-case names", "why_tests_cant": "infinitely many names", "anchors": ["src/spdx_tools/spdx/casing_tools.py"]}
{"id": "C20", "title": "Deduplication is order preserving and lossless as a set", "statement": "Dropping duplicates from a list keeps the first occurrence of every element in order, loses no element, leaves no duplicate, is idempotent, and does nothing on duplicate-free lists; for a document it applies to every list field of every element and leaves all other fields as they were.", "quantifier": "all lists and documents", "why_tests_cant": "unbounded lists", "anchors": ["src/spdx_tools/spdx/document_utils.py:create_document_without_duplicates"]}
{"id": "C21", "title": "Validation after deduplication is monotone", "statement": "Dropping duplicates from a document that validates yields a document that still validates.", "quantifier": "all valid documents", "why_tests_cant": "quantifies over all valid documents", "anchors": ["src/spdx_tools/spdx/writer/write_utils.py:validate_and_deduplicate", "src/spdx_tools/spdx/document_utils.py"]}
{"id": "C22", "title": "Package verification code depends only on the multiset of file hashes", "statement": "calculate_package_verification_code is invariant under permutation of the files and is the SHA1 of the concatenation of the sorted hashes of all given files, where a file is represented by its last listed SHA1 value or, if that is missing or empty, by the SHA1 of the file on disk; it fails exactly when some file has neither.", "quantifier": "all file lists and permutations", "why_tests_cant": "all permutations of unbounded lists", "anchors": ["src/spdx_tools/spdx/spdx_element_utils.py:calculate_package_verification_code"]}
{"id": "C23", "title": "Chunked file hashing equals hashing the whole content", "statement": "For every file content, feeding it to the hash in blocks of 65536 bytes is the same as hashing it in one go.", "quantifier": "all byte strings, all hash functions given as update folds", "why_tests_cant": "unbounded file sizes", "anchors": ["src/spdx_tools/spdx/spdx_element_utils.py:calculate_file_checksum"]}
{"id": "C24", "title": "Element lookup by id is sound and complete", "statement": "get_element_from_spdx_id returns an element with the requested id iff the document contains one, and with distinct ids it agrees with get_element_type_from_spdx_id; with duplicate ids the two disagree.", "quantifier": "all documents and ids", "why_tests_cant": "unbounded documents", "anchors": ["src/spdx_tools/spdx/document_utils.py:get_element_from_spdx_id", "src/spdx_tools/spdx/spdx_element_utils.py:get_element_type_from_spdx_id"]}
{"id": "C25", "title": "Full element ids", "statement": "get_full_element_spdx_id yields namespace#id for internal ids and uri#id for ids of listed external documents; distinct internal ids get distinct full ids; unknown external documents are rejected.", "quantifier": "all elements, namespaces and reference lists", "why_tests_cant": "unbounded strings and lists", "anchors": ["src/spdx_tools/spdx/spdx_element_utils.py:get_full_element_spdx_id"]}
{"id": "C26", "title": "Relationship filters return exactly the matching relationships in order", "statement": "filter_by_type_and_target / _origin and find_* return precisely the relationships (contained files, containing packages) that match, in document order.", "quantifier": "all relationship lists", "why_tests_cant": "unbounded lists", "anchors": ["src/spdx_tools/spdx/model/relationship_filters.py"]}
{"id": "C27", "title": "File name to format dispatch", "statement": "file_name_to_format is determined by the file name suffix alone; every supported suffix maps to its one format and every other name raises SPDXParsingError; reader and writer dispatch on the same rule.", "quantifier": "all file names", "why_tests_cant": "infinitely many names", "anchors": ["src/spdx_tools/spdx/formats.py:file_name_to_format", "src/spdx_tools/spdx/parser/parse_anything.py", "src/spdx_tools/spdx/writer/write_anything.py"]}
{"id": "C28", "title": "Tag-value output contains every element exactly once", "statement": "The tag-value writer emits one section per package, file, snippet, extracted licensing info and annotation of the document: each file once (under the first package that contains it, or before all packages when it is in none), each snippet once, after its file if the document has that file. Every relationship is expressed by a section or by the place of a file under its package.", "quantifier": "all documents with distinct ids", "why_tests_cant": "all containment relations between files, packages and snippets", "anchors": ["src/spdx_tools/spdx/writer/tagvalue/tagvalue_writer.py:write_document", "src/spdx_tools/spdx/writer/tagvalue/tagvalue_writer_helper_functions.py:scan_relationships"]}
{"id": "C29", "title": "Tag-value lines round-trip through the lexer", "statement": "For every field value in the supported class the line(s) the writer emits lex to exactly the tag token and one value token carrying the value back.", "quantifier": "all values (single- and multi-line)", "why_tests_cant": "infinitely many strings", "anchors": ["src/spdx_tools/spdx/parser/tagvalue/lexer.py", "src/spdx_tools/spdx/writer/tagvalue/tagvalue_writer_helper_functions.py:write_text_value"]}
{"id": "C30", "title": "Tag-value documents round-trip", "statement": "Writing a document as tag-value and parsing it back gives the same document up to the documented normalisations.", "quantifier": "all documents satisfying stated side conditions", "why_tests_cant": "unbounded documents", "anchors": ["src/spdx_tools/spdx/writer/tagvalue", "src/spdx_tools/spdx/parser/tagvalue"]}
{"id": "C31", "title": "Tag-value text fields: multi-line values cannot inject fields", "statement": "A free-text value written by write_text_value that contains a line break is wrapped in <text> so that, unless it contains '</text>', none of its lines is read as a tag.", "quantifier": "all strings", "why_tests_cant": "infinitely many strings", "anchors": ["src/spdx_tools/spdx/writer/tagvalue/tagvalue_writer_helper_functions.py:write_text_value"]}
{"id": "C32", "title": "Repeated single-valued tags are reported", "statement": "When a tag that may occur once occurs again in the same element (or in the document), the file is not accepted: parsing ends with an error. If this is the only mistake, the error has exactly one message, with the element, the tag and the number of the line of the second occurrence. (The tag SPDXID is an exception: the last identifier silently wins.)", "quantifier": "all tag sequences", "why_tests_cant": "all interleavings of tags", "anchors": ["src/spdx_tools/spdx/parser/tagvalue/helper_methods.py:set_value", "src/spdx_tools/spdx/parser/tagvalue/parser.py"]}
{"id": "C33", "title": "Relationship graph", "statement": "The generated graph has one node per document, package, file and snippet plus one per unknown id and one per (origin, relationship type); every relationship is represented by the edge pair origin -> type node -> target and no other edge exists.", "quantifier": "all documents", "why_tests_cant": "unbounded documents", "anchors": ["src/spdx_tools/spdx/graph_generation.py:generate_relationship_graph_from_spdx"]}
{"id": "C34", "title": "Failed validation must not destroy the output file", "statement": "Writing an invalid document with validation on raises and leaves the target file untouched. (Claim a user relies on; refuted: the code opens the file for writing before it validates, so the file is emptied. Nothing of the invalid document is written, no other file changes, and streams stay untouched.)", "quantifier": "all invalid documents and file contents", "why_tests_cant": "crash/exception points between open and write", "anchors": ["src/spdx_tools/spdx/writer/json/json_writer.py:write_document_to_file", "src/spdx_tools/spdx/writer/write_utils.py"]}
{"id": "C35", "title": "The command line tool's verdict", "statement": "pyspdxtools exits 0 after claiming validity only if validation produced no message; with validation on, an output file is only produced for valid documents; unsupported versions exit 1.", "quantifier": "all inputs and option combinations", "why_tests_cant": "all option combinations times all documents", "anchors": ["src/spdx_tools/spdx/clitools/pyspdxtools.py:main"]}
{"id": "C36", "title": "Constructor type checking reports all bad fields at once", "statement": "Constructing an element either succeeds with exactly the given values or raises one error that lists every ill-typed field, and only those.", "quantifier": "all subsets of ill-typed arguments", "why_tests_cant": "exponentially many subsets", "anchors": ["src/spdx_tools/common/typing/constructor_type_errors.py", "src/spdx_tools/common/typing/type_checks.py"]}
{"id": "C37", "title": "Payload behaves as a map", "statement": "After any sequence of add_element calls, get_element returns the last element added under that id and raises KeyError for ids never added.", "quantifier": "all histories of add_element", "why_tests_cant": "all operation histories", "anchors": ["src/spdx_tools/spdx3/payload.py:Payload"]}
{"id": "C38", "title": "Bumping to SPDX 3 preserves the direction and end points of relationships", "statement": "Every relationship of an SPDX 2 document reappears in the SPDX 3 payload with the same end points up to the documented swap. (Violated: DEPENDENCY_OF becomes a self loop.)", "quantifier": "all relationships of all 45 types", "why_tests_cant": "all types and id pairs", "anchors": ["src/spdx_tools/spdx3/bump_from_spdx2/relationship.py:bump_relationship"]}
{"id": "C39", "title": "Merging of bumped relationships loses nothing", "statement": "Merging relationships with the same origin and type keeps every target and every comment. (Violated when the last one carries a comment or all targets are NONE/NOASSERTION.)", "quantifier": "all relationship lists", "why_tests_cant": "aliasing across unbounded lists", "anchors": ["src/spdx_tools/spdx3/bump_from_spdx2/relationship.py:_merge_relationships_and_add_to_payload"]}
{"id": "C40", "title": "Bumped checksums and license expressions keep their meaning", "statement": "Hash algorithm conversion is total on the 17 algorithms and injective except for those mapped to OTHER; license expression conversion preserves the AND/OR/WITH structure.", "quantifier": "all algorithms, all license expression trees", "why_tests_cant": "unbounded trees", "anchors": ["src/spdx_tools/spdx3/bump_from_spdx2/checksum.py", "src/spdx_tools/spdx3/bump_from_spdx2/license_expression.py"]}
{"id": "C41", "title": "RDF id resolution", "statement": "parse_spdx_id inverts add_namespace_to_spdx_id for internal ids, whatever the namespace.", "quantifier": "all ids and namespaces", "why_tests_cant": "infinitely many strings", "anchors": ["src/spdx_tools/spdx/writer/rdf/writer_utils.py:add_namespace_to_spdx_id", "src/spdx_tools/spdx/parser/rdf/graph_parsing_functions.py:parse_spdx_id"]}
{"id": "C42", "title": "RDF checksum algorithm and enum names round-trip", "statement": "For every enum member written to RDF the reader recovers the same member.", "quantifier": "all members of all enums", "why_tests_cant": "finite but combined with arbitrary prefixes", "anchors": ["src/spdx_tools/spdx/writer/rdf/checksum_writer.py", "src/spdx_tools/spdx/parser/rdf/checksum_parser.py", "src/spdx_tools/spdx/parser/rdf/graph_parsing_functions.py:parse_enum_value"]}
{"id": "C43", "title": "RDF round trip", "statement": "Writing elements as RDF triples and reading them back yields the same elements up to the order of list fields.", "quantifier": "all documents in a stated class", "why_tests_cant": "graphs are unordered; unbounded", "anchors": ["src/spdx_tools/spdx/writer/rdf", "src/spdx_tools/spdx/parser/rdf"]}
{"id": "C44", "title": "RDF license expressions round-trip", "statement": "A license expression tree written as RDF license sets and read back is the same expression up to the order of members.", "quantifier": "all license expression trees", "why_tests_cant": "unbounded trees", "anchors": ["src/spdx_tools/spdx/writer/rdf/license_expression_writer.py", "src/spdx_tools/spdx/parser/rdf/license_expression_parser.py"]}
{"id": "C45", "title": "RDF output is defined for every valid snippet", "statement": "Every snippet that passes validation can be written as RDF. (Violated: a snippet without line range makes the writer raise.)", "quantifier": "all valid snippets", "why_tests_cant": "optional field combinations", "anchors": ["src/spdx_tools/spdx/writer/rdf/snippet_writer.py:add_range_to_graph"]}
{"id": "C46", "title": "Snippet ranges from JSON", "statement": "parse of the 'ranges' list returns the byte range and line range written by the converter and rejects pointers of mixed kinds or without a number.", "quantifier": "all range lists", "why_tests_cant": "unbounded lists", "anchors": ["src/spdx_tools/spdx/parser/jsonlikedict/snippet_parser.py"]}
{"id": "C47", "title": "External package reference locators", "statement": "validate_external_package_ref accepts exactly the category/type combinations of the specification with locators matching the type's syntax.", "quantifier": "all strings", "why_tests_cant": "infinitely many strings", "anchors": ["src/spdx_tools/spdx/validation/external_package_ref_validator.py"]}
{"id": "C48", "title": "files_analyzed rules", "statement": "A package that validates with files_analyzed = False carries no verification code and no license info from files; neither the package nor the document relates it to contained files.", "quantifier": "all documents", "why_tests_cant": "cross-element rule over unbounded documents", "anchors": ["src/spdx_tools/spdx/validation/package_validator.py:validate_package_within_document"]}
{"id": "C49", "title": "The tag-value parser fails only with parsing errors", "statement": "For every text, the tag-value parser returns a document or raises the documented parsing error; no other exception escapes, except the KeyError that a malformed Relationship causes.", "quantifier": "all texts", "why_tests_cant": "infinitely many malformed files", "anchors": ["src/spdx_tools/spdx/parser/tagvalue/parser.py:Parser.parse", "src/spdx_tools/spdx/parser/tagvalue/helper_methods.py"]}
{"id": "C50", "title": "Written files can be read back", "statement": "A document written to a file by write_file is read back by parse_file from the same name as the same document without duplicates (up to the documented normalisations), for the JSON, YAML, tag-value, RDF and XML formats, provided the encoder and decoder of the format's library behave as documented (inverse to each other; for RDF up to the labels of blank nodes and the order of triples; for XML up to the lists and empty values that XML cannot express). White space at the ends of texts is lost in XML.", "quantifier": "all documents of the stated classes, all file systems, all library behaviours", "why_tests_cant": "unbounded documents and file systems", "anchors": ["src/spdx_tools/spdx/writer/write_anything.py:write_file", "src/spdx_tools/spdx/parser/parse_anything.py:parse_file"]}
{"id": "C51", "title": "Reading JSON: exactly what the entries say", "statement": "A JSON, YAML or XML entry for a package, file, snippet, extracted license, relationship, annotation or the creation information is read without a message as an element if and only if the element is what the entry says key by key: the same text under the documented key, NONE and NOASSERTION as the reserved values, enumeration members by name, actors, timestamps and versions in their written forms, filesAnalyzed true when absent, empty values as missing. Unknown keys play no role. A whole document is read if and only if every part is, with the elements in the order of the entries the annotations of the document, its reviews and its elements in this order, and the listed relationships followed by those that documentDescribes and hasFiles add.", "quantifier": "all JSON objects, all license library behaviours", "why_tests_cant": "infinitely many entries and combinations of malformed values", "anchors": ["src/spdx_tools/spdx/parser/jsonlikedict/package_parser.py", "src/spdx_tools/spdx/parser/jsonlikedict/file_parser.py", "src/spdx_tools/spdx/parser/jsonlikedict/snippet_parser.py", "src/spdx_tools/spdx/parser/jsonlikedict/annotation_parser.py", "src/spdx_tools/spdx/parser/jsonlikedict/creation_info_parser.py", "src/spdx_tools/spdx/parser/jsonlikedict/json_like_dict_parser.py:JsonLikeDictParser.parse"]}
{"id": "C52", "title": "Bumping to SPDX 3 keeps every package, file, snippet and annotation", "statement": "Every package, file and snippet of a converted document is in the payload under its full id with the same contents, every annotation is there with its own creation info, and nothing else is. (Violated: an element with an id that the conversion makes up is overwritten; licenses are dropped.)", "quantifier": "all documents, all optional field combinations", "why_tests_cant": "unbounded documents; overwriting depends on all other ids", "anchors": ["src/spdx_tools/spdx3/bump_from_spdx2/package.py:bump_package", "src/spdx_tools/spdx3/bump_from_spdx2/file.py:bump_file", "src/spdx_tools/spdx3/bump_from_spdx2/snippet.py:bump_snippet", "src/spdx_tools/spdx3/bump_from_spdx2/annotation.py:bump_annotation"]}
{"id": "C53", "title": "The bumped SpdxDocument refers to the whole payload", "statement": "The SpdxDocument of a payload lists exactly the ids of all other elements, each once; it keeps name, comment, creation info and external document references; the end points of relationships between elements of the document are in the payload. (Violated for elements of other documents.) It is the only document in the payload.", "quantifier": "all documents", "why_tests_cant": "a global property of the whole payload", "anchors": ["src/spdx_tools/spdx3/bump_from_spdx2/spdx_document.py:bump_spdx_document", "src/spdx_tools/spdx3/bump_from_spdx2/creation_info.py:bump_creation_info"]}
{"id": "C54", "title": "Bumping to SPDX 3 keeps the actors", "statement": "Every creator, supplier, originator and annotator is found in the payload under the id that the elements use; persons and organizations are listed as creators and tools as used tools, in order; the first actor with an id is there with kind, name and e-mail. Every actor in the payload is one of the creators, suppliers, originators and annotators of the document, with its kind, name and e-mail. (Violated: a later actor with the same id is lost.)", "quantifier": "all documents, all actor names", "why_tests_cant": "collisions of ids derived from names", "anchors": ["src/spdx_tools/spdx3/bump_from_spdx2/actor.py:bump_actor", "src/spdx_tools/spdx3/bump_from_spdx2/creation_info.py:bump_creation_info"]}
{"id": "C55", "title": "Which documents can be bumped", "statement": "The conversion succeeds exactly if all element ids can be resolved and no homepage is NONE or NOASSERTION. (So that some valid documents cannot be converted.)", "quantifier": "all documents", "why_tests_cant": "all field combinations", "anchors": ["src/spdx_tools/spdx3/bump_from_spdx2/spdx_document.py:bump_spdx_document", "src/spdx_tools/spdx3/model/software/package.py:Package"]}
{"id": "C56", "title": "Reading RDF: exactly what the graph says", "statement": "From an RDF graph a package, file, snippet, annotation, relationship, extracted license, license expression or the creation information is read without a message if and only if it is what the graph describes property by property with the terms of the SPDX vocabulary: single values where there may be one, the URIs none and noassertion as the reserved values, enumeration members by their URIs, ids as fragments of the document's namespace or with the prefix of an external document, licenses by their URIs or as sets of members. A whole document is read if and only if the graph describes it: one element for each node of a class, in the order of the graph, relationships also from hasFile and describesPackage without repetition. Every graph written for a document describes it.", "quantifier": "all graphs, all nodes, all elements, all bound prefixes, all behaviours of the RDF and license libraries (which do not raise SPDXParsingError themselves)", "why_tests_cant": "both directions of the equivalence for all graphs: nothing accepted that is not there, nothing there that is rejected", "anchors": ["src/spdx_tools/spdx/parser/rdf/rdf_parser.py:translate_graph_to_document", "src/spdx_tools/spdx/parser/rdf/graph_parsing_functions.py:parse_literal", "src/spdx_tools/spdx/parser/rdf/package_parser.py:parse_package", "src/spdx_tools/spdx/parser/rdf/snippet_parser.py:parse_snippet", "src/spdx_tools/spdx/parser/rdf/license_expression_parser.py:parse_license_expression", "src/spdx_tools/spdx/parser/rdf/creation_info_parser.py:parse_creation_info"]}
{"id": "C57", "title": "SPDX 3 JSON-LD contains the payload", "statement": "The @graph that is written for a converted document has exactly one entry for each element of the payload, in the payload's order: its class as @type, its id as @id, and exactly those fields that have a value, under their camelCase names, with nested objects, enumeration members as words (different members as different words) and points in time in ISO form. Writing fails only if a point in time of the document cannot be written. (Violated by the duplicates: two entries may have the same @id.)", "quantifier": "all documents that can be converted", "why_tests_cant": "all combinations of elements, fields and enumeration members; exactly the fields with a value", "anchors": ["src/spdx_tools/spdx3/writer/json_ld/json_ld_converter.py:convert_payload_to_json_ld_list_of_elements", "src/spdx_tools/spdx3/writer/json_ld/json_ld_converter.py:_convert_to_json_ld_dict"]}
{"id": "C58", "title": "The console output shows the payload", "statement": "The text that is printed for a converted document consists of one block for each element of the payload, in the payload's order: the name of the class, the id, and a line for each printed field that has a value (in nested parts indented or under a heading), followed by an empty line. If printing fails, a creation time cannot be written, and the blocks of all elements before that one have been printed. (Not everything is printed: copyright texts, attribution texts, purposes and root elements are left out.)", "quantifier": "all documents that can be converted, all ways in which str() prints dates", "why_tests_cant": "all combinations of elements and fields; the output is determined exactly", "anchors": ["src/spdx_tools/spdx3/writer/console/payload_writer.py:write_payload", "src/spdx_tools/spdx3/writer/console/element_writer.py:write_element_properties", "src/spdx_tools/spdx3/writer/console/console.py:write_value"]}
{"id": "C59", "title": "pyspdxtools3: status, output and files", "statement": "The exit status is 0 exactly if the input can be read, is valid for the chosen version (unless validation is off) and, if an output was asked for, could be converted and written. Then NAME.jsonld contains the context and exactly the entries of the payload, or stdout shows exactly the payload. For an invalid document exactly its messages are printed and nothing is written. A file changes only if it is the output file of an accepted, completely converted document, and the input file is never overwritten. (Violated expectations: a valid SPDX 2.2 document is called invalid by default, messages are mixed into the output on stdout, unreadable files end with a traceback.)", "quantifier": "all files, arguments, environments (file system, decoders, encoders), all documents", "why_tests_cant": "all inputs and all failures of the environment at every step", "anchors": ["src/spdx_tools/spdx3/clitools/pyspdxtools3.py:main", "src/spdx_tools/spdx3/writer/json_ld/json_ld_writer.py:write_payload", "src/spdx_tools/spdx3/bump_from_spdx2/bump_utils.py:handle_no_assertion_or_none"]}
{"id": "C60", "title": "A document read from JSON can be saved and read again", "statement": "A valid document that was read from JSON, YAML or XML can be converted to JSON again; what is written is read as the same document, up to the order of annotations of different elements, and saving that document writes the same JSON once more. This needs that no person or organization without e-mail has a name that looks like a name with e-mail, and that no annotation is about an element of another document; otherwise saving changes the document (shown by witnesses).", "quantifier": "all JSON values, all documents read from them, all license libraries that read what they print for the licenses of the document", "why_tests_cant": "all inputs that the parser accepts, not only those that the writer produces", "anchors": ["src/spdx_tools/spdx/parser/jsonlikedict/json_like_dict_parser.py:JsonLikeDictParser.parse", "src/spdx_tools/spdx/jsonschema/document_converter.py:DocumentConverter.convert"]}
{"id": "C61", "title": "pyspdxtools conversions keep the document", "statement": "Running pyspdxtools with an input file that holds a valid document and an output file in any format ends with status 0, and reading the output file gives the document of the input file without repeated list entries (up to the order that the output format does not keep). From JSON, YAML and XML to JSON and YAML this needs only the conditions of C60; for the other output formats the document must be expressible in them.", "quantifier": "all environments, files, versions and documents", "why_tests_cant": "composition of reader, validator, writer and reader for all documents and formats", "anchors": ["src/spdx_tools/spdx/clitools/pyspdxtools.py:main", "src/spdx_tools/spdx/parser/parse_anything.py:parse_file", "src/spdx_tools/spdx/writer/write_anything.py:write_file"]}
{"id": "C62", "title": "Reading a tag-value file gives exactly what its attributes say", "statement": "For a text of attributes 'Tag: value' with values of the kinds that the tags take, parsing returns a document exactly if the attributes say that document: every field of the creation information and of every element is the value of its tag, in the order of the file; an element consists of the attributes from its start tag to the next one; tags that may occur once occur once; no attribute belongs to no element; a file after a package is contained in it. Otherwise parsing raises an exception. The same attributes never say two documents.", "quantifier": "all texts of attributes, all documents, all license libraries", "why_tests_cant": "all combinations, orders and repetitions of about 80 tags and their values", "anchors": ["src/spdx_tools/spdx/parser/tagvalue/parser.py:Parser", "src/spdx_tools/spdx/parser/tagvalue/helper_methods.py"]}
{"id": "C63", "title": "What the tag-value parser takes from an arbitrary text", "statement": "For every text whatsoever, parsing returns a document exactly if the attributes that are taken from the text say that document (C62). Everything that is not taken and not reported is one of: tokens before the first attribute; an attribute that the end of the file cuts off; SPDXID without or with too long a value, with the token after it and what follows up to the next attribute; an unknown tag whose value is of an unexpected kind; an attribute of an element whose value does not fit, if the file has no elements. It does not matter whether lines end with LF, CR or CR LF. (So an unknown tag, a package, a relationship or a wrong value can be lost without any message: shown by witnesses.)", "quantifier": "all texts, all license libraries", "why_tests_cant": "all texts, including malformed ones and every point where the parser recovers", "anchors": ["src/spdx_tools/spdx/parser/tagvalue/parser.py:Parser", "src/spdx_tools/spdx/parser/tagvalue/lexer.py:SPDXLexer"]}
{"id": "C64", "title": "A document read from a tag-value file can be saved and read again", "statement": "If a text is parsed as a tag-value file and the document is valid, then writing it as JSON or YAML and reading the result gives the same document up to the order of annotations, and writing it as tag-value and reading the result gives the same document up to the order that tag-value files do not keep. The same holds for pyspdxtools -i in.spdx -o out. Conditions: the license library reads what it prints; no actor without e-mail has a name like 'A (b)'; no annotation is about an element of another document (JSON); no copyright text is the word NONE or NOASSERTION; for tag-value, texts of one line have no surrounding blanks, and verification codes exclude at most one file. (Each of the last conditions is needed: shown by witnesses.)", "quantifier": "all texts, all documents parsed from them, all license libraries, all file systems", "why_tests_cant": "all texts that can be parsed, not only those that the library has written itself", "anchors": ["src/spdx_tools/spdx/parser/tagvalue/tagvalue_parser.py:parse_from_file", "src/spdx_tools/spdx/writer/tagvalue/tagvalue_writer.py", "src/spdx_tools/spdx/writer/json/json_writer.py", "src/spdx_tools/spdx/clitools/pyspdxtools.py:main"]}
{"id": "C65", "title": "Constructors of the SPDX 3 model accept exactly well-typed values", "statement": "For every class of the SPDX 3 model: calling it with keyword arguments either gives an instance whose own and inherited fields hold the arguments, the defaults, and empty lists and dictionaries instead of None; or raises one ConstructorTypeErrors that lists only fields with values of wrong types, each once, among them all fields whose types have no lists or dictionaries. Well-typed arguments, also instances of subclasses, are always accepted. Unknown or missing arguments and abstract classes raise TypeError. Later assignments keep the fields well-typed. Arguments that fit the signature of the constructor are accepted. (False for the nine assessments of vulnerabilities: no call that fits their signatures succeeds; and None is accepted for required names; and a wrong item of a list or dictionary may be accepted.)", "quantifier": "all 57 classes, all arguments, all choices of the type checker, all histories of assignments", "why_tests_cant": "all combinations of arguments and types for all classes, and random choices of the type checker", "anchors": ["src/spdx_tools/spdx3/model", "src/spdx_tools/common/typing/type_checks.py:check_types_and_set_values", "src/spdx_tools/common/typing/dataclass_with_properties.py"]}
{"id": "C66", "title": "A document read from RDF can be saved and read again", "statement": "If an RDF graph is read as a document and the document is valid, then writing it as JSON or YAML and reading the result gives the same document up to the order of annotations; writing it as RDF and reading the graph, with any labels of blank nodes and any order of triples, gives the same document up to the order of lists; writing it as tag-value and reading the result gives the same document up to the order that tag-value files do not keep. The same holds for pyspdxtools -i in.rdf -o out, where repeated entries of lists are dropped first. Conditions: the license library reads what it prints; no actor without e-mail has a name like 'A (b)'; no copyright text is the word NONE or NOASSERTION; for RDF, license expressions are in disjunctive normal form, no text is empty and snippets have a range of lines; for tag-value, texts that are meant to be of one line are so. (Several conditions are shown to be needed by witnesses.)", "quantifier": "all RDF graphs, all documents read from them, all license and RDF libraries, all file systems", "why_tests_cant": "all graphs that can be read, not only those that the library has written itself", "anchors": ["src/spdx_tools/spdx/parser/rdf/rdf_parser.py:translate_graph_to_document", "src/spdx_tools/spdx/writer/rdf/rdf_writer.py:write_document_to_stream", "src/spdx_tools/spdx/writer/tagvalue/tagvalue_writer.py", "src/spdx_tools/spdx/writer/json/json_writer.py", "src/spdx_tools/spdx/clitools/pyspdxtools.py:main"]}
{"id": "C67", "title": "Objects of every class of the SPDX 3 model as JSON-LD", "statement": "For every class of the SPDX 3 model: an instance whose fields have values of the right types, at every depth, is written to JSON-LD as an object with its class under @type and, in the order of the fields, inherited ones first, exactly those fields that have a value, each under a key of its own and with the word for each member of an enumeration; None, False, 0 and empty texts, lists and dictionaries are left out. A reader finds every field under its key, no key is used twice, and different fields and different members have different keys and words. Writing fails exactly if a dictionary with entries or a point in time that cannot be written occurs somewhere in the instance. Constructors make such instances from such arguments, and so does the conversion from SPDX 2. (False: instances with dictionaries that are not empty, which the constructors of AI packages, data sets and builds accept, are never written; and False is written like an unknown value.)", "quantifier": "all classes, all instances, all depths, all payloads, all converted documents", "why_tests_cant": "the classes are nested and have up to 44 fields each; only a few combinations of values can be tried", "anchors": ["src/spdx_tools/spdx3/writer/json_ld/json_ld_converter.py:_convert_to_json_ld_dict", "src/spdx_tools/spdx3/writer/json_ld/json_ld_converter.py:convert_payload_to_json_ld_list_of_elements", "src/spdx_tools/spdx3/model", "src/spdx_tools/spdx/casing_tools.py:snake_case_to_camel_case"]}
{"id": "C68", "title": "Console output for every class of the SPDX 3 model", "statement": "The console output for the elements of a payload of SPDX 3, of whatever class, is one block after the other in their order: the heading of the class, the properties of the element with its creation info, hashes, references and identifiers, then the fields of the class in a fixed order, one line for each value that is there, members of enumerations by their names, lists of texts joined by commas, dictionaries by their entries in parentheses, and an empty line. Writing raises exactly if an element is of a class without layout, is a data set with a type, or has a creation time that cannot be written; everything before that element has been written then, and nothing of the elements after it. The payloads that the conversion from SPDX 2 makes are such payloads. (False: data sets with types and, for example, vulnerabilities are never shown although they can be made, and the copyright of a package is not shown.)", "quantifier": "all lists of instances of classes of the model with values of the right types, all classes, all converted documents", "why_tests_cant": "there are 17 layouts over nested values, and failures depend on combinations of class, values and position in the payload", "anchors": ["src/spdx_tools/spdx3/writer/console/payload_writer.py:write_payload", "src/spdx_tools/spdx3/writer/console/console.py:write_value", "src/spdx_tools/spdx3/writer/console/build/build_writer.py:write_build", "src/spdx_tools/spdx3/writer/console/dataset/dataset_writer.py:write_dataset", "src/spdx_tools/spdx3/writer/console/ai/ai_package_writer.py:write_ai_package", "src/spdx_tools/spdx3/writer/console/element_writer.py:write_element_properties"]}
{"id": "C69", "title": "The JSON-LD context is generated from the ontology", "statement": "The generator of the JSON-LD context turns an ontology (a context and a graph of nodes) into a context that keeps all terms of the given one and adds one for every class and property of the graph: the term is the identifier after its last colon; classes are mapped to their identifiers, properties to their identifiers with the vocabulary of an enumeration, as references, or with their range. If several nodes define the same term, the last class wins; among properties the first one of the core profile wins, and the last one if there is none. Nodes of other types are reported in their order, individuals and nodes without type are left out. The generator fails exactly if some node cannot be used after those before it (for example, a property with the name of a class before it), and then the file with the context stays as it was. The context in the repository is what the generator makes of the ontology in the repository. (False: that the order of the nodes does not matter.)", "quantifier": "all ontologies with a context and a list of nodes, all nodes (any JSON values), all terms", "why_tests_cant": "which definition wins depends on the order of all nodes with the same name; a test has one ontology", "anchors": ["src/spdx_tools/spdx3/writer/json_ld/owl_to_context.py:convert_spdx_owl_to_jsonld_context", "src/spdx_tools/spdx3/writer/json_ld/SPDX_OWL.json", "src/spdx_tools/spdx3/writer/json_ld/context.json"]}
{"id": "C70", "title": "Meaning of the JSON-LD files of the SPDX 3 writer", "statement": "With the context that is written to the file, everything in a JSON-LD file of the SPDX 3 writer has a meaning in the SPDX ontology: every object, at every depth, has a class of the ontology; all its keys but @type, @id, homepage and extension are properties of the ontology; different fields and classes mean different things; and every member of an enumeration is written as a word that is expanded to an IRI, different members to different ones, which is an individual of the ontology except for the words in a fixed list. The words of three fields stay texts, and texts are references to other elements in exactly nine fields. This holds for all instances of the model and for all documents converted from SPDX 2. (False: homepages of packages are written under a key that means nothing, so they are lost for readers of JSON-LD; the scope and the SBOM type build mean the namespace of the build profile; and SHA3 and BLAKE2b algorithms, confidentiality levels, kinds of availability and some relationship types are written as words that the ontology does not have.)", "quantifier": "all instances of classes of the model with values of the right types, all objects in what is written, all keys, all words, all converted documents", "why_tests_cant": "the tests compare no output with the context or the ontology, and the keys and words depend on the values at every depth", "anchors": ["src/spdx_tools/spdx3/writer/json_ld/json_ld_writer.py:write_payload", "src/spdx_tools/spdx3/writer/json_ld/json_ld_converter.py:_convert_to_json_ld_dict", "src/spdx_tools/spdx3/writer/json_ld/context.json", "src/spdx_tools/spdx3/writer/json_ld/SPDX_OWL.json", "src/spdx_tools/spdx3/model"]}
{"id": "C71", "title": "Validation messages", "statement": "Validating a document of a supported version against no other version reports exactly the messages its problems deserve: every problem of the specification is reported with the text that names it and the offending value, and with a context giving the kind of the element, its id, the id of its parent and the element itself, and nothing else is reported. Whatever the version, every message points to the document or to a part of it. (False: the parent id of messages about annotators is the word annotation, which is not an id of the document.)", "quantifier": "all documents, all messages, all behaviours of the license and URI libraries and of repr", "why_tests_cant": "the tests check one message at a time on documents with one problem; documents with any number of problems in any combination are unbounded", "anchors": ["src/spdx_tools/spdx/validation/document_validator.py:validate_full_spdx_document", "src/spdx_tools/spdx/validation/validation_message.py", "src/spdx_tools/spdx/validation"]}
{"id": "C72", "title": "Conversion to SPDX 3: what is kept, lost and reported", "statement": "A conversion prints to stderr exactly one report, in order: for the document and each package, file and snippet the fields that have no conversion, and a line for each copyright text NOASSERTION, external reference of an unknown type, relationship without counterpart and tool as annotator; a conversion that fails prints the beginning of it, and pyspdxtools3 prints it after the verdict. Everything in a list of fields that is lost is reported under its name. The payload depends on nothing but the kept fields. (False: that everything that is lost is reported; creator comments, concluded and declared licenses, references to package managers, extracted licensing infos and groups of relationships without targets are lost silently.)", "quantifier": "all documents, all pairs of documents that agree in the kept fields, all runs of the tool", "why_tests_cant": "non-interference is about all pairs of documents, and the report depends on all elements", "anchors": ["src/spdx_tools/spdx3/bump_from_spdx2/message.py:print_missing_conversion", "src/spdx_tools/spdx3/bump_from_spdx2", "src/spdx_tools/spdx3/clitools/pyspdxtools3.py:main"]}
{"id": "C73", "title": "One mistake in a tag-value file: one message with the right line", "statement": "If a tag-value text is read without errors, and one attribute is inserted at the beginning of a line that does not belong to the open element, has an unknown tag, has a value of another kind than its tag takes, or has a wrong value (unknown file type, unknown category of a reference, reference that cannot be split, unknown purpose, unknown annotation type, FilesAnalyzed neither true nor false, malformed verification code, malformed range, malformed version of the license list, malformed reference to a document), then parsing ends with an error with exactly one message: the documented text, with the value, the element and the number of that line (the messages about FilesAnalyzed and about a version have no line number), however many lines, comments and multi-line texts come before it. (Exceptions: a value of SPDXID of another kind, and an unknown tag whose value is a tool, an organization or a checksum, are silently ignored.)", "quantifier": "all texts that consist of attributes, comments and empty lines, all positions of the mistake, all wrong values", "why_tests_cant": "the position, the number of lines before it and the elements after it are unbounded", "anchors": ["src/spdx_tools/spdx/parser/tagvalue/parser.py:Parser", "src/spdx_tools/spdx/parser/tagvalue/lexer.py:SPDXLexer", "src/spdx_tools/spdx/parser/tagvalue/helper_methods.py:set_value", "src/spdx_tools/spdx/parser/logger.py", "src/spdx_tools/spdx/parser/parsing_functions.py"]}
{"id": "C74", "title": "One mistake in a JSON, YAML or XML document: one message that names it", "statement": "If a dictionary (from JSON, YAML or XML) is read without errors, and one field of one of its elements is changed to a wrong value (an actor without a known prefix, an expression that the license library refuses, an unknown purpose, checksum algorithm, file type, category of a reference, relationship type or annotation type, a range without a pointer, a malformed version), then parsing ends with an error with exactly one message: the text about the wrong value, enclosed in the texts about the entry, the element or the list it stands in. If all of several creators are wrong, the one message has one part for each of them, in order.", "quantifier": "all dictionaries that are read, all elements and positions in lists, all wrong values of the listed kinds", "why_tests_cant": "the document around the mistake, the position of the element and the wrong value are unbounded; a mistake in one element must neither hide nor cause messages about others", "anchors": ["src/spdx_tools/spdx/parser/jsonlikedict/json_like_dict_parser.py:JsonLikeDictParser", "src/spdx_tools/spdx/parser/jsonlikedict/dict_parsing_functions.py", "src/spdx_tools/spdx/parser/jsonlikedict/package_parser.py:PackageParser", "src/spdx_tools/spdx/parser/jsonlikedict/file_parser.py:FileParser", "src/spdx_tools/spdx/parser/jsonlikedict/snippet_parser.py:SnippetParser", "src/spdx_tools/spdx/parser/jsonlikedict/creation_info_parser.py:CreationInfoParser", "src/spdx_tools/spdx/parser/jsonlikedict/relationship_parser.py:RelationshipParser", "src/spdx_tools/spdx/parser/jsonlikedict/annotation_parser.py:AnnotationParser"]}
{"id": "C75", "title": "One mistake in an RDF document: one message that names it", "statement": "If a document is read from an RDF graph without errors, and the graph is changed in the values of one property of one node so that a property with at most one value gets several, or gets a wrong value (an actor without a known prefix, a malformed date or version, an unknown purpose, file type, annotation type, relationship type, reference category or checksum algorithm), then reading ends with an error with exactly one message: the text about the wrong value, or about the property with several values by its URI, enclosed in a text that names the kind of part (package, file, snippet, annotation, relationship, extracted license, creation info). The same holds for a range of a snippet without a single start or end, with a start and an end of different kinds, and for a second range of bytes or lines. A wrong creator, wrong checksums and references of packages are reported as such, without the element that they belong to. With any number of mistakes in packages, files, snippets, annotations, relationships and extracted licenses, the messages about all of them are given, in this order, and a document is given only if there are none. (Violated for references to other documents: the message about a wrong checksum of such a reference is lost.)", "quantifier": "all RDF graphs that are read, in any order of triples, all nodes of the listed kinds, all wrong values and numbers of values; all behaviours of rdflib and of the license library whose errors are not SPDXParsingErrors; for the last sentence: all graphs with a readable creation info, any number of broken parts", "why_tests_cant": "the graph around the mistake and the wrong value are unbounded; a mistake at one node must neither hide nor cause messages about others", "anchors": ["src/spdx_tools/spdx/parser/rdf/rdf_parser.py:translate_graph_to_document", "src/spdx_tools/spdx/parser/rdf/graph_parsing_functions.py", "src/spdx_tools/spdx/parser/rdf/package_parser.py:parse_package", "src/spdx_tools/spdx/parser/rdf/file_parser.py:parse_file", "src/spdx_tools/spdx/parser/rdf/annotation_parser.py:parse_annotation", "src/spdx_tools/spdx/parser/rdf/relationship_parser.py:parse_relationship", "src/spdx_tools/spdx/parser/rdf/creation_info_parser.py:parse_creation_info", "src/spdx_tools/spdx/parser/rdf/checksum_parser.py:parse_checksum"]}
