{
 "claims": [
  {
   "property": "C01",
   "status": "proved",
   "theorems": [
    "C01_checksum_accepts_exactly",
    "C01_blake3_standard_digest_rejected"
   ],
   "note": "Also records that a standard 64-digit BLAKE3 digest is rejected."
  },
  {
   "property": "C02",
   "status": "proved",
   "theorems": [
    "C02_internal_id_syntax",
    "C02_external_doc_ref_id_syntax"
   ],
   "note": ""
  },
  {
   "property": "C03",
   "status": "proved",
   "theorems": [
    "C03_reference_resolves",
    "C03_file_reference_resolves",
    "C03_new_element_id"
   ],
   "note": ""
  },
  {
   "property": "C04",
   "status": "proved",
   "theorems": [
    "C04_no_messages_iff_well_formed"
   ],
   "note": ""
  },
  {
   "property": "C05",
   "status": "proved",
   "theorems": [
    "C05_valid_documents_have_unique_ids"
   ],
   "note": ""
  },
  {
   "property": "C06",
   "status": "proved",
   "theorems": [
    "C06_version_gate"
   ],
   "note": "All message texts are literal."
  },
  {
   "property": "C07",
   "status": "proved",
   "theorems": [
    "C07_22_is_23_plus_restrictions",
    "C07_valid_22_documents"
   ],
   "note": ""
  },
  {
   "property": "C08",
   "status": "proved",
   "theorems": [
    "C08_messages_do_not_depend_on_order",
    "C08_texts_refuted",
    "C08_validity_does_not_depend_on_order"
   ],
   "note": "C08_texts_refuted is the witness that the text of one kind of message depends on the order of the relationships."
  },
  {
   "property": "C09",
   "status": "proved",
   "theorems": [
    "C09_version_round_trip",
    "C09_version_accepted",
    "C09_version_rejected"
   ],
   "note": ""
  },
  {
   "property": "C10",
   "status": "proved",
   "theorems": [
    "C10_naive_round_trip",
    "C10_instant_round_trip",
    "C10_overflow",
    "C10_injective",
    "C10_instant_defined",
    "C10_only_valid",
    "C10_read_again"
   ],
   "note": "Instants are defined by counting days from 0001-01-01; the 400-year cycle is swept by computation and lifted by periodicity."
  },
  {
   "property": "C11",
   "status": "proved",
   "theorems": [
    "C11_actor_round_trip",
    "C11_parsed_actors",
    "C11_stable_after_parsing_refuted",
    "C11_all_actors_round_trip_refuted"
   ],
   "note": "Exact iff; the unrestricted claim and the stability of parsed actors are refuted by witnesses."
  },
  {
   "property": "C12",
   "status": "proved",
   "theorems": [
    "C12_json_round_trip",
    "C12_valid_documents_parse_back_refuted",
    "C12_reserved_words_refuted",
    "C12_external_annotations_refuted"
   ],
   "note": ""
  },
  {
   "property": "C13",
   "status": "proved",
   "theorems": [
    "C13_annotations_placed",
    "C13_exactly_once",
    "C13_repeated_ids_refuted"
   ],
   "note": ""
  },
  {
   "property": "C14",
   "status": "proved",
   "theorems": [
    "C14_no_null_no_repetition",
    "C14_document_keys",
    "C14_creation_info_keys",
    "C14_package_keys",
    "C14_file_keys",
    "C14_snippet_keys",
    "C14_relationship_keys",
    "C14_extracted_keys",
    "C14_checksum"
   ],
   "note": ""
  },
  {
   "property": "C15",
   "status": "proved",
   "theorems": [
    "C15_relationships",
    "C15_added_once",
    "C15_repeated_packages_refuted"
   ],
   "note": ""
  },
  {
   "property": "C16",
   "status": "proved",
   "theorems": [
    "C16_no_partial_document",
    "C16_all_reported",
    "C16_only_parsing_errors_refuted"
   ],
   "note": ""
  },
  {
   "property": "C17",
   "status": "proved",
   "theorems": [
    "C17_loaded",
    "C17_no_control_characters",
    "C17_plain_unchanged",
    "C17_idempotent",
    "C17_everywhere_refuted"
   ],
   "note": ""
  },
  {
   "property": "C18",
   "status": "proved",
   "theorems": [
    "C18_list_fields_are_lists",
    "C18_repaired",
    "C18_lists_unchanged",
    "C18_idempotent",
    "C18_other_top_level"
   ],
   "note": ""
  },
  {
   "property": "C19",
   "status": "proved",
   "theorems": [
    "C19_camel_inverts_snake",
    "C19_camel_injective",
    "C19_enum_names",
    "C19_one_letter_words_refuted"
   ],
   "note": "One-letter middle words are excluded (witness shows why); checksum algorithm spellings are under C42."
  },
  {
   "property": "C20",
   "status": "proved",
   "theorems": [
    "C20_first_occurrences",
    "C20_first_occurrences_unique",
    "C20_order_kept",
    "C20_nothing_lost_nothing_added",
    "C20_no_duplicates_left",
    "C20_identity_without_duplicates",
    "C20_documents",
    "C20_documents_idempotent"
   ],
   "note": ""
  },
  {
   "property": "C21",
   "status": "proved",
   "theorems": [
    "C21_deduplication_keeps_documents_valid"
   ],
   "note": ""
  },
  {
   "property": "C22",
   "status": "proved",
   "theorems": [
    "C22_verification_code",
    "C22_order_of_files_irrelevant",
    "C22_fails_only_for_missing_hashes"
   ],
   "note": "Excluded files play no role in the code: every given file is hashed; the statement was corrected."
  },
  {
   "property": "C23",
   "status": "proved",
   "theorems": [
    "C23_chunked_hashing"
   ],
   "note": ""
  },
  {
   "property": "C24",
   "status": "proved",
   "theorems": [
    "C24_lookup_sound",
    "C24_lookup_complete",
    "C24_lookup_exact_for_distinct_ids",
    "C24_type_lookup_agrees_for_distinct_ids",
    "C24_type_lookup_agrees_refuted"
   ],
   "note": "The agreement of the two lookups needs distinct ids; the unrestricted claim is refuted by a witness."
  },
  {
   "property": "C25",
   "status": "proved",
   "theorems": [
    "C25_internal_ids",
    "C25_external_ids",
    "C25_unknown_documents_rejected",
    "C25_injective"
   ],
   "note": ""
  },
  {
   "property": "C26",
   "status": "proved",
   "theorems": [
    "C26_by_type_and_target",
    "C26_by_type_and_origin",
    "C26_package_contains_file",
    "C26_file_contained_by_package"
   ],
   "note": ""
  },
  {
   "property": "C27",
   "status": "proved",
   "theorems": [
    "C27_format_of_file_name",
    "C27_other_names_rejected",
    "C27_reader",
    "C27_writer",
    "C27_no_format"
   ],
   "note": ""
  },
  {
   "property": "C28",
   "status": "proved",
   "theorems": [
    "C28_every_element_once"
   ],
   "note": "One section per element as a layout of the output; a file contained in several packages stands under the first of them, the other containments are written as relationships."
  },
  {
   "property": "C29",
   "status": "proved",
   "theorems": [
    "C29_lines_lex",
    "C29_written_value",
    "C29_written_text",
    "C29_written_checksum"
   ],
   "note": ""
  },
  {
   "property": "C30",
   "status": "proved",
   "theorems": [
    "C30_tag_value_round_trip",
    "C30_relationships",
    "C30_excluded_files_refuted",
    "C30_commented_containment_refuted",
    "C30_external_checksums_refuted",
    "C30_special_names_refuted"
   ],
   "note": "For the documents of the class TvDocument; normalisations are spelled out in TvSame (order of files, snippets, relationships; sorted contributors and cross references; empty texts). Four witnesses of valid documents outside the class that are changed or cannot be read."
  },
  {
   "property": "C31",
   "status": "proved",
   "theorems": [
    "C31_no_injection",
    "C31_end_mark_refuted",
    "C31_names_refuted"
   ],
   "note": "The unrestricted claims (end mark in a text; line break in a name) are refuted by witnesses."
  },
  {
   "property": "C32",
   "status": "proved",
   "theorems": [
    "C32_repeated_element_tag",
    "C32_repeated_document_tag",
    "C32_identifiers_refuted",
    "C32_message",
    "C32_document_message"
   ],
   "note": "Every text with a repeated tag is rejected; the exact message with its line number is stated for texts with this one mistake (for license tags: if the library can read the second expression). SPDXID is refuted by a witness."
  },
  {
   "property": "C33",
   "status": "proved",
   "theorems": [
    "C33_nodes",
    "C33_edges",
    "C33_type_nodes",
    "C33_type_nodes_are_no_elements",
    "C33_document_node",
    "C33_element_nodes",
    "C33_unknown_nodes",
    "C33_comments",
    "C33_coloring",
    "C33_comments_refuted"
   ],
   "note": ""
  },
  {
   "property": "C34",
   "status": "proved",
   "theorems": [
    "C34_failed_validation",
    "C34_streams",
    "C34_valid_documents",
    "C34_written",
    "C34_other_files",
    "C34_unwritable",
    "C34_file_untouched_refuted"
   ],
   "note": "The claim as users rely on it is refuted by a witness; the theorems say exactly what happens instead."
  },
  {
   "property": "C35",
   "status": "proved",
   "theorems": [
    "C35_claim",
    "C35_verdict",
    "C35_no_output",
    "C35_only_the_output_file",
    "C35_unsupported_version",
    "C35_messages",
    "C35_conversion",
    "C35_unread",
    "C35_named_exceptions"
   ],
   "note": "Reading RDF, encoders and decoders, the file system and drawing are parameters. The message 'The document is valid.' is the logging.info call."
  },
  {
   "property": "C36",
   "status": "proved",
   "theorems": [
    "C36_outcome",
    "C36_ill_called",
    "C36_well_typed",
    "C36_only_ill_typed",
    "C36_ill_typed_reported",
    "C36_ill_typed_list_reported",
    "C36_ill_typed_can_be_reported",
    "C36_list_items_refuted",
    "C36_setter",
    "C36_always_typed",
    "C36_relationship_entry"
   ],
   "note": "beartype's behaviour on the used hints is modelled, with its random choice of a list item as an argument. 'Every ill-typed field is listed' holds for fields without lists and for lists all of whose items are ill-typed; for other lists it is refuted by a witness."
  },
  {
   "property": "C37",
   "status": "proved",
   "theorems": [
    "C37_payload_is_a_map",
    "C37_payloads_are_separate",
    "C37_full_map",
    "C37_shared_dictionary",
    "C37_empty_dictionary_not_shared"
   ],
   "note": "Payload with the aliasing of the caller's dictionary: it is shared unless empty."
  },
  {
   "property": "C38",
   "status": "proved",
   "theorems": [
    "C38_forward",
    "C38_turned",
    "C38_no_target",
    "C38_dropped_types",
    "C38_dropped_turned",
    "C38_end_points",
    "C38_dependency_of",
    "C38_dependency_of_refuted",
    "C38_direction_of_dependencies_refuted"
   ],
   "note": "The claim is false for DEPENDENCY_OF (self loop) and for the other *_DEPENDENCY_OF types (direction not turned); exact behaviour proved for all types."
  },
  {
   "property": "C39",
   "status": "proved",
   "theorems": [
    "C39_alone",
    "C39_comments_kept",
    "C39_comments_kept_without_targets",
    "C39_targets_kept",
    "C39_merged",
    "C39_nothing_invented",
    "C39_nothing_kept",
    "C39_last_comment_refuted",
    "C39_own_id_refuted",
    "C39_none_group_refuted"
   ],
   "note": "Exact behaviour of the merging including the mutation of the last relationship of a group. The full claim is refuted in three ways."
  },
  {
   "property": "C40",
   "status": "proved",
   "theorems": [
    "C40_checksums",
    "C40_algorithms_distinct",
    "C40_licenses",
    "C40_licenses_distinct"
   ],
   "note": "License conversion is proved although bump_package does not call it for packages (C52_licenses_refuted)."
  },
  {
   "property": "C41",
   "status": "proved",
   "theorems": [
    "C41_internal_id",
    "C41_external_id",
    "C41_other_id"
   ],
   "note": "What rdflib does with URIs (fragment, shortening with a bound prefix) is a stated hypothesis about the library record."
  },
  {
   "property": "C42",
   "status": "proved",
   "theorems": [
    "C42_enum_names",
    "C42_checksum_algorithms"
   ],
   "note": "All members of all enumerations written as RDF."
  },
  {
   "property": "C43",
   "status": "proved",
   "theorems": [
    "C43_rdf_round_trip",
    "C43_homepage_none_refuted",
    "C43_copyright_text_refuted",
    "C43_blanks_refuted",
    "C43_empty_text_refuted",
    "C43_repetition_refuted",
    "C43_extracted_id_refuted",
    "C43_extracted_name_refuted"
   ],
   "note": "For the documents of the class RdfDocument (RdfSpec.v), any labels of blank nodes and any order of triples. Reading and writing RDF/XML text is done by rdflib and not modelled. Seven witnesses of valid documents outside the class that are changed or cannot be read."
  },
  {
   "property": "C44",
   "status": "proved",
   "theorems": [
    "C44_license_round_trip",
    "C44_same_meaning",
    "C44_nested_or_refuted",
    "C44_license_nodes"
   ],
   "note": "For expressions in disjunctive normal form; a disjunction inside a conjunction changes its meaning (witness). C44_license_nodes says with which URIs and classes expressions are written."
  },
  {
   "property": "C45",
   "status": "proved",
   "theorems": [
    "C45_written_iff",
    "C45_no_line_range_refuted"
   ],
   "note": "Exact iff for all documents with valid dates; the claim for all valid snippets is refuted by a witness."
  },
  {
   "property": "C46",
   "status": "proved",
   "theorems": [
    "C46_ranges_round_trip",
    "C46_ranges_accepted",
    "C46_ranges_rejected"
   ],
   "note": ""
  },
  {
   "property": "C47",
   "status": "proved",
   "theorems": [
    "C47_external_package_refs"
   ],
   "note": ""
  },
  {
   "property": "C48",
   "status": "proved",
   "theorems": [
    "C48_files_not_analyzed"
   ],
   "note": ""
  },
  {
   "property": "C49",
   "status": "proved",
   "theorems": [
    "C49_only_parsing_errors",
    "C49_malformed_not_read",
    "C49_malformed_relationship_refuted"
   ],
   "note": "Malformed relationships are characterised by the kinds of tokens that follow the tag. PLY's LALR driver is modelled by its token-level behaviour."
  },
  {
   "property": "C50",
   "status": "proved",
   "theorems": [
    "C50_json_files",
    "C50_yaml_files",
    "C50_tag_value_files",
    "C50_rdf_files",
    "C50_xml_files",
    "C50_xml_white_space_refuted"
   ],
   "note": "All five formats. XML: texts must be non-empty and without white space at their ends; that this is needed is C50_xml_white_space_refuted."
  },
  {
   "property": "C51",
   "status": "proved",
   "theorems": [
    "C51_package",
    "C51_file",
    "C51_snippet",
    "C51_extracted_license",
    "C51_relationship",
    "C51_annotation",
    "C51_creation_info",
    "C51_annotations",
    "C51_document"
   ],
   "note": "The license library may only raise its own expression error."
  },
  {
   "property": "C52",
   "status": "proved",
   "theorems": [
    "C52_packages",
    "C52_files",
    "C52_snippets",
    "C52_annotations",
    "C52_nothing_else",
    "C52_made_up_id_refuted",
    "C52_licenses_refuted"
   ],
   "note": "Made-up ids are those of relationships and annotations. The contents are those of PackageSays, FileSays, SnippetSays."
  },
  {
   "property": "C53",
   "status": "proved",
   "theorems": [
    "C53_document",
    "C53_elements_found",
    "C53_external_elements_refuted",
    "C53_one_document"
   ],
   "note": "End points of relationships: C38_end_points."
  },
  {
   "property": "C54",
   "status": "proved",
   "theorems": [
    "C54_creators_found",
    "C54_first_creator",
    "C54_same_id_refuted",
    "C54_no_others"
   ],
   "note": "Suppliers, originators and annotators: C52_packages and C52_annotations."
  },
  {
   "property": "C55",
   "status": "proved",
   "theorems": [
    "C55_succeeds_iff",
    "C55_internal_ids",
    "C55_valid_documents_refuted"
   ],
   "note": ""
  },
  {
   "property": "C56",
   "status": "proved",
   "theorems": [
    "C56_package",
    "C56_file",
    "C56_snippet",
    "C56_annotation",
    "C56_relationship",
    "C56_implied_relationship",
    "C56_extracted_license",
    "C56_license_expression",
    "C56_creation_info",
    "C56_document",
    "C56_written"
   ],
   "note": "Equivalences for all graphs. Libraries are assumed not to raise SPDXParsingError themselves (Foreign). Reading RDF/XML text into a graph is done by rdflib and not modelled."
  },
  {
   "property": "C57",
   "status": "proved",
   "theorems": [
    "C57_elements",
    "C57_entries",
    "C57_fails_only_on_dates",
    "C57_succeeds",
    "C57_words_distinct",
    "C57_ids_refuted"
   ],
   "note": "Holds for every document that the conversion accepts. Two entries may share their @id (C57_ids_refuted), because a merged relationship is stored under two keys (see C39)."
  },
  {
   "property": "C58",
   "status": "proved",
   "theorems": [
    "C58_blocks",
    "C58_fails_only_on_dates",
    "C58_succeeds",
    "C58_copyright_refuted"
   ],
   "note": "str(datetime) is a parameter. Fields that are never printed: C58_copyright_refuted."
  },
  {
   "property": "C59",
   "status": "proved",
   "theorems": [
    "C59_file_status",
    "C59_file",
    "C59_console_status",
    "C59_console",
    "C59_verdict",
    "C59_invalid",
    "C59_valid_claim",
    "C59_changed_files",
    "C59_input_kept",
    "C59_writes",
    "C59_default_version_refuted",
    "C59_stdout_refuted",
    "C59_unreadable"
   ],
   "note": "The file system, decoders and encoders are parameters. Expectations that do not hold are stated as _refuted theorems (default version, extra lines on stdout); C59_unreadable says that faults of reading are not caught."
  },
  {
   "property": "C60",
   "status": "proved",
   "theorems": [
    "C60_saved_again",
    "C60_actors_refuted",
    "C60_external_annotations_refuted"
   ],
   "note": "That the license library reads its own texts is a hypothesis about the licenses of the document (LicensesRead). The two other conditions are shown to be needed by _refuted theorems."
  },
  {
   "property": "C61",
   "status": "proved",
   "theorems": [
    "C61_json_like",
    "C61_to_tag_value",
    "C61_to_rdf",
    "C61_to_xml"
   ],
   "note": "Encoders and decoders are parameters that must be inverse on the written value. The conditions for tag-value, RDF and XML are those of C30, C43 and C50."
  },
  {
   "property": "C62",
   "status": "proved",
   "theorems": [
    "C62_exactly_what_it_says",
    "C62_one_document",
    "C62_kinds_of_values"
   ],
   "note": "Texts of attributes with values of the right kinds (Attributes in TvTokSpec.v), spelled as in Spelled. Dates, actors, versions and license expressions are read by the shared helpers, which have their own properties."
  },
  {
   "property": "C63",
   "status": "proved",
   "theorems": [
    "C63_every_text",
    "C63_every_file",
    "C63_taken_once",
    "C63_nothing_passed_over",
    "C63_line_ends",
    "C63_unknown_tag_refuted",
    "C63_package_lost_refuted",
    "C63_relationship_lost_refuted",
    "C63_message_lost_refuted"
   ],
   "note": "An exact characterisation for all texts. The four refuted theorems are witnesses that what Taken passes over is lost without a message. The recovery of ply is modelled as far as this grammar reaches it."
  },
  {
   "property": "C64",
   "status": "proved",
   "theorems": [
    "C64_saved_as_json",
    "C64_saved_as_tag_value",
    "C64_converted_to_json",
    "C64_converted_to_tag_value",
    "C64_copyrights_refuted",
    "C64_texts_refuted",
    "C64_codes_refuted",
    "C64_actors_refuted"
   ],
   "note": "The conditions are in TvResaveSpec.v; the refuted theorems are witnesses that documents which violate them are changed by saving."
  },
  {
   "property": "C65",
   "status": "proved",
   "theorems": [
    "C65_outcome",
    "C65_well_typed",
    "C65_ill_called",
    "C65_abstract",
    "C65_setter",
    "C65_always_typed",
    "C65_signature",
    "C65_assessments_refuted",
    "C65_required_refuted",
    "C65_items_refuted"
   ],
   "note": "Which item of a list or dictionary the type checker looks at is an argument of the model, and whether it looks at items of dictionaries at all. The refuted theorems are about signatures, names and items."
  },
  {
   "property": "C66",
   "status": "proved",
   "theorems": [
    "C66_saved_as_json",
    "C66_saved_as_rdf",
    "C66_saved_as_tag_value",
    "C66_converted_to_json",
    "C66_converted_to_rdf",
    "C66_converted_to_tag_value",
    "C66_copyrights_refuted",
    "C66_blanks_refuted",
    "C66_actors_refuted"
   ],
   "note": "The conditions are in RdfResaveSpec.v; the refuted theorems are witnesses that documents which violate some of them are changed by saving."
  },
  {
   "property": "C67",
   "status": "proved",
   "theorems": [
    "C67_constructed",
    "C67_converted",
    "C67_converted_elements",
    "C67_written",
    "C67_can_be_written",
    "C67_cause",
    "C67_fields",
    "C67_keys",
    "C67_every_field_has_a_key",
    "C67_words",
    "C67_payload",
    "C67_dictionaries_refuted",
    "C67_false_refuted"
   ],
   "note": "The refuted theorems are about dictionaries that are not empty and about values that are False or 0."
  },
  {
   "property": "C68",
   "status": "proved",
   "theorems": [
    "C68_shown",
    "C68_succeeds",
    "C68_fails",
    "C68_converted",
    "C68_datasets_refuted",
    "C68_classes_refuted",
    "C68_copyright_refuted"
   ],
   "note": "The refuted theorems are about data sets with types, classes without layout and the copyright of packages."
  },
  {
   "property": "C69",
   "status": "proved",
   "theorems": [
    "C69_definitions",
    "C69_one_winner",
    "C69_terms",
    "C69_reported",
    "C69_succeeds",
    "C69_file",
    "C69_shipped",
    "C69_order_refuted",
    "C69_last_refuted"
   ],
   "note": "C69_shipped is a computation on the files of the repository. The refuted theorems are about the order of the nodes."
  },
  {
   "property": "C70",
   "status": "proved",
   "theorems": [
    "C70_objects",
    "C70_converted",
    "C70_terms_differ",
    "C70_one_meaning",
    "C70_words",
    "C70_words_differ",
    "C70_enumerations",
    "C70_literals",
    "C70_references",
    "C70_homepage_refuted",
    "C70_build_refuted",
    "C70_sha3_refuted"
   ],
   "note": "Expansion of IRIs by a JSON-LD processor is specified in MeaningSpec.v; other parts of JSON-LD are not. The refuted theorems are about homepages, the words build and SHA3 algorithms; the fixed list is unknown_words."
  },
  {
   "property": "C71",
   "status": "proved",
   "theorems": [
    "C71_messages",
    "C71_contexts",
    "C71_parent_refuted"
   ],
   "note": "repr of lists, verification codes, licenses and relationships is an oracle. C71_parent_refuted is about annotators."
  },
  {
   "property": "C72",
   "status": "proved",
   "theorems": [
    "C72_report",
    "C72_beginning",
    "C72_tool",
    "C72_lost",
    "C72_kept",
    "C72_silent",
    "C72_silent_loss_refuted",
    "C72_relationships_refuted"
   ],
   "note": "The traceback that logging prints for contradicting completeness (a malformed call) is not modelled. The refuted theorems give valid documents whose differences are lost without report."
  },
  {
   "property": "C73",
   "status": "proved",
   "theorems": [
    "C73_outside_of_its_element",
    "C73_wrong_value",
    "C73_wrong_header",
    "C73_unfit_header",
    "C73_unfit",
    "C73_unfit_identifier_ignored",
    "C73_unknown_tag",
    "C73_unknown_tag_ignored"
   ],
   "note": "For the listed kinds of mistake. Not covered: values of another kind at a tag that begins an element, unreadable license expressions and relationships. C73_unfit_identifier_ignored and C73_unknown_tag_ignored are the two kinds of line that the code drops without a message."
  },
  {
   "property": "C74",
   "status": "proved",
   "theorems": [
    "C74_package",
    "C74_file",
    "C74_snippet",
    "C74_creation_info",
    "C74_creators",
    "C74_document_reference",
    "C74_relationship",
    "C74_annotation",
    "C74_element_annotation",
    "C74_package_reference"
   ],
   "note": "For the listed kinds of wrong value. Not covered: values of a wrong type and missing required fields (the text that beartype writes is not modelled, see Construct.v), and wrong dates (the text of strptime's ValueError is simplified)."
  },
  {
   "property": "C75",
   "status": "proved",
   "theorems": [
    "C75_package",
    "C75_file",
    "C75_annotation",
    "C75_relationship",
    "C75_creation_info",
    "C75_package_checksum",
    "C75_file_checksum",
    "C75_package_reference",
    "C75_all_reported",
    "C75_snippet",
    "C75_extracted_license",
    "C75_creator",
    "C75_document_reference_refuted"
   ],
   "note": "For the listed properties, which only one function of the reader asks for. Not covered: properties shared by several kinds of node (name, comment, copyrightText, licenseComments, licenseConcluded), license expressions, and missing required values; of extracted licenses only the text is covered. The text of strptime's ValueError is simplified in the model. C75_document_reference_refuted shows that a wrong checksum of an external document reference does not give the message that names it."
  }
 ]
}