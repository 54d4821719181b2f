{"claims": [
 {"property": "C01", "status": "proved", "theorems": ["C01_round_trip", "C01_write_read_write", "C01_untrimmed_refuted", "C01_document_snippets_refuted"], "note": "Unbounded round trip for every representable document; line-length limit of the scanner is an explicit hypothesis; two refutations show why the conditions are needed."},
 {"property": "C02", "status": "proved", "theorems": ["C02_read_total", "C02_parse_total", "C02_parse_empty_refuted"], "note": "no panic for any byte string; the version specific parsers return a nil document for an empty pair list, which ReadInto guards against"},
 {"property": "C03", "status": "proved", "theorems": ["C03_print_read", "C03_trimmed", "C03_padded"], "note": "tokenizer round trip; white space around tags and values, in terms of Unicode characters"},
 {"property": "C04", "status": "proved", "theorems": ["C04_comment_or_blank_line", "C04_text_block_verbatim", "C04_concatenation", "C04_disregarded"], "note": "comments and blank lines, in terms of Unicode characters"},
 {"property": "C05", "status": "proved", "theorems": ["C05_accepts_exactly", "C05_malformed_rejected", "C05_no_colon", "C05_unterminated_block", "C05_long_line", "C05_no_panic"], "note": "exact grammar"},
 {"property": "C06", "status": "proved", "theorems": ["C06_accepted_tags", "C06_unknown_rejected", "C06_vocabulary_usable"], "note": "vocabulary per version, rejection at any position, and usability of each tag"},
 {"property": "C07", "status": "proved", "theorems": ["C07_well_formed"], "note": "invariant over all pair sequences"},
 {"property": "C08", "status": "proved", "theorems": ["C08_document_level", "C08_counts", "C08_order"], "note": "full declarative content of all document-level elements, plus counts and order"},
 {"property": "C09", "status": "proved", "theorems": ["C09_element_id_exact", "C09_doc_element_id_exact", "C09_special_exact", "C09_render_element_id", "C09_render_doc_element_id", "C09_render_special", "C09_made", "C09_made_special", "C09_special_left_refuted"], "note": "exact accepted language and round trip; the references made by MakeDocElementID and MakeDocElementSpecial are those that are read"},
 {"property": "C10", "status": "proved", "theorems": ["C10_dispatch", "C10_only", "C10_rejects"], "note": "version dispatch"},
 {"property": "C11", "status": "proved", "theorems": ["C11_canonical", "C11_idempotent", "C11_equal_ids_refuted"], "note": "Any two correct sort functions; identifiers distinct. Refuted for equal identifiers."},
 {"property": "C12", "status": "proved", "theorems": ["C12_only_reorders", "C12_failure"], "note": ""},
 {"property": "C13", "status": "proved", "theorems": ["C13_element_id_round_trip", "C13_document_id_round_trip", "C13_reference_round_trip", "C13_element_id_exact", "C13_document_id_exact", "C13_reference_exact", "C13_reference_refused", "C13_empty_refuted", "C13_prefixed_refuted", "C13_reference_reused", "C13_reused_refuted"], "note": "Round trip and exact acceptance on literals without quotation marks; empty and already prefixed identifiers refuted. What a reference read into a variable in use becomes is C13_reference_reused."},
 {"property": "C14", "status": "proved", "theorems": ["C14_creator_round_trip", "C14_annotator_round_trip", "C14_supplier_round_trip", "C14_originator_round_trip", "C14_creator_exact", "C14_annotator_exact", "C14_supplier_exact", "C14_originator_exact", "C14_refused", "C14_html_refuted", "C14_reused_refuted"], "note": "Round trips, exact acceptance and refusal; names with HTML characters are refuted under the default escaping. NOASSERTION read into a supplier or originator in use keeps its type."},
 {"property": "C15", "status": "proved", "theorems": ["C15_completion", "C15_completes_facts", "C15_has_files", "C15_collision_refuted"], "note": "Exact completion for relationships whose identifiers have no '>' and types no '-' or '>'; without that the map keys collide, which is refuted."},
 {"property": "C16", "status": "proved", "theorems": ["C16_files_analyzed", "C16_files_analyzed_absent", "C16_category_read", "C16_category_normal", "C16_category_round_trip"], "note": "2.2 and 2.3; 2.1 has no hooks."},
 {"property": "C17", "status": "proved", "theorems": ["C17_code", "C17_fails_iff_nil", "C17_multiset", "C17_order", "C17_exclusion", "C17_sensitive", "C17_sensitive_any_length_refuted"], "note": "Verification code is SHA1 of the sorted SHA1 list of all non-excluded files; fails iff a nil file is met; depends only on the multiset; equal codes for equal-length digests only by equal multisets or a hash collision, refuted for arbitrary lengths"},
 {"property": "C18", "status": "proved", "theorems": ["C18_should_ignore", "C18_monotone", "C18_component", "C18_nonempty_patterns_refuted"], "note": "should_ignore is characterised by the declarative matches relation; monotone in the pattern list; refuted: an empty pattern ignores everything"},
 {"property": "C19", "status": "proved", "theorems": ["C19_enumeration", "C19_total", "C19_location"], "note": "File enumeration: exactly the non-ignored regular files, sorted in walk order; fails exactly on unreadable trees; independent of where the root is"},
 {"property": "C20", "status": "proved", "theorems": ["C20_validate", "C20_message", "C20_strict_refuted", "C20_special_rejected"], "note": "ValidateDocument accepts iff every relationship end names a known element; stricter readings refuted; the error names the first dangling identifier"},
 {"property": "C21", "status": "proved", "theorems": ["C21_described", "C21_multiplicity", "C21_filter", "C21_sort", "C21_deterministic", "C21_package_ids_refuted"], "note": "GetDescribedPackageIDs returns the sorted described ids; deterministic; refuted: ids need not be packages"},
 {"property": "C22", "status": "proved", "theorems": ["C22_pairs", "C22_classes", "C22_partition", "C22_presence_refuted"], "note": "licensediff pairs and classes; classes partition the files; refuted: empty licenses are misclassified"},
 {"property": "C23", "status": "proved", "theorems": ["C23_report", "C23_total", "C23_order"], "note": "reporter counts"},
 {"property": "C24", "status": "proved", "theorems": ["C24_build", "C24_values", "C24_nothing_else", "C24_total", "C24_identifier_syntax_refuted"], "note": "builder"},
 {"property": "C25", "status": "proved", "theorems": ["C25_individual", "C25_file", "C25_document", "C25_anchored_patterns_inert", "C25_no_empty_operand_refuted"], "note": "idsearcher: identifiers per file, individual licenses, package union; findings: anchored ignore patterns inert, empty operand"},
 {"property": "C26", "status": "proved", "theorems": ["C26_terminates", "C26_exact", "C26_accepts", "C26_cycle", "C26_restores", "C26_deterministic", "C26_brackets_refuted", "C26_operators"], "note": "RDF license graphs: termination, exact text, exact acceptance, cycles rejected. Findings: no brackets, operators dropped."},
 {"property": "C27", "status": "proved", "theorems": ["C27_last_part", "C27_relationship_type", "C27_algorithm", "C27_file_type", "C27_bool", "C27_purpose", "C27_reference", "C27_license_name", "C27_kind_name", "C27_package_actor", "C27_location", "C27_annotation_type", "C27_file_identifier", "C27_purpose_uri_refuted", "C27_special_reference_refuted", "C27_new_algorithms_refuted"], "note": "Each value helper equals its specification; vocabulary gaps refuted."},
 {"property": "C28", "status": "proved", "theorems": ["C28_files_distinct", "C28_files_apart", "C28_packages_once_refuted", "C28_read_once_refuted"], "note": "Identifier bookkeeping of files; the package-once and read-once readings are refuted."},
 {"property": "C29", "status": "proved", "theorems": ["C29_no_injection", "C29_any_value_refuted"], "note": "Proved under the stated condition on printed values; the unconditional claim is refuted."},
 {"property": "C30", "status": "proved", "theorems": ["C30_actor", "C30_checksum", "C30_checksum_only", "C30_external_document_ref", "C30_external_ref", "C30_verification_code", "C30_verification_code_excludes", "C30_range", "C30_relationship", "C30_two_excludes_refuted"], "note": "sub-formats"},
 {"property": "C31", "status": "proved", "theorems": ["C31_round_trip", "C31_any_order"], "note": "On JSON values with raw literals; any member order."},
 {"property": "C32", "status": "proved", "theorems": ["C32_unknown_members"], "note": "Document level."},
 {"property": "C33", "status": "proved", "theorems": ["C33_checksum", "C33_annotation", "C33_creation_info", "C33_review", "C33_artifact", "C33_external_ref", "C33_verification_code", "C33_verification_again", "C33_external_document", "C33_other_license"], "note": "exact characterisation, both directions"},
 {"property": "C34", "status": "proved", "theorems": ["C34_terminates", "C34_panic", "C34_order", "C34_untyped_root_panics", "C34_no_panic_refuted"], "note": "Termination, panic causes and independence of map order of the whole RDF reader."},
 {"property": "C35", "status": "proved", "theorems": ["C35_content", "C35_single_values", "C35_single_package_values", "C35_read_total", "C35_read_version", "C35_read_carried", "C35_read"], "note": "For graphs in which no ID has two roles and identifiers tell elements apart (the reader's caches are keyed by them). Repeated reading of a node is part of the specification (again). C35_read_* are the public reader, with the conversion of C40."},
 {"property": "C36", "status": "proved", "theorems": ["C36_read", "C36_unambiguous", "C36_no_panic"], "note": "JSON values without ambiguous members; nil entries of pointer lists other than packages are outside the model."},
 {"property": "C37", "status": "proved", "theorems": ["C37_written", "C37_written_safe", "C37_accepted", "C37_spelling"], "note": "The value encoded by the writer; its text is the compact JSON text of encoding/json."},
 {"property": "C38", "status": "proved", "theorems": ["C38_read", "C38_read_text", "C38_unambiguous", "C38_two_identifiers_refuted", "C38_empty_name_refuted", "C38_same_snippet_refuted"], "note": "the document returned for an accepted text is the one the text describes; irregular inputs (two identifiers, empty package name, repeated snippet identifier) are shown to break it"},
 {"property": "C39", "status": "proved", "theorems": ["C39_accepts", "C39_rejects", "C39_exact", "C39_text", "C39_text_exact", "C39_empty_name_refuted"], "note": "acceptance is characterised in both directions, on pairs and on bytes; empty package names are excluded and shown to break it"},
 {"property": "C40", "status": "proved", "theorems": ["C40_total", "C40_carried", "C40_new", "C40_version", "C40_same", "C40_round_trip", "C40_upgrade", "C40_downgrade", "C40_read_total", "C40_read_carried", "C40_read", "C40_empty_entry_refuted", "C40_no_code_refuted", "C40_back_and_forth_refuted", "C40_comes_along", "C40_read_filled", "C40_empty_created_refuted"], "note": "Conversion between versions, for both readings of the library on pointers to zero values; go-struct-converter modelled from its documentation; for documents read from tag-value text the condition on empty structures is spelled out and shown exact"},
 {"property": "C41", "status": "proved", "theorems": ["C41_accepted", "C41_described", "C41_unambiguous", "C41_white_space", "C41_literals", "C41_every_literal", "C41_integers", "C41_names", "C41_written", "C41_written_safe", "C41_writable", "C41_layout", "C41_round_trip", "C41_rewritten", "C41_read_total", "C41_read_carried", "C41_read_same", "C41_read", "C41_large_number_refuted", "C41_indent_refuted", "C41_options", "C41_layout_inert", "C41_options_writable", "C41_options_round_trip", "C41_escape_refuted"], "note": "The text layer of encoding/json is modelled from its documentation and RFC 8259. A hook called on an array or object sees it without inner white space."},
 {"property": "C42", "status": "proved", "theorems": ["C42_json", "C42_json_exactly", "C42_tag", "C42_tag_determined", "C42_to_json", "C42_to_tag", "C42_there_and_back", "C42_nil_pointer", "C42_nil_free", "C42_lossless_refuted", "C42_panics_refuted"], "note": "What survives each format, and the composed conversions; losslessness and absence of panics refuted"},
 {"property": "C43", "status": "proved", "theorems": ["C43_build_tag", "C43_search_tag", "C43_build_json", "C43_search_json", "C43_search_tag_trimmed_refuted"], "note": "Needs file names, package name and configuration that fit on one line (tag-value) or are UTF-8 (JSON), and hash functions that print hexadecimal digits. The search result survives tag-value only if no concluded license has white space around it; C43_search_tag_trimmed_refuted shows that this cannot be dropped."},
 {"property": "C44", "status": "proved", "theorems": ["C44_reload", "C44_reload_same", "C44_save_refuted", "C44_load_refuted", "C44_clean_refuted"], "note": "For texts in which no element is described twice (regular, as in C38) and whose values are clean in the sense of SpecReload."},
 {"property": "C45", "status": "proved", "theorems": ["C45_json", "C45_tag", "C45_json_broken", "C45_tag_broken", "C45_tag_stuck", "C45_tag_refuted"], "note": "JSON and tag-value readers over every division of the text into pieces and every failure; the 65536 byte last line is the proved exception"},
 {"property": "C46", "status": "proved", "theorems": ["C46_json", "C46_json_refused", "C46_tag", "C46_tag_silent", "C46_tag_refuted"], "note": "JSON: an error or the complete text; tag-value: complete text if no call is refused, but failures are never reported (refuted)"},
 {"property": "C47", "status": "proved", "theorems": ["C47_json", "C47_json_read", "C47_json_saved", "C47_tag", "C47_tag_refuted"], "note": "JSON beginnings are rejected; tag-value beginnings give the first elements; the latter are not recognised (refuted)"},
 {"property": "C48", "status": "proved", "theorems": ["C48_text", "C48_refused", "C48_repeated", "C48_packages", "C48_packages_21", "C48_taken_back", "C48_moved", "C48_spelling_refuted", "C48_order_refuted", "C48_repeated_refuted", "C48_mixed_refuted"], "note": "Values without two members of the same name (in any letter case) in one object; the values parsed from their bytes must be the same, which two refutations show to be necessary; for two lists of elements in front C48_repeated says what is read (C48_packages and C48_packages_21 for packages), and for a part followed by a null of its name C48_taken_back does; C48_moved brings repeated members of a document next to each other"},
 {"property": "C49", "status": "proved", "theorems": ["C49_read", "C49_like_json", "C49_no_panic", "C49_round_trip", "C49_json", "C49_writable", "C49_pieces", "C49_broken", "C49_written", "C49_refused"], "note": "For arbitrary conversions; the round trip needs the conversions to carry the value of the document at hand"},
 {"property": "C50", "status": "proved", "theorems": ["C50_reload", "C50_reload_same", "C50_missing_refuted", "C50_growing_refuted"], "note": "any JSON text that is loaded; two refuted sub-statements show why identifiers must be ordinary"},
 {"property": "C51", "status": "proved", "theorems": ["C51_text", "C51_unanalyzed", "C51_readable", "C51_silent", "C51_accepted", "C51_prefix", "C51_error_refuted", "C51_readable_refuted", "C51_lines_refuted", "C51_panics_refuted", "C51_text_refuted"], "note": "text of a report through a model of text/tabwriter, also for licenses with paired bytes 0xff; five refuted statements"},
 {"property": "C52", "status": "proved", "theorems": ["C52_alone", "C52_sorted", "C52_after_one", "C52_writes", "C52_unsorted_refuted"], "note": "RenderDocument as interleaved memory accesses; refuted for unsorted documents"},
 {"property": "C53", "status": "proved", "theorems": ["C53_convert", "C53_convert_any", "C53_convert_other", "C53_convert_nil", "C53_read_into", "C53_read_into_same", "C53_write", "C53_write_only", "C53_write_nil", "C53_limit", "C53_limit_panics", "C53_describe", "C53_write_other", "C53_write_panics_refuted"], "note": "arguments of convert.Document, ReadInto, tagvalue.Write and convert.Describe; one refuted statement"},
 {"property": "C54", "status": "proved", "theorems": ["C54_ways", "C54_once", "C54_once_package", "C54_exponential"], "note": "Ways enter no file, package or relationship twice; graphs with repeated statements or repeated root nodes are outside the statement. C54_exponential: 6k + 13 statements give at least 2^k relationships, for every k and both readers."},
 {"property": "C55", "status": "proved", "theorems": ["C55_reads_exactly", "C55_refuses"], "note": "Both directions, for every graph that is consistent (as in C35). C55_refuses: what is not readable is an error. The order of the offsets and lines within one pointer node matters, because the last one counts (SpecRdfContent.v, pointer_says)."},
 {"property": "C56", "status": "proved", "theorems": ["C56_json", "C56_json_no_panic", "C56_tag", "C56_rdf_tag", "C56_rdf_json", "C56_text_json", "C56_text_json_refuted", "C56_rdf_json_refuted", "C56_none_refuted"], "note": "Exact conditions for saving any document as JSON and as tag-value text; C56_rdf_* for documents read from RDF graphs, C56_text_json for those read from tag-value text. The *_refuted theorems show that being readable is not enough for JSON, and that NONE becomes an element."},
 {"property": "C57", "status": "proved", "theorems": ["C57_diff", "C57_diff_runs", "C57_diff_determined", "C57_diff_total", "C57_diff_swap", "C57_diff_self", "C57_report", "C57_report_runs", "C57_report_file", "C57_report_file_ends", "C57_diff_files", "C57_diff_files_ends", "C57_once_refuted", "C57_report_all_refuted"], "note": "What the programs print, from their arguments on; that every described package is reported or compared once is refuted"},
 {"property": "C58", "status": "proved", "theorems": ["C58_ends", "C58_usage", "C58_loaded", "C58_broken_input", "C58_load_save", "C58_again", "C58_json_to_tag", "C58_tag_to_json", "C58_yaml_to_tag", "C58_tag_to_yaml", "C58_saved_json", "C58_saved_yaml", "C58_record", "C58_calm", "C58_breaks_off", "C58_saved_tag_refuted", "C58_in_place_refuted", "C58_null_refuted", "C58_empty_license_refuted"], "note": "What does not hold: 'saved' with a full disk and tag-value text, keeping the input when it is also the output, and saying what went wrong at a null in a JSON list or an empty license of 2.2. YAML conversion is a parameter."},
 {"property": "C59", "status": "proved", "theorems": ["C59_ends", "C59_usage", "C59_built", "C59_saved", "C59_search_saved", "C59_search_ignored_refuted", "C59_again_refuted"], "note": "Both programs, for every tree, machine and arguments. What is read back is stated for package names fit to be identifiers, one-line paths and, for the search, comments that are not empty (C43)."},
 {"property": "C60", "status": "proved", "theorems": ["C60_load", "C60_load_ends", "C60_json", "C60_yaml", "C60_rdf", "C60_rdf_ends", "C60_rdf_breaks_off_refuted", "C60_ends", "C60_broken_input", "C60_usage", "C60_version_refuted"], "note": "The text printed is specified package by package (SpecLoaders.v). False as one might read the programs: the version printed is the one in the file (C60_version_refuted); the RDF program never breaks off (C60_rdf_breaks_off_refuted)."},
 {"property": "C61", "status": "proved", "theorems": ["C61_tag_value", "C61_json", "C61_to_json", "C61_to_tag_value", "C61_there_and_back", "C61_rdf", "C61_read", "C61_read_json", "C61_version", "C61_names_refuted"], "note": "Helpers before and after saving, loading and converting; for what the formats and versions can represent"}
]}
