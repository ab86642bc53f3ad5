{
 "claims": [
  {
   "property": "C01",
   "status": "proved",
   "theorems": [
    "C01_eol_stream",
    "C01_eol_memory",
    "C01_split_independent",
    "C01_undeclared_stream",
    "C01_undeclared_memory"
   ],
   "note": "every byte-wise encoding, both routes, every splitting; multibyte encodings are C04"
  },
  {
   "property": "C02",
   "status": "proved",
   "theorems": [
    "C02_hash_any_time",
    "C02_hash_stream",
    "C02_hash_memory"
   ],
   "note": ""
  },
  {
   "property": "C03",
   "status": "partial",
   "theorems": [
    "C03_declared_wins",
    "C03_detect_partial",
    "C03_utf8_bom_stream_partial",
    "C03_utf8_bom_memory",
    "C03_bom_only_read_refuted",
    "C03_bom_split_refuted",
    "C03_latin1_bom_refuted",
    "C03_utf32le_refuted"
   ],
   "note": "refuted: first read exactly a UTF-8 mark (out-of-range access), mark split over reads, UTF-32LE mark, latin-1 declared with UTF-8 mark; proved otherwise"
  },
  {
   "property": "C04",
   "status": "partial",
   "theorems": [
    "C04_whole_characters_partial",
    "C04_split_character_refuted",
    "C04_file_refuted",
    "C04_incomplete_first_read_refuted"
   ],
   "note": "refuted: a character split over reads ends the input; proved when reads end between characters"
  },
  {
   "property": "C05",
   "status": "partial",
   "theorems": [
    "C05_escaped_partial",
    "C05_value_unique",
    "C05_no_raw",
    "C05_nul_refuted"
   ],
   "note": "proved for NUL-free text; refuted for text with a NUL byte"
  },
  {
   "property": "C06",
   "status": "proved",
   "theorems": [
    "C06_escape_round_trip",
    "C06_escape_form"
   ],
   "note": "all 256 bytes, both char signednesses"
  },
  {
   "property": "C07",
   "status": "proved",
   "theorems": [
    "C07_number",
    "C07_attributes"
   ],
   "note": ""
  },
  {
   "property": "C08",
   "status": "partial",
   "theorems": [
    "C08_text",
    "C08_written_partial",
    "C08_cancelled_refuted",
    "C08_macro_refuted"
   ],
   "note": "token text proved for every program and every input; the document written proved unless a statement is cancelled against a wrong token or an exception leaves a macro call; both refuted otherwise"
  },
  {
   "property": "C09",
   "status": "partial",
   "theorems": [
    "C09_balance_partial",
    "C09_nested_partial",
    "C09_ended_in_guess_refuted",
    "C09_added_refuted",
    "C09_left_open_refuted"
   ],
   "note": "proved for all runs without a logged fault; balance also with comment and outer faults; each other fault refuted by a run"
  },
  {
   "property": "C10",
   "status": "partial",
   "theorems": [
    "C10_supported",
    "C10_transparent",
    "C10_unwind_to",
    "C10_unwind_not",
    "C10_unwind_over",
    "C10_unwind_set",
    "C10_unwind_while",
    "C10_bottom_kept",
    "C10_unwind_tags",
    "C10_spread_refuted",
    "C10_hidden_refuted",
    "C10_scope",
    "C10_new_mode",
    "C10_previous_kept"
   ],
   "note": "queries and unwinding for every reachable stack; refuted for sets of modes spread over states and for modes hidden by clearMode"
  },
  {
   "property": "C11",
   "status": "proved",
   "theorems": [
    "C11_last_registration",
    "C11_no_extension",
    "C11_extension_unique",
    "C11_accepted",
    "C11_rejected"
   ],
   "note": ""
  },
  {
   "property": "C12",
   "status": "partial",
   "theorems": [
    "C12_public_options",
    "C12_range",
    "C12_internal_settings_partial",
    "C12_set_options_refuted"
   ],
   "note": "public options proved for all histories; solitary/hash proved for histories without set_options and refuted with it"
  },
  {
   "property": "C13",
   "status": "partial",
   "theorems": [
    "C13_macro_list_partial",
    "C13_accepted",
    "C13_wrap_refuted"
   ],
   "note": "proved for positions below 2^63; refuted at 2^63, where the index wraps"
  },
  {
   "property": "C14",
   "status": "partial",
   "theorems": [
    "C14_each_uri_once",
    "C14_latest_prefix",
    "C14_position",
    "C14_positions_stable",
    "C14_prefix_position_partial",
    "C14_prefix_end_refuted",
    "C14_by_prefix",
    "C14_feature_options"
   ],
   "note": "proved except get_namespace_prefix at position = size, an out-of-range read (refuted)"
  },
  {
   "property": "C15",
   "status": "proved",
   "theorems": [
    "C15_uris",
    "C15_no_duplicates",
    "C15_flags_only_added",
    "C15_user_prefix_kept",
    "C15_user_prefix_taken",
    "C15_other_uris",
    "C15_idempotent",
    "C15_flags_dropped"
   ],
   "note": "also shown: flags offered for a URI whose prefix the user changed are dropped"
  },
  {
   "property": "C16",
   "status": "proved",
   "theorems": [
    "C16_same",
    "C16_equivalence",
    "C16_normalize",
    "C16_canonical"
   ],
   "note": "an unprefixed suffix also compares equal, as the code has it"
  },
  {
   "property": "C17",
   "status": "partial",
   "theorems": [
    "C17_archive_attributes",
    "C17_tabstop",
    "C17_srcdiff_revision",
    "C17_archive_rejected",
    "C17_null_archive",
    "C17_unit_attributes",
    "C17_unit_eol",
    "C17_unit_rejected",
    "C17_processing_instruction",
    "C17_null_pi_refuted"
   ],
   "note": "proved for every setter but set_processing_instruction, which dereferences a null argument (refuted)"
  },
  {
   "property": "C18",
   "status": "proved",
   "theorems": [
    "C18_precedence",
    "C18_number",
    "C18_unknown_hides"
   ],
   "note": "an unknown unit language is not replaced by the archive's (shown)"
  },
  {
   "property": "C19",
   "status": "partial",
   "theorems": [
    "C19_line_endings",
    "C19_lines_exist",
    "C19_auto_unchanged",
    "C19_back",
    "C19_memory_partial",
    "C19_memory_nul_refuted"
   ],
   "note": "proved for all texts; the memory route is refuted for texts with a NUL byte"
  },
  {
   "property": "C20",
   "status": "partial",
   "theorems": [
    "C20_solo_refuted",
    "C20_loc_written",
    "C20_loc_read_partial",
    "C20_cdata_refuted",
    "C20_reader_stream_partial",
    "C20_reader_memory_partial",
    "C20_reader_empty_refuted"
   ],
   "note": "proved for written units, for documents srcML generates, for archive units read and for the count kept while the source is read; refuted for CDATA sections, for the lines before the first element of a lone unit and for the reader's count of an empty source"
  },
  {
   "property": "C21",
   "status": "partial",
   "theorems": [
    "C21_parsed_unit",
    "C21_element_unit",
    "C21_first_attribute",
    "C21_url_in_filename_refuted",
    "C21_no_declaration_refuted",
    "C21_tag_settings"
   ],
   "note": "exact for every parsed or by-element unit whose archive declares namespaces; outer form for units where no other value contains ' url='; both exceptions refuted"
  },
  {
   "property": "C22",
   "status": "partial",
   "theorems": [
    "C22_by_element_partial",
    "C22_refused_outside",
    "C22_end_refused_outside",
    "C22_text_read_back",
    "C22_value_read_back",
    "C22_extra_end_refused",
    "C22_over_close_refuted",
    "C22_unit_attribute_refuted",
    "C22_empty_name_refuted",
    "C22_constant_text_refuted",
    "C22_refused_attribute_refuted"
   ],
   "note": "all histories of proper calls; the improper ones (over-closing, attributes on the unit, empty names, quoted constants, refused namespaced attribute) are refuted one by one"
  },
  {
   "property": "C23",
   "status": "partial",
   "theorems": [
    "C23_document",
    "C23_settings",
    "C23_solitary_partial",
    "C23_parsed_units",
    "C23_strings",
    "C23_solitary_refuted"
   ],
   "note": "exact documents for every history in which nothing was written before, all options; a solitary archive with two units or none is refuted"
  },
  {
   "property": "C24",
   "status": "partial",
   "theorems": [
    "C24_mode",
    "C24_write_refused",
    "C24_read_refused",
    "C24_read_in_order",
    "C24_string_unopened_refuted",
    "C24_file_not_created_refuted",
    "C24_not_created",
    "C24_missing_input"
   ],
   "note": "proved for units in all histories; refuted: strings on an unopened archive, a file that could not be created"
  },
  {
   "property": "C25",
   "status": "partial",
   "theorems": [
    "C25_once_queued",
    "C25_in_order_partial",
    "C25_all_written_partial",
    "C25_never_stuck_partial",
    "C25_bounded",
    "C25_can_finish_partial",
    "C25_no_threads_refuted",
    "C25_no_threads_stuck_refuted",
    "C25_exit_refuted"
   ],
   "note": "all interleavings, any inputs and failures, at least one parsing thread; refuted with -j 0 (nothing written, or stuck) and when a parse reports an invalid argument (the process exits with earlier inputs unwritten)"
  },
  {
   "property": "C26",
   "status": "partial",
   "theorems": [
    "C26_limit_partial",
    "C26_back_to_zero",
    "C26_waits_only_when_full",
    "C26_admitted_partial",
    "C26_bounded",
    "C26_one_more_refuted",
    "C26_to_dir_refuted"
   ],
   "note": "all interleavings of any threads: at most 201 open (the configured 200 is exceeded by one: refuted), back to zero, never stuck for threads closing before opening the next; the client's use with --to-dir can deadlock (refuted)"
  },
  {
   "property": "C27",
   "status": "partial",
   "theorems": [
    "C27_delivered_partial",
    "C27_archive_partial",
    "C27_solo_partial",
    "C27_archive_ends_partial",
    "C27_archive_bounded",
    "C27_solo_ends_partial",
    "C27_malformed_partial",
    "C27_malformed_refuted",
    "C27_other_root_refuted",
    "C27_spurious_refuted"
   ],
   "note": "proved for all interleavings without spurious wake-ups, whole archives and lone units (no wait without end) and malformed archives (order and content); refuted: lost wake-up in malformed documents, documents whose root is not a unit, spurious wake-ups"
  },
  {
   "property": "C28",
   "status": "partial",
   "theorems": [
    "C28_extract_partial",
    "C28_unit",
    "C28_no_diff_unchanged",
    "C28_trailing_text_refuted",
    "C28_empty_diff_refuted",
    "C28_unfinished_tag_refuted"
   ],
   "note": "exact for fragments ending with a tag; refuted for trailing text (inner srcML), empty diff elements"
  },
  {
   "property": "C29",
   "status": "proved",
   "theorems": [
    "C29_split",
    "C29_plain"
   ],
   "note": ""
  },
  {
   "property": "C30",
   "status": "proved",
   "theorems": [
    "C30_attributes"
   ],
   "note": ""
  },
  {
   "property": "C31",
   "status": "partial",
   "theorems": [
    "C31_split",
    "C31_split_first",
    "C31_split_none",
    "C31_prefixed",
    "C31_idempotent",
    "C31_local_partial",
    "C31_input_partial",
    "C31_question_refuted",
    "C31_http_refuted",
    "C31_empty_refuted"
   ],
   "note": "splitting, idempotence and prefixed inputs proved for all strings; local names proved without '?' and without both http: and https:; refuted for these, and for an empty resource"
  },
  {
   "property": "C32",
   "status": "partial",
   "theorems": [
    "C32_sections_partial",
    "C32_no_header_partial",
    "C32_body_only_partial",
    "C32_escaped_braces",
    "C32_format_partial",
    "C32_unit_format_partial",
    "C32_refused_header",
    "C32_refused_body",
    "C32_refused_footer",
    "C32_terminates",
    "C32_numbers",
    "C32_queries_partial",
    "C32_outside_refuted",
    "C32_tight_refuted",
    "C32_percent_letter_refuted",
    "C32_percent_blank_refuted",
    "C32_last_percent_refuted",
    "C32_encoding_refuted",
    "C32_file_refuted",
    "C32_header_namespaces_refuted",
    "C32_text_only_refuted",
    "C32_unit_refuted",
    "C32_count_refuted",
    "C32_pairs_refuted"
   ],
   "note": "proved for templates with separated sections, or a body alone, made of text, percent signs followed by an end, a percent sign or an s, and the fields that are filled in, and for all metadata queries; refuted: %% before other characters, %s, %F, %N outside the body, text without fields, a final %, tight braces, --unit without -X, the count of an empty archive, and the byte read before a template without braces"
  },
  {
   "property": "C33",
   "status": "proved",
   "theorems": [
    "C33_archive_clone",
    "C33_unit_clone"
   ],
   "note": "units keep their archive, and so see its later changes, by design"
  },
  {
   "property": "C34",
   "status": "partial",
   "theorems": [
    "C34_openmp_prefix_refuted",
    "C34_copied_unit_refuted",
    "C34_tags",
    "C34_user_namespaces_declared",
    "C34_archive_namespaces_declared_partial",
    "C34_unit_namespaces_declared"
   ],
   "note": "proved for the srcML of a parsed unit; refuted in archives for a user prefix of OpenMP and for units copied between archives with different prefixes"
  },
  {
   "property": "C36",
   "status": "partial",
   "theorems": [
    "C36_reopen_partial",
    "C36_reopen_refuted",
    "C36_close_twice_refuted",
    "C36_strings_and_units_refuted"
   ],
   "note": "proved when nothing was written before reopening; refuted otherwise (stale translator, second close, freed buffer)"
  },
  {
   "property": "C38",
   "status": "partial",
   "theorems": [
    "C38_lookahead_partial",
    "C38_modes_refuted"
   ],
   "note": "input, token list and serial restored by every look-ahead; the mode stack is not (refuted)"
  },
  {
   "property": "C39",
   "status": "partial",
   "theorems": [
    "C39_archive_partial",
    "C39_solo_partial",
    "C39_comment_refuted",
    "C39_skipped_comment_refuted",
    "C39_no_attributes_refuted",
    "C39_empty_archive_refuted",
    "C39_nested_refuted",
    "C39_bracket_refuted",
    "C39_instruction_refuted",
    "C39_outer_refuted"
   ],
   "note": "proved for all documents of the shape srcML writes, with comments, CDATA and processing instructions; refuted for comments after a start tag or after a skipped unit, units without attributes, empty archives, nested units in a lone unit, raw '>' after an element, an instruction before a lone unit, the outer form of a lone unit with a single declaration"
  },
  {
   "property": "C40",
   "status": "partial",
   "theorems": [
    "C40_items",
    "C40_decoded_partial",
    "C40_digits",
    "C40_dangling_refuted",
    "C40_empty_refuted",
    "C40_separator_refuted",
    "C40_octal_refuted"
   ],
   "note": "every text decomposes into items (proved), decoding proved for non-empty texts without '://' and without a final backslash; refuted for these; \\400 gives a zero byte"
  },
  {
   "property": "C41",
   "status": "partial",
   "theorems": [
    "C41_names_partial",
    "C41_unique",
    "C41_last_refuted",
    "C41_empty_refuted"
   ],
   "note": "proved for all lists except: an empty one, and one whose last line is a one-character name without a line end (both refuted)"
  },
  {
   "property": "C42",
   "status": "partial",
   "theorems": [
    "C42_clean",
    "C42_name_partial",
    "C42_output_partial",
    "C42_unit_file",
    "C42_here_refuted",
    "C42_outside_refuted",
    "C42_between_refuted"
   ],
   "note": "proved for inputs that are not archives and output directories other than . and ./ ; refuted for these, for names with .. and for compression extensions behind an archive extension"
  },
  {
   "property": "C43",
   "status": "partial",
   "theorems": [
    "C43_root_restored_partial",
    "C43_one_reading",
    "C43_macros_restored_partial",
    "C43_any_root",
    "C43_numbers",
    "C43_store_encoding_refuted",
    "C43_cpp_prefix_refuted",
    "C43_set_options_refuted",
    "C43_empty_macro_refuted"
   ],
   "note": "proved for every archive that calls and reading can produce with namespaces declared and no stored encoding: revision, url, version, tab stop, options, attributes, prefixes and macros come back; refuted for the prefix of cpp, for a stored encoding (attribute twice after reading and writing), for macros without type, and after set_options"
  },
  {
   "property": "C45",
   "status": "partial",
   "theorems": [
    "C45_source_partial",
    "C45_parsed",
    "C45_round_trip_partial",
    "C45_one_reading",
    "C45_pieces",
    "C45_printed",
    "C45_bare_escape_refuted",
    "C45_other_namespace_refuted"
   ],
   "note": "proved from the source characters, through lexers, parser, srcML and back to the source, for every grammar and all settings XML can carry; missing: parses that log faults which lose or move text (C08, C09); refuted for elements named escape that a caller writes without attributes or outside the srcML namespace (null pointer)"
  },
  {
   "property": "C35",
   "status": "partial",
   "theorems": [
    "C35_once",
    "C35_history_partial",
    "C35_refused",
    "C35_loc_kept",
    "C35_outer_kept",
    "C35_inner_refuted",
    "C35_outer_refuted",
    "C35_loc_refuted",
    "C35_hash_refuted",
    "C35_encoding_refuted",
    "C35_namespace_refuted",
    "C35_hash"
   ],
   "note": "proved for one parse with any questions around it and for refused parses; for any history the exact answers are proved: the srcML is of the latest parse, but inner (once asked), outer (once asked), line count, hash and encoding stay those of an earlier parse and its namespaces stay declared (refuted with concrete histories)"
  },
  {
   "property": "C37",
   "status": "partial",
   "theorems": [
    "C37_same_partial",
    "C37_any_partial",
    "C37_option_refuted",
    "C37_prefix_refuted"
   ],
   "note": "proved for every interleaving of threads in which each thread writes for archives with the same position option and prefix; for any history the exact attributes are proved (option of the thread's first element, prefix of its first positioned element: thread_local initializers run once); refuted for archives of one thread that differ in the option or the prefix"
  },
  {
   "property": "C44",
   "status": "partial",
   "theorems": [
    "C44_archive_partial",
    "C44_archive_ends_partial",
    "C44_solo_partial",
    "C44_lost_refuted",
    "C44_hang_refuted"
   ],
   "note": "proved for a reader that is the last to start until its last event, in every interleaving of its two threads and whatever the other readers do: units, text and termination; for the others refuted: once another archive is opened no unit is returned with its srcML, for every document and execution, and a concrete read never returns (process-wide name pointers)"
  },
  {
   "property": "C46",
   "status": "partial",
   "theorems": [
    "C46_covered",
    "C46_complete",
    "C46_controls",
    "C46_del_refuted",
    "C46_tabstop_refuted",
    "C46_delimiter_refuted"
   ],
   "note": "for every language, macro list, tab stop and source; where the scan can stop early is characterised and shown by C46_del_refuted and C46_tabstop_refuted; a control character in a raw string delimiter is not separated (C46_delimiter_refuted)"
  },
  {
   "property": "C47",
   "status": "partial",
   "theorems": [
    "C47_extents_partial",
    "C47_block_comment",
    "C47_line_comment",
    "C47_raw_string",
    "C47_raw_delimiter_refuted",
    "C47_raw_directive_refuted",
    "C47_adjacent_refuted",
    "C47_whole_refuted",
    "C47_verbatim_refuted",
    "C47_separator_refuted"
   ],
   "note": "block and line comments: proved for any source; raw strings: proved for any source outside of directives, with an ASCII delimiter, refuted otherwise; all regions character by character: proved for sources without raw or verbatim strings, doubled quotes, /*!/ and digit separators; refuted for the last four"
  },
  {
   "property": "C48",
   "status": "partial",
   "theorems": [
    "C48_line",
    "C48_column",
    "C48_tabstop_refuted"
   ],
   "note": "lines for every source; columns if the tab stop is 8 or tabs are outside comments and literals; refuted otherwise (C48_tabstop_refuted)"
  },
  {
   "property": "C49",
   "status": "proved",
   "theorems": [
    "C49_names",
    "C49_macros",
    "C49_keywords",
    "C49_whole_words"
   ],
   "note": ""
  },
  {
   "property": "C50",
   "status": "partial",
   "theorems": [
    "C50_chain_partial",
    "C50_value",
    "C50_nothing",
    "C50_text",
    "C50_unwanted_partial",
    "C50_unwanted_text",
    "C50_first_refuted",
    "C50_second_refuted",
    "C50_number_refuted",
    "C50_nested_refuted",
    "C50_freed_refuted",
    "C50_null_refuted",
    "C50_siblings_refuted"
   ],
   "note": "Proved where results before another transformation are elements, none inside another, each transformation has a result for each, and a stylesheet is for one result; scalars and absence in full for the first result. Everything outside is refuted by a concrete case."
  },
  {
   "property": "C51",
   "status": "partial",
   "theorems": [
    "C51_element",
    "C51_attribute",
    "C51_both",
    "C51_root_partial",
    "C51_namespace_refuted",
    "C51_twice_refuted",
    "C51_lost_refuted"
   ],
   "note": "Proved for element, attribute and both, for all documents. The root as a result, attributes as results of wrapping and attributes already there are excluded: the last two are refuted."
  },
  {
   "property": "C52",
   "status": "partial",
   "theorems": [
    "C52_units_partial",
    "C52_text_refuted",
    "C52_prefix_refuted"
   ],
   "note": "Proved on the domain of C50_chain_partial; unescaped text and lost prefixes refuted."
  },
  {
   "property": "C53",
   "status": "proved",
   "theorems": [
    "C53_list",
    "C53_new",
    "C53_status",
    "C53_quote_refuted"
   ],
   "note": ""
  },
  {
   "property": "C54",
   "status": "partial",
   "theorems": [
    "C54_default",
    "C54_markup_if0",
    "C54_text_else_partial",
    "C54_nested_else_refuted",
    "C54_zero_in_else_refuted",
    "C54_live_refuted",
    "C54_look_ahead_refuted",
    "C54_zero",
    "C54_condition_refuted",
    "C54_apostrophe_refuted"
   ],
   "note": "Complete without options and with #if 0 marked up. With #else as text proved for sources without #else or #if 0 inside of an #else left as text (and no #else of #if 0 inside the live #else of another): elsewhere it is false, see the _refuted theorems."
  },
  {
   "property": "C55",
   "status": "partial",
   "theorems": [
    "C55_something",
    "C55_order",
    "C55_to_srcml",
    "C55_from_srcml",
    "C55_source_first",
    "C55_create",
    "C55_standard_input",
    "C55_metadata",
    "C55_source",
    "C55_compressed",
    "C55_finishes",
    "C55_hangs_refuted",
    "C55_compressed_source_refuted"
   ],
   "note": "Proved for at most one step of metadata, source and compression (with create before it); false for more: source and metadata do not close the pipe, so compression waits for ever (_refuted theorems). What a step computes is any process that reads its input to the end."
  },
  {
   "property": "C56",
   "status": "partial",
   "theorems": [
    "C56_stdout",
    "C56_split",
    "C56_unit",
    "C56_file",
    "C56_directory",
    "C56_directory_only",
    "C56_directory_made",
    "C56_archive",
    "C56_made_up_names",
    "C56_names_refuted",
    "C56_no_language_refuted",
    "C56_directory_options_refuted",
    "C56_directory_unnamed_refuted",
    "C56_file_refuted",
    "C56_separator_refuted",
    "C56_negative_refuted"
   ],
   "note": "Complete for standard output, --unit, a file and a directory without options; false: options and unnamed units with a directory, names made up across inputs, units without name and language in an archive, separators when another step follows, negative --unit, all but the first unit to a file (_refuted theorems)."
  },
  {
   "property": "C57",
   "status": "partial",
   "theorems": [
    "C57_document",
    "C57_order",
    "C57_one_unit",
    "C57_sources",
    "C57_text",
    "C57_without_X_refuted",
    "C57_second_namespaces_refuted",
    "C57_no_source_refuted",
    "C57_failed_refuted"
   ],
   "note": "Complete for requests where srcML to be read comes first (and -X is given with it), up to messages (after one the archive is only freed: no blank line before the end tag); false: an archive read without -X, namespaces of a second srcML input, a single input without source, inputs that all fail (_refuted theorems). Mixtures of text and units are not covered."
  },
  {
   "property": "C58",
   "status": "partial",
   "theorems": [
    "C58_archive",
    "C58_unit",
    "C58_from_source",
    "C58_macro_namespace_refuted",
    "C58_control_character_refuted"
   ],
   "note": "Complete for archives that declare namespaces (the default), without a revision number, with settings free of control characters; false: macros are in no namespace when srcML has a prefix, and control characters in settings give text that is not XML (_refuted theorems)."
  },
  {
   "property": "C59",
   "status": "partial",
   "theorems": [
    "C59_archive_partial",
    "C59_unit_partial",
    "C59_reported",
    "C59_unit_reported",
    "C59_no_units_refuted"
   ],
   "note": "Complete for archives with at least one unit that declare namespaces (the default) without a revision number, and for lone units without a processing instruction whose elements are not called unit; false: an archive without units is read back as one unit (_refuted); lone units with an instruction or nested unit elements are refuted under C39; a cpp namespace without prefix is excluded."
  },
  {
   "property": "C60",
   "status": "partial",
   "theorems": [
    "C60_settings",
    "C60_settings_defined",
    "C60_kept",
    "C60_source_partial",
    "C60_unreadable",
    "C60_srcml",
    "C60_refused",
    "C60_round_trip_partial",
    "C60_eol_refuted",
    "C60_language_refuted",
    "C60_not_created_refuted",
    "C60_no_unit_refuted",
    "C60_name_refuted",
    "C60_overwritten_refuted"
   ],
   "note": "The settings, the direction, the refusal, the way from srcML to source and reading errors are complete; writing srcML and the round trip are for settings XML can carry, without srcml_set_options, namespaces, instructions and revision (C12, C14, C29 treat them for archives), and for units without nested unit elements; refuted: eol setting, language setting for unknown names, OK although nothing could be written or read, a name of exactly srcml, overwriting the output of a failed call."
  },
  {
   "property": "C61",
   "status": "partial",
   "theorems": [
    "C61_calls",
    "C61_positions_partial",
    "C61_plain",
    "C61_repeated",
    "C61_printed",
    "C61_end_after_look_ahead_refuted",
    "C61_end_after_directive_refuted"
   ],
   "note": "Proved for all parses without a logged fault whose look-aheads begin and end no elements; an element begun without moving skipped text before it has its position after that text; ends are exact if no look-ahead or directive came after the last token (comments always); refuted otherwise, for a look-ahead and for a directive after the last token."
  },
  {
   "property": "C62",
   "status": "partial",
   "theorems": [
    "C62_files",
    "C62_each",
    "C62_names",
    "C62_kept",
    "C62_overwritten_refuted",
    "C62_no_name_refuted",
    "C62_archive_refuted",
    "C62_hash_refuted"
   ],
   "note": "Proved for inputs of source code; sources with the same path overwrite each other's file, a source without a name and any unit of a srcML input are undefined behaviour, and the hash is in the files as soon as there are two inputs although it is switched off for them (refuted)."
  },
  {
   "property": "C63",
   "status": "partial",
   "theorems": [
    "C63_bytes",
    "C63_accepted_partial",
    "C63_bounded",
    "C63_ends",
    "C63_woken_partial",
    "C63_lost_refuted",
    "C63_spurious_refuted",
    "C63_broken_off_refuted",
    "C63_next_input_refuted",
    "C63_ftp_refuted"
   ],
   "note": "The bytes: for all runs. The answer: for runs without spurious wake-ups in which every input is read to its end; the wait ends if it began before the first signal of its download. Refuted otherwise: a signal before the wait is lost, a spurious wake-up refuses a good URL, a broken transfer is read as whole (or refused, depending on the schedule), an abandoned download answers for the next, ftp is always refused."
  },
  {
   "property": "C64",
   "status": "partial",
   "theorems": [
    "C64_totals",
    "C64_languages_partial",
    "C64_text",
    "C64_shown_partial",
    "C64_report_partial",
    "C64_format",
    "C64_left_out_refuted",
    "C64_added_refuted",
    "C64_lines_refuted",
    "C64_line_end_refuted",
    "C64_mixed_refuted",
    "C64_unnamed_refuted",
    "C64_url_refuted"
   ],
   "note": "The totals: for all units with a language. The table by language: if the units of a file have one language. What is shown: if the texts are short or differ within a line. Refuted otherwise: a unit is counted in the language of the first of its file, a first unit without language is not counted and the others count in the language of the file before, a file without URL shows an older one, at the end of a line the cut is wrong, and in long units text that is left out or added by parsing again is undefined behaviour."
  },
  {
   "property": "C65",
   "status": "partial",
   "theorems": [
    "C65_document_partial",
    "C65_single_refuted",
    "C65_options_refuted",
    "C65_prefix_refuted",
    "C65_namespace_refuted",
    "C65_no_unit_refuted"
   ],
   "note": "Proved when the hash is the last attribute of the first unit: several inputs or --hash, no stored options, no source encoding in the tag, no attributes of the user. Refuted otherwise: a single file has no hash and loses 51 bytes of its start tag; a stored option stands after the hash; a prefix of the srcML namespace is not in the end tag; a namespace used by a later source only is not declared; without any unit there is only an end tag."
  },
  {
   "property": "C66",
   "status": "partial",
   "theorems": [
    "C66_create",
    "C66_create_counts_partial",
    "C66_errors_refuted",
    "C66_off",
    "C66_extract_partial",
    "C66_extract_counts",
    "C66_extract_refuted"
   ],
   "note": "Proved: the lines and the numbers of a conversion for parsed files and files without a language, and of an extraction for archives of fewer than 45 files; in general the exact number of files that are counted wrongly. Refuted: a file that failed is counted nowhere, the errors are always 0; the 45th file of an archive and every 256th after it are logged as other files."
  }
 ]
}