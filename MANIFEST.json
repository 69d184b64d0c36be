{
 "claims": [
  {
   "property": "C01",
   "status": "proved",
   "theorems": [
    "C01_heading_level_exact",
    "C01_other_lines_give_no_heading",
    "C01_invalid_limit"
   ],
   "note": ""
  },
  {
   "property": "C02",
   "status": "proved",
   "theorems": [
    "C02_content_exists_unique",
    "C02_heading_text",
    "C02_hash_only_content",
    "C02_text_refuted"
   ],
   "note": "The unrestricted claim is false for contents made only of hashes (C02_text_refuted); C02_hash_only_content says what happens there."
  },
  {
   "property": "C03",
   "status": "proved",
   "theorems": [
    "C03_visible_iff_level_kept",
    "C03_redcarpet_refuted",
    "C03_several_lines_refuted"
   ],
   "note": "CommonMark family. Refuted for redcarpet and for strings of several lines."
  },
  {
   "property": "C04",
   "status": "proved",
   "theorems": [
    "C04_label_errors",
    "C04_hash_only_content",
    "C04_no_links_never_raises",
    "C04_blank_labels_refuted"
   ],
   "note": "The documented claim that all blank labels are rejected is refuted."
  },
  {
   "property": "C05",
   "status": "proved",
   "theorems": [
    "C05_labels_are_escaped",
    "C05_redcarpet_refuted"
   ],
   "note": "CommonMark family; redcarpet does not escape (refuted)."
  },
  {
   "property": "C06",
   "status": "proved",
   "theorems": [
    "C06_opening_fence_exact",
    "C06_no_fence_outside_commonmark"
   ],
   "note": ""
  },
  {
   "property": "C07",
   "status": "proved",
   "theorems": [
    "C07_closing_fence_exact",
    "C07_document_end",
    "C07_no_closing_outside_commonmark"
   ],
   "note": ""
  },
  {
   "property": "C08",
   "status": "proved",
   "theorems": [
    "C08_only_lines_outside_fences_matter",
    "C08_unclosed_block_refuted",
    "C08_after_skipped_lines",
    "C08_unclosed_block"
   ],
   "note": "Refuted for files that end inside an unclosed block; C08_unclosed_block says what their table is."
  },
  {
   "property": "C09",
   "status": "proved",
   "theorems": [
    "C09_duplicates_numbered_in_order",
    "C09_base_slug_unique"
   ],
   "note": "Assumes that SHA-1 does not collide on the slugs of the document (hypothesis no_collision)."
  },
  {
   "property": "C10",
   "status": "proved",
   "theorems": [
    "C10_anchors_distinct",
    "C10_distinct_refuted",
    "C10_redcarpet_not_numbered"
   ],
   "note": "Assumes no SHA-1 collision; refuted without the condition on numbered slugs."
  },
  {
   "property": "C11",
   "status": "proved",
   "theorems": [
    "C11_anchor_alphabet"
   ],
   "note": ""
  },
  {
   "property": "C12",
   "status": "proved",
   "theorems": [
    "C12_gitlab_no_double_hyphen",
    "C12_numbered_anchors_refuted"
   ],
   "note": "Refuted for numbered anchors."
  },
  {
   "property": "C13",
   "status": "proved",
   "theorems": [
    "C13_redcarpet_anchor",
    "C13_redcarpet_alphabet"
   ],
   "note": ""
  },
  {
   "property": "C14",
   "status": "proved",
   "theorems": [
    "C14_header_independent_of_limit",
    "C14_limit_only_filters"
   ],
   "note": ""
  },
  {
   "property": "C15",
   "status": "proved",
   "theorems": [
    "C15_one_row_per_listed_heading",
    "C15_no_table_if_a_line_raises"
   ],
   "note": ""
  },
  {
   "property": "C16",
   "status": "proved",
   "theorems": [
    "C16_numbered_within_sublists",
    "C16_incoherent_numbering_refuted"
   ],
   "note": "Refuted without coherence."
  },
  {
   "property": "C17",
   "status": "proved",
   "theorems": [
    "C17_invalid_levels",
    "C17_overflow_exact"
   ],
   "note": ""
  },
  {
   "property": "C18",
   "status": "proved",
   "theorems": [
    "C18_nested_under_parent",
    "C18_bullets_two_per_level",
    "C18_redcarpet_four_per_level",
    "C18_incoherent_nesting_refuted"
   ],
   "note": "Refuted without coherence."
  },
  {
   "property": "C19",
   "status": "proved",
   "theorems": [
    "C19_first_problem",
    "C19_accepted_tables_are_coherent",
    "C19_check_is_exact",
    "C19_no_check_no_error"
   ],
   "note": ""
  },
  {
   "property": "C20",
   "status": "proved",
   "theorems": [
    "C20_skip_drops_first_lines",
    "C20_negative_skip"
   ],
   "note": ""
  },
  {
   "property": "C21",
   "status": "proved",
   "theorems": [
    "C21_undecodable_input",
    "C21_undecodable_while_skipping"
   ],
   "note": ""
  },
  {
   "property": "C22",
   "status": "proved",
   "theorems": [
    "C22_empty_is_stdin",
    "C22_each_as_alone",
    "C22_succeeds",
    "C22_first_failure"
   ],
   "note": ""
  },
  {
   "property": "C23",
   "status": "proved",
   "theorems": [
    "C23_stdin_and_files_agree",
    "C23_unclosed_block_refuted",
    "C23_after_skipped_lines"
   ],
   "note": "Refuted for documents that end inside an unclosed block."
  },
  {
   "property": "C24",
   "status": "proved",
   "theorems": [
    "C24_no_indentation_only_removes_leading_spaces",
    "C24_no_list_coherence_keeps_accepted_tables"
   ],
   "note": ""
  },
  {
   "property": "C25",
   "status": "proved",
   "theorems": [
    "C25_ordered_marker_defaults_to_dot",
    "C25_constant_implies_ordered",
    "C25_constant_numbers_are_one",
    "C25_invalid_bullet_raises"
   ],
   "note": ""
  },
  {
   "property": "C26",
   "status": "proved",
   "theorems": [
    "C26_only_delimiters_removed",
    "C26_balanced_refuted"
   ],
   "note": "Balance of the removed delimiters is refuted."
  },
  {
   "property": "C27",
   "status": "proved",
   "theorems": [
    "C27_terminates"
   ],
   "note": ""
  },
  {
   "property": "C28",
   "status": "proved",
   "theorems": [
    "C28_harmless_text_never_raises",
    "C28_all_text_refuted",
    "C28_links_never_raise",
    "C28_tame_needed_refuted"
   ],
   "note": "Unrestricted claim refuted."
  },
  {
   "property": "C29",
   "status": "proved",
   "theorems": [
    "C29_idle_delimiters_survive",
    "C29_snake_case"
   ],
   "note": ""
  },
  {
   "property": "C30",
   "status": "proved",
   "theorems": [
    "C30_nested_emphasis_removed",
    "C30_word"
   ],
   "note": ""
  },
  {
   "property": "C31",
   "status": "proved",
   "theorems": [
    "C31_only_bracketed_removed",
    "C31_no_bracket_unchanged",
    "C31_tags_removed",
    "C31_gfm_tags_removed",
    "C31_only_raw_html_removed",
    "C31_no_raw_html_unchanged",
    "C31_lone_brackets_unchanged",
    "C31_comments_refuted",
    "C31_other_parsers_unchanged",
    "C31_idempotent_refuted"
   ],
   "note": "Idempotence refuted; removal of all comments refuted."
  },
  {
   "property": "C32",
   "status": "proved",
   "theorems": [
    "C32_filter_indices",
    "C32_result_unique"
   ],
   "note": ""
  },
  {
   "property": "C33",
   "status": "proved",
   "theorems": [
    "C33_newline_splitting"
   ],
   "note": ""
  },
  {
   "property": "C34",
   "status": "proved",
   "theorems": [
    "C34_only_the_target_changes",
    "C34_cr_eats_a_blank_line",
    "C34_target_exists",
    "C34_target_unique",
    "C34_cr_refuted"
   ],
   "note": "Newline strings LF and CRLF; for a lone CR the claim is refuted and C34_cr_eats_a_blank_line says exactly what happens."
  },
  {
   "property": "C35",
   "status": "proved",
   "theorems": [
    "C35_write_idempotent",
    "C35_write_twice_equal",
    "C35_any_text_refuted",
    "C35_crlf_equal_refuted",
    "C35_cr_refuted"
   ],
   "note": "Refuted for texts that are not recognised as a list and for a lone CR; the verdict is refuted for CRLF."
  },
  {
   "property": "C36",
   "status": "proved",
   "theorems": [
    "C36_same_verdict",
    "C36_undecodable"
   ],
   "note": ""
  },
  {
   "property": "C37",
   "status": "proved",
   "theorems": [
    "C37_no_marker_unchanged",
    "C37_stdin_refused"
   ],
   "note": ""
  },
  {
   "property": "C38",
   "status": "proved",
   "theorems": [
    "C38_in_order",
    "C38_order_decides",
    "C38_length_mismatch",
    "C38_batch_success",
    "C38_batch_failure"
   ],
   "note": ""
  },
  {
   "property": "C39",
   "status": "proved",
   "theorems": [
    "C39_every_step_keeps_the_rest",
    "C39_rerun_after_crash_refuted"
   ],
   "note": "Recovery by running the write again is refuted."
  },
  {
   "property": "C40",
   "status": "proved",
   "theorems": [
    "C40_diff_prints_too",
    "C40_status_one_iff_exception",
    "C40_failed_build_touches_nothing",
    "C40_printing_touches_nothing",
    "C40_prints_the_tables",
    "C40_status_128_iff_differs",
    "C40_status_values",
    "C40_in_place_stdin_raises",
    "C40_in_place_writes",
    "C40_options_selected"
   ],
   "note": ""
  },
  {
   "property": "C41",
   "status": "proved",
   "theorems": [
    "C41_plain_lines_do_not_matter"
   ],
   "note": ""
  },
  {
   "property": "C42",
   "status": "proved",
   "theorems": [
    "C42_rows_are_inert",
    "C42_table_is_recognised",
    "C42_links_recognisable",
    "C42_redcarpet_refuted",
    "C42_no_links_refuted"
   ],
   "note": "Refuted for redcarpet with indentation and for tables without links."
  },
  {
   "property": "C43",
   "status": "proved",
   "theorems": [
    "C43_second_run_changes_nothing",
    "C43_one_marker",
    "C43_skip_past_marker_refuted",
    "C43_command_twice"
   ],
   "note": "Newline strings LF and CRLF. Refuted when the skipped lines reach the marker."
  },
  {
   "property": "C44",
   "status": "proved",
   "theorems": [
    "C44_remove_line_intervals",
    "C44_extract_lines",
    "C44_read_line_interval",
    "C44_line_ends",
    "C44_pairs_refuted",
    "C44_mixed_ends_refuted",
    "C44_replace_substring",
    "C44_strncmp",
    "C44_strncmp_order",
    "C44_string_empty",
    "C44_detect_toc_list"
   ],
   "note": ""
  },
  {
   "property": "C45",
   "status": "proved",
   "theorems": [
    "C45_escaped_delimiters_survive"
   ],
   "note": ""
  },
  {
   "property": "C46",
   "status": "proved",
   "theorems": [
    "C46_code_spans_survive"
   ],
   "note": ""
  },
  {
   "property": "C47",
   "status": "proved",
   "theorems": [
    "C47_errors_of_build_toc",
    "C47_only_documented_errors",
    "C47_only_documented_errors_refuted",
    "C47_errors_need_options"
   ],
   "note": "The provisos are needed: C47_*_refuted."
  },
  {
   "property": "C48",
   "status": "proved",
   "theorems": [
    "C48_newline_ends_the_rows",
    "C48_rows_are_single_lines"
   ],
   "note": ""
  },
  {
   "property": "C49",
   "status": "proved",
   "theorems": [
    "C49_accepted_arguments",
    "C49_accepted_options_are_usable",
    "C49_exceptions_of_the_command",
    "C49_all_or_nothing"
   ],
   "note": "Accepted arguments are the parsed values that argparse lets through; the words of the command line are C65."
  },
  {
   "property": "C50",
   "status": "proved",
   "theorems": [
    "C50_lower_limit_only_deletes_rows",
    "C50_lower_limit_checked",
    "C50_incoherent_table_refuted"
   ],
   "note": "CommonMark family, coherent tables; refuted for tables that are not coherent."
  },
  {
   "property": "C51",
   "status": "proved",
   "theorems": [
    "C51_appending_only_appends",
    "C51_unclosed_block_refuted"
   ],
   "note": "Refuted for files that end inside an unclosed block."
  },
  {
   "property": "C52",
   "status": "proved",
   "theorems": [
    "C52_check_and_write_agree",
    "C52_check_after_write"
   ],
   "note": ""
  },
  {
   "property": "C53",
   "status": "proved",
   "theorems": [
    "C53_states_end_with_the_result",
    "C53_killed_batch"
   ],
   "note": "Each fpyutils call is taken to rewrite its file in one step."
  },
  {
   "property": "C54",
   "status": "proved",
   "theorems": [
    "C54_redcarpet_heading_exact",
    "C54_other_lines_give_no_heading",
    "C54_backslash_refuted"
   ],
   "note": "That labels never end with a backslash is refuted."
  },
  {
   "property": "C55",
   "status": "proved",
   "theorems": [
    "C55_each_line_alone",
    "C55_first_exception"
   ],
   "note": ""
  },
  {
   "property": "C56",
   "status": "proved",
   "theorems": [
    "C56_as_commonmark",
    "C56_anchor_from_text",
    "C56_plain_text",
    "C56_no_delimiters"
   ],
   "note": "Text with tags or emphasis: through remove_html_tags and remove_emphasis (C26-C31)."
  },
  {
   "property": "C57",
   "status": "proved",
   "theorems": [
    "C57_ordinary_documents"
   ],
   "note": "CommonMark family, bullet lists with links; assumes no SHA-1 collision among the slugs."
  },
  {
   "property": "C58",
   "status": "proved",
   "theorems": [
    "C58_one_pairing",
    "C58_every_text_reads",
    "C58_pairing_exact",
    "C58_pairs_as_commonmark",
    "C58_underscores_refuted",
    "C58_no_break_space_refuted"
   ],
   "note": "Refuted for underscore runs kept apart by the multiple-of-three rule, and for U+0080 to U+00BF before a run where that changes what the run may do."
  },
  {
   "property": "C59",
   "status": "proved",
   "theorems": [
    "C59_one_reading",
    "C59_links_exact",
    "C59_links_as_commonmark",
    "C59_label_refuted",
    "C59_images_refuted",
    "C59_scheme_refuted",
    "C59_hollow_refuted",
    "C59_links_are_links",
    "C59_quote_refuted",
    "C59_vertical_tab_refuted",
    "C59_brackets_refuted",
    "C59_backticks_refuted",
    "C59_autolink_refuted",
    "C59_attribute_refuted",
    "C59_titles_refuted",
    "C59_backslash_refuted",
    "C59_sections_refuted"
   ],
   "note": "Refuted outside the stated conditions: unsettled labels, images inside links, two code spans with as many backticks after stray ones, autolinks with a scheme, addresses that start with a colon, equals signs without a value, attributes without value, instructions that end with two question marks and sections with three brackets, titles in parentheses or with escaped quotes, addresses that end with a backslash, a parenthesis closed by a quote, a vertical tab, a title at the end of the text, references."
  },
  {
   "property": "C60",
   "status": "proved",
   "theorems": [
    "C60_whole_table",
    "C60_unchecked_table",
    "C60_unclosed_block"
   ],
   "note": "Assumes no SHA-1 collision among the names, at most 999999999 titles. A block may be left open at the end (C60_unclosed_block)."
  },
  {
   "property": "C61",
   "status": "proved",
   "theorems": [
    "C61_command",
    "C61_unrenderable"
   ],
   "note": "Contents after writing are stated for LF and CR LF; with CR see C34_cr_refuted. Assumptions of C60 on each document."
  },
  {
   "property": "C62",
   "status": "proved",
   "theorems": [
    "C62_delimiters_doubly_linked",
    "C62_nodes_acyclic",
    "C62_nodes_form_trees",
    "C62_same_result",
    "C62_walks_end",
    "C62_harmless_text_never_raises",
    "C62_links_as_commonmark"
   ],
   "note": "The bracket stack is a list in both models; texts and line numbers of nodes are not kept."
  },
  {
   "property": "C63",
   "status": "proved",
   "theorems": [
    "C63_history",
    "C63_diff",
    "C63_killed"
   ],
   "note": "Assumptions of C60 on the users' lines at the time of each run (code blocks closed above the table and at the end, no collision of digests), first row recognisable as in C42, marker unlike a heading, fence or list item, the skipped lines end above the table."
  },
  {
   "property": "C64",
   "status": "proved",
   "theorems": [
    "C64_rows",
    "C64_tables",
    "C64_incoherent_refuted",
    "C64_counts_refuted"
   ],
   "note": "C64_rows: one table from any log; C64_tables: any number of tables one after the other with one log. C64_incoherent_refuted and C64_counts_refuted show that coherence and the empty counts are needed. Numbers up to 999999999."
  },
  {
   "property": "C65",
   "status": "proved",
   "theorems": [
    "C65_command_line",
    "C65_accepted",
    "C65_every_namespace",
    "C65_swallowed",
    "C65_misplaced",
    "C65_program",
    "C65_no_parser",
    "C65_wrong_values",
    "C65_ambiguous",
    "C65_split_names",
    "C65_no_such_option",
    "C65_help",
    "C65_refused",
    "C65_exactly"
   ],
   "note": "Numbers are read by an arbitrary function (Python's int). C65_exactly, C65_help and C65_refused characterize all lines: accepted, help or version, refused; with only the digits among ASCII characters assumed of the environment. os.linesep is taken to be LF."
  },
  {
   "property": "C66",
   "status": "proved",
   "theorems": [
    "C66_run_as_seen",
    "C66_killed_as_seen",
    "C66_every_text_reads",
    "C66_file_after",
    "C66_no_marker",
    "C66_lf_file",
    "C66_line_ends_do_not_matter",
    "C66_command",
    "C66_second_run_same_characters",
    "C66_command_twice",
    "C66_newline_option_refuted"
   ],
   "note": "On a system whose os.linesep is LF. fpyutils is modelled from its contract; undecodable files are those of C21 and C38."
  },
  {
   "property": "C67",
   "status": "proved",
   "theorems": [
    "C67_same_result",
    "C67_never_exits",
    "C67_harmless_text_never_raises",
    "C67_huge_code_span_exits"
   ],
   "note": "The buffers of buffer_c.py with size and allocated size, chunk trimming, entity decoding into buffers, code span normalisation in place (Buffer.v); equal to the model without buffers for texts below 2^27 characters. The entity table is a parameter: at most 8 bytes per entity."
  },
  {
   "property": "C68",
   "status": "proved",
   "theorems": [
    "C68_accepted",
    "C68_unrenderable",
    "C68_refused",
    "C68_help",
    "C68_always"
   ],
   "note": "Composition on stored files; the texts of help, version, usage and tracebacks are not modelled."
  },
  {
   "property": "C69",
   "status": "proved",
   "theorems": [
    "C69_history",
    "C69_update",
    "C69_diff",
    "C69_killed",
    "C69_killed_other",
    "C69_moments"
   ],
   "note": "Assumptions of C63 on the users' lines at the time of each update. A killed run leaves one of the successive contents of the files (program_states); a partly written file is not modelled."
  },
  {
   "property": "C70",
   "status": "proved",
   "theorems": [
    "C70_undisturbed",
    "C70_unchanged",
    "C70_ends",
    "C70_separate",
    "C70_in_turn",
    "C70_prints",
    "C70_prints_table",
    "C70_two_updates_refuted"
   ],
   "note": "An access reads or rewrites a whole file in one step (partly written files are not modelled); build_toc's reads of one file count as one access. Different names are different files. C70_prints_table has the assumptions of C69 for the update and for the options of the run that prints."
  },
  {
   "property": "C71",
   "status": "proved",
   "theorems": [
    "C71_reading",
    "C71_writing",
    "C71_run_as_text",
    "C71_other_bytes_kept",
    "C71_stays_utf8",
    "C71_outside",
    "C71_bom_refuted",
    "C71_surrogate_refuted"
   ],
   "note": "unicode_tables says of Python's tables that no surrogate matches \\w or is white space. The locale's encoding is taken to be UTF-8. `system` leaves open how many characters before a decoding error are delivered and what a write that cannot be encoded leaves. C71_outside speaks of one call of the API; for command lines combine C71_run_as_text with C68."
  },
  {
   "property": "C72",
   "status": "proved",
   "theorems": [
    "C72_undisturbed",
    "C72_own_files",
    "C72_writes",
    "C72_edit_kept_refuted"
   ],
   "note": "An access reads or rewrites a whole file in one step, as in C70. `anything` puts no condition on the other programs; `except` keeps some files unchanged. The table in C72_writes is what build_toc gives for the stored file that the run saw; C68 says what that is for command lines."
  }
 ]
}