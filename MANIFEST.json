{
 "claims": [
  {
   "property": "C01",
   "status": "proved",
   "theorems": [
    "C01_num_str_roundtrip"
   ],
   "note": ""
  },
  {
   "property": "C02",
   "status": "proved",
   "theorems": [
    "C02_num_str_range",
    "C02_num_str_range_no_branch",
    "C02_num_str_range_two_branches"
   ],
   "note": ""
  },
  {
   "property": "C03",
   "status": "proved",
   "theorems": [
    "C03_from_num_str_accepts",
    "C03_from_num_str_total"
   ],
   "note": ""
  },
  {
   "property": "C04",
   "status": "proved",
   "theorems": [
    "C04_num_str_injective"
   ],
   "note": ""
  },
  {
   "property": "C05",
   "status": "proved",
   "theorems": [
    "C05_num_str_clean"
   ],
   "note": ""
  },
  {
   "property": "C06",
   "status": "proved",
   "theorems": [
    "C06_zenkaku_roundtrip",
    "C06_zenkaku_injective"
   ],
   "note": ""
  },
  {
   "property": "C07",
   "status": "proved",
   "theorems": [
    "C07_iroha_katakana",
    "C07_iroha_hiragana",
    "C07_iroha_inverse",
    "C07_iroha_domain"
   ],
   "note": ""
  },
  {
   "property": "C08",
   "status": "proved",
   "theorems": [
    "C08_heading_roundtrip",
    "C08_heading_injective"
   ],
   "note": ""
  },
  {
   "property": "C09",
   "status": "proved",
   "theorems": [
    "C09_label_range_end",
    "C09_label_range_lost"
   ],
   "note": ""
  },
  {
   "property": "C10",
   "status": "proved",
   "theorems": [
    "C10_label_roundtrip"
   ],
   "note": ""
  },
  {
   "property": "C11",
   "status": "proved",
   "theorems": [
    "C11_item_no_range"
   ],
   "note": ""
  },
  {
   "property": "C12",
   "status": "proved",
   "theorems": [
    "C12_item_label_roundtrip",
    "C12_paren_hiragana",
    "C12_plain_hiragana"
   ],
   "note": ""
  },
  {
   "property": "C13",
   "status": "proved",
   "theorems": [
    "C13_alphabet_text_panics"
   ],
   "note": ""
  },
  {
   "property": "C14",
   "status": "proved",
   "theorems": [
    "C14_split_total",
    "C14_split_sound",
    "C14_split_complete",
    "C14_split_spaced",
    "C14_split_unspaced",
    "C14_white_space"
   ],
   "note": ""
  },
  {
   "property": "C15",
   "status": "proved",
   "theorems": [
    "C15_law_roundtrip"
   ],
   "note": ""
  },
  {
   "property": "C16",
   "status": "proved",
   "theorems": [
    "C16_law_roundtrip_iff",
    "C16_roundtrip_iff"
   ],
   "note": ""
  },
  {
   "property": "C17",
   "status": "proved",
   "theorems": [
    "C17_article_roundtrip",
    "C17_paragraph_roundtrip",
    "C17_item_roundtrip"
   ],
   "note": ""
  },
  {
   "property": "C18",
   "status": "proved",
   "theorems": [
    "C18_sentence_roundtrip",
    "C18_line_roundtrip",
    "C18_ruby_roundtrip",
    "C18_column_roundtrip",
    "C18_table_roundtrip"
   ],
   "note": ""
  },
  {
   "property": "C19",
   "status": "proved",
   "theorems": [
    "C19_remarks_unreadable",
    "C19_remarks_lost",
    "C19_fig_remarks_lost",
    "C19_table_remarks_lost"
   ],
   "note": ""
  },
  {
   "property": "C20",
   "status": "proved",
   "theorems": [
    "C20_new_provisions_lost"
   ],
   "note": ""
  },
  {
   "property": "C21",
   "status": "proved",
   "theorems": [
    "C21_cell_attributes"
   ],
   "note": ""
  },
  {
   "property": "C22",
   "status": "proved",
   "theorems": [
    "C22_line_style"
   ],
   "note": ""
  },
  {
   "property": "C23",
   "status": "proved",
   "theorems": [
    "C23_sentence_formula_numbers",
    "C23_line_formula_numbers",
    "C23_contents_formula_numbers",
    "C23_toc_preamble_label",
    "C23_appdx_related_number"
   ],
   "note": ""
  },
  {
   "property": "C24",
   "status": "proved",
   "theorems": [
    "C24_suppl_table_unreadable",
    "C24_suppl_appdx_unreadable"
   ],
   "note": ""
  },
  {
   "property": "C25",
   "status": "proved",
   "theorems": [
    "C25_law_without_number"
   ],
   "note": ""
  },
  {
   "property": "C26",
   "status": "proved",
   "theorems": [
    "C26_article_without_body"
   ],
   "note": ""
  },
  {
   "property": "C27",
   "status": "proved",
   "theorems": [
    "C27_law_panic",
    "C27_panic",
    "C27_bodyless_unread"
   ],
   "note": ""
  },
  {
   "property": "C28",
   "status": "proved",
   "theorems": [
    "C28_conforms",
    "C28_law_conforms",
    "C28_unknown_rejected",
    "C28_preamble_drops",
    "C28_table_row_drops"
   ],
   "note": ""
  },
  {
   "property": "C29",
   "status": "proved",
   "theorems": [
    "C29_law_noise",
    "C29_noise",
    "C29_delete"
   ],
   "note": ""
  },
  {
   "property": "C30",
   "status": "proved",
   "theorems": [
    "C30_attributes"
   ],
   "note": ""
  },
  {
   "property": "C31",
   "status": "proved",
   "theorems": [
    "C31_missing",
    "C31_malformed",
    "C31_read",
    "C31_item_missing",
    "C31_item_read"
   ],
   "note": ""
  },
  {
   "property": "C32",
   "status": "proved",
   "theorems": [
    "C32_read",
    "C32_malformed",
    "C32_optional_read",
    "C32_optional_malformed"
   ],
   "note": ""
  },
  {
   "property": "C33",
   "status": "proved",
   "theorems": [
    "C33_articles",
    "C33_main",
    "C33_part",
    "C33_chapter",
    "C33_section",
    "C33_subsection",
    "C33_division",
    "C33_suppl",
    "C33_paragraphs",
    "C33_items",
    "C33_subitems",
    "C33_paragraph_sentences",
    "C33_columns",
    "C33_sentence"
   ],
   "note": ""
  },
  {
   "property": "C34",
   "status": "proved",
   "theorems": [
    "C34_write_law_injective",
    "C34_write_injective"
   ],
   "note": ""
  },
  {
   "property": "C35",
   "status": "proved",
   "theorems": [
    "C35_law_stable",
    "C35_stable",
    "C35_written_law_stable",
    "C35_written_stable"
   ],
   "note": ""
  },
  {
   "property": "C36",
   "status": "proved",
   "theorems": [
    "C36_main",
    "C36_suppl",
    "C36_as_read",
    "C36_main_groups",
    "C36_suppl_groups"
   ],
   "note": ""
  },
  {
   "property": "C37",
   "status": "proved",
   "theorems": [
    "C37_articles",
    "C37_main",
    "C37_suppl",
    "C37_ranks",
    "C37_enclosing_refuted"
   ],
   "note": "The numbers of enclosing headings are not always kept; C37_enclosing_refuted gives a witness, the other theorems say exactly which are."
  },
  {
   "property": "C38",
   "status": "proved",
   "theorems": [
    "C38_entries",
    "C38_iff",
    "C38_table_refuted"
   ],
   "note": "The text of tables is left out (C38_table_refuted); the other theorems say exactly what is listed."
  },
  {
   "property": "C39",
   "status": "proved",
   "theorems": [
    "C39_main",
    "C39_suppl",
    "C39_main_exact",
    "C39_suppl_exact",
    "C39_rows_main",
    "C39_rows_suppl",
    "C39_rows_before",
    "C39_rows_anew",
    "C39_numbers_refuted"
   ],
   "note": "Numbers are carried over to entries outside their heading (C39_numbers_refuted); the exact listing is proved."
  },
  {
   "property": "C40",
   "status": "proved",
   "theorems": [
    "C40_text_loops_iff",
    "C40_loops_iff",
    "C40_outcomes"
   ],
   "note": ""
  },
  {
   "property": "C41",
   "status": "proved",
   "theorems": [
    "C41_listing_determines",
    "C41_exact",
    "C41_contents",
    "C41_readable_lines_are_read",
    "C41_nesting",
    "C41_no_error"
   ],
   "note": ""
  },
  {
   "property": "C42",
   "status": "proved",
   "theorems": [
    "C42_rest_dropped"
   ],
   "note": ""
  },
  {
   "property": "C43",
   "status": "proved",
   "theorems": [
    "C43_return_goes_down",
    "C43_panics_iff",
    "C43_twelve_items_panic"
   ],
   "note": ""
  },
  {
   "property": "C44",
   "status": "proved",
   "theorems": [
    "C44_numbers",
    "C44_preamble"
   ],
   "note": ""
  },
  {
   "property": "C45",
   "status": "proved",
   "theorems": [
    "C45_deleted"
   ],
   "note": ""
  },
  {
   "property": "C46",
   "status": "proved",
   "theorems": [
    "C46_panics_iff",
    "C46_law",
    "C46_year_wraps"
   ],
   "note": ""
  },
  {
   "property": "C47",
   "status": "proved",
   "theorems": [
    "C47_heading_overflow_panics"
   ],
   "note": ""
  },
  {
   "property": "C48",
   "status": "proved",
   "theorems": [
    "C48_label_katakana_panics"
   ],
   "note": ""
  },
  {
   "property": "C49",
   "status": "proved",
   "theorems": [
    "C49_kana_label_panics"
   ],
   "note": ""
  },
  {
   "property": "C50",
   "status": "proved",
   "theorems": [
    "C50_paren_roman_swapped"
   ],
   "note": ""
  },
  {
   "property": "C51",
   "status": "proved",
   "theorems": [
    "C51_roman_unreadable"
   ],
   "note": ""
  },
  {
   "property": "C52",
   "status": "proved",
   "theorems": [
    "C52_upper_label",
    "C52_lower_label",
    "C52_roman_letters_label",
    "C52_alphabet_ambiguous"
   ],
   "note": ""
  },
  {
   "property": "C53",
   "status": "proved",
   "theorems": [
    "C53_heading_unreadable"
   ],
   "note": ""
  },
  {
   "property": "C54",
   "status": "proved",
   "theorems": [
    "C54_line_is_text",
    "C54_never_classified",
    "C54_none_in_result"
   ],
   "note": ""
  },
  {
   "property": "C55",
   "status": "proved",
   "theorems": [
    "C55_lines",
    "C55_classified",
    "C55_read",
    "C55_joined"
   ],
   "note": ""
  },
  {
   "property": "C56",
   "status": "proved",
   "theorems": [
    "C56_reference_is_heading",
    "C56_number_is_paragraph"
   ],
   "note": ""
  },
  {
   "property": "C57",
   "status": "proved",
   "theorems": [
    "C57_same_label",
    "C57_item_is_paragraph"
   ],
   "note": ""
  },
  {
   "property": "C58",
   "status": "proved",
   "theorems": [
    "C58_never_errs",
    "C58_panics_iff",
    "C58_line_panics_text",
    "C58_kana_line"
   ],
   "note": ""
  },
  {
   "property": "C59",
   "status": "proved",
   "theorems": [
    "C59_sentence",
    "C59_paragraph",
    "C59_all_text_refuted"
   ],
   "note": "Text inside lines is left out (C59_all_text_refuted); the other theorems say exactly what is kept."
  },
  {
   "property": "C60",
   "status": "proved",
   "theorems": [
    "C60_titles"
   ],
   "note": ""
  },
  {
   "property": "C61",
   "status": "proved",
   "theorems": [
    "C61_plain_law_kept",
    "C61_plain_kept"
   ],
   "note": ""
  },
  {
   "property": "C62",
   "status": "proved",
   "theorems": [
    "C62_parts_read",
    "C62_law_parts_read"
   ],
   "note": ""
  },
  {
   "property": "C63",
   "status": "proved",
   "theorems": [
    "C63_law_exact",
    "C63_exact",
    "C63_rules",
    "C63_unique",
    "C63_refused",
    "C63_law_refused"
   ],
   "note": ""
  },
  {
   "property": "C64",
   "status": "proved",
   "theorems": [
    "C64_lines",
    "C64_paragraphs",
    "C64_text",
    "C64_main",
    "C64_table"
   ],
   "note": ""
  },
  {
   "property": "C65",
   "status": "proved",
   "theorems": [
    "C65_exact",
    "C65_heading",
    "C65_label"
   ],
   "note": ""
  },
  {
   "property": "C66",
   "status": "proved",
   "theorems": [
    "C66_kind",
    "C66_kinds_differ"
   ],
   "note": ""
  },
  {
   "property": "C67",
   "status": "proved",
   "theorems": [
    "C67_exact",
    "C67_start",
    "C67_division"
   ],
   "note": ""
  },
  {
   "property": "C68",
   "status": "proved",
   "theorems": [
    "C68_exact"
   ],
   "note": ""
  },
  {
   "property": "C69",
   "status": "proved",
   "theorems": [
    "C69_utf8",
    "C69_to_xml",
    "C69_ends",
    "C69_text",
    "C69_writer",
    "C69_same"
   ],
   "note": "Crate xmltree enters as two unknown functions."
  },
  {
   "property": "C70",
   "status": "proved",
   "theorems": [
    "C70_round_trip",
    "C70_iff",
    "C70_tidy",
    "C70_twice",
    "C70_file",
    "C70_sample"
   ],
   "note": "Crate xmltree enters as two unknown functions with the hypothesis keeps; C70_sample shows that it can be met."
  },
  {
   "property": "C71",
   "status": "proved",
   "theorems": [
    "C71_neat_tidy",
    "C71_neat_law_tidy",
    "C71_same_law",
    "C71_tidy_law"
   ],
   "note": "As in C70, the hypothesis keeps is about the crate xmltree."
  },
  {
   "property": "C72",
   "status": "proved",
   "theorems": [
    "C72_article_accessors",
    "C72_toc_accessors",
    "C72_article_refuted",
    "C72_article_division",
    "C72_article_never"
   ],
   "note": "Toc::set_article sets the number of the division (C72_article_refuted, C72_article_division)."
  },
  {
   "property": "C73",
   "status": "proved",
   "theorems": [
    "C73_law_errors",
    "C73_errors",
    "C73_faultless",
    "C73_names_refuted"
   ],
   "note": "Some tags are misspelt in the errors (C73_names_refuted); ErrorSpec.v has the spellings used."
  },
  {
   "property": "C74",
   "status": "proved",
   "theorems": [
    "C74_stored",
    "C74_body",
    "C74_xml_text",
    "C74_machine",
    "C74_always_refuted"
   ],
   "note": "The law of C74_always_refuted is read from text but does not come back: a range of articles without a branch."
  },
  {
   "property": "C75",
   "status": "proved",
   "theorems": [
    "C75_message",
    "C75_law",
    "C75_readers",
    "C75_xml",
    "C75_any_refuted"
   ],
   "note": "C75_any_refuted: without the condition on spaces a message can stand for two errors."
  },
  {
   "property": "C76",
   "status": "proved",
   "theorems": [
    "C76_string",
    "C76_calls",
    "C76_kept",
    "C76_built",
    "C76_value",
    "C76_mode",
    "C76_mode_kept",
    "C76_parser",
    "C76_read_parts",
    "C76_write_parts",
    "C76_nodes",
    "C76_string_back",
    "C76_read_flat",
    "C76_string_back_any_refuted"
   ],
   "note": "C76_string_back_any_refuted: a ruby with a raised string as base loses it."
  },
  {
   "property": "C77",
   "status": "proved",
   "theorems": [
    "C77_image",
    "C77_lines",
    "C77_text",
    "C77_written",
    "C77_two_levels_refuted"
   ],
   "note": "C77_two_levels_refuted: no lines give items that go two levels down and return to the first, which laws often have."
  },
  {
   "property": "C78",
   "status": "proved",
   "theorems": [
    "C78_read",
    "C78_printable",
    "C78_again",
    "C78_text",
    "C78_number_text"
   ],
   "note": ""
  },
  {
   "property": "C79",
   "status": "proved",
   "theorems": [
    "C79_texts",
    "C79_toc",
    "C79_trails"
   ],
   "note": ""
  },
  {
   "property": "C80",
   "status": "proved",
   "theorems": [
    "C80_law_error",
    "C80_law_value",
    "C80_law_panic",
    "C80_error",
    "C80_value",
    "C80_panic",
    "C80_one_ending",
    "C80_refused"
   ],
   "note": ""
  },
  {
   "property": "C81",
   "status": "proved",
   "theorems": [
    "C81_law_error_stays",
    "C81_error_stays",
    "C81_missing_refuted",
    "C81_panic_refuted",
    "C81_empty_refuted"
   ],
   "note": "C81_missing_refuted, C81_panic_refuted and C81_empty_refuted show that the three exceptions are needed."
  },
  {
   "property": "C82",
   "status": "proved",
   "theorems": [
    "C82_law",
    "C82_every_type",
    "C82_decimal",
    "C82_numeral",
    "C82_read_alike"
   ],
   "note": ""
  },
  {
   "property": "C83",
   "status": "proved",
   "theorems": [
    "C83_unique",
    "C83_one_text",
    "C83_read_refuted"
   ],
   "note": ""
  },
  {
   "property": "C84",
   "status": "proved",
   "theorems": [
    "C84_law",
    "C84_all_types",
    "C84_every_type",
    "C84_distinct",
    "C84_unlike_xml"
   ],
   "note": "What the derive macros of crate serde generate is modelled from their documentation."
  },
  {
   "property": "C85",
   "status": "proved",
   "theorems": [
    "C85_form",
    "C85_written",
    "C85_same",
    "C85_law"
   ],
   "note": ""
  },
  {
   "property": "C86",
   "status": "proved",
   "theorems": [
    "C86_order",
    "C86_undeclared",
    "C86_nulls",
    "C86_addition_refuted"
   ],
   "note": "C86_addition_refuted: beside the key of a variant an undeclared entry is an error."
  },
  {
   "property": "C87",
   "status": "proved",
   "theorems": [
    "C87_main_toc",
    "C87_suppl_toc",
    "C87_main_articles",
    "C87_suppl_articles",
    "C87_law"
   ],
   "note": ""
  },
  {
   "property": "C88",
   "status": "proved",
   "theorems": [
    "C88_struct",
    "C88_struct_other",
    "C88_in_item",
    "C88_in_paragraph",
    "C88_struct_back",
    "C88_label_back",
    "C88_labelled"
   ],
   "note": ""
  },
  {
   "property": "C89",
   "status": "proved",
   "theorems": [
    "C89_file",
    "C89_bytes",
    "C89_writer",
    "C89_one_result",
    "C89_panic"
   ],
   "note": ""
  },
  {
   "property": "C90",
   "status": "proved",
   "theorems": [
    "C90_order",
    "C90_article",
    "C90_last"
   ],
   "note": ""
  },
  {
   "property": "C91",
   "status": "proved",
   "theorems": [
    "C91_same",
    "C91_same_body",
    "C91_line_ends",
    "C91_last_feed",
    "C91_blank",
    "C91_blank_loops",
    "C91_blank_counts",
    "C91_blank_first"
   ],
   "note": ""
  },
  {
   "property": "C92",
   "status": "proved",
   "theorems": [
    "C92_all_types",
    "C92_law",
    "C92_number",
    "C92_results",
    "C92_items",
    "C92_pattern",
    "C92_stored"
   ],
   "note": ""
  },
  {
   "property": "C93",
   "status": "proved",
   "theorems": [
    "C93_all_types",
    "C93_prefix",
    "C93_law",
    "C93_results",
    "C93_calls",
    "C93_calls_law",
    "C93_calls_items",
    "C93_calls_once"
   ],
   "note": ""
  },
  {
   "property": "C94",
   "status": "proved",
   "theorems": [
    "C94_replace",
    "C94_law",
    "C94_same",
    "C94_same_law",
    "C94_listing_main",
    "C94_listing_suppl",
    "C94_toc_main",
    "C94_toc_suppl",
    "C94_toc_kept_main",
    "C94_toc_kept_suppl",
    "C94_toc_rest_refuted"
   ],
   "note": ""
  },
  {
   "property": "C95",
   "status": "proved",
   "theorems": [
    "C95_parts",
    "C95_unread",
    "C95_text",
    "C95_text_unread",
    "C95_article",
    "C95_below_refuted"
   ],
   "note": ""
  },
  {
   "property": "C96",
   "status": "proved",
   "theorems": [
    "C96_all_types",
    "C96_law",
    "C96_mended",
    "C96_mended_law",
    "C96_same",
    "C96_same_law",
    "C96_survivors",
    "C96_survivors_refuted",
    "C96_from_text",
    "C96_text",
    "C96_text_iff",
    "C96_tidy"
   ],
   "note": "Exact for element trees; no claim that every element tree is the reading of an XML text."
  },
  {
   "property": "C97",
   "status": "proved",
   "theorems": [
    "C97_every_type",
    "C97_all_kinds",
    "C97_law",
    "C97_number",
    "C97_articles",
    "C97_rows",
    "C97_errors",
    "C97_unlike_message",
    "C97_lines",
    "C97_lines_equal"
   ],
   "note": "The tables of printable characters of the standard library are a parameter; the claim holds for all of them."
  },
  {
   "property": "C98",
   "status": "proved",
   "theorems": [
    "C98_one_line",
    "C98_lines",
    "C98_law",
    "C98_plain_line"
   ],
   "note": "The premise on the table of printable characters is a documented property of the standard library."
  },
  {
   "property": "C99",
   "status": "proved",
   "theorems": [
    "C99_result",
    "C99_line",
    "C99_item",
    "C99_no_date",
    "C99_text",
    "C99_silent",
    "C99_bound",
    "C99_failing",
    "C99_output_ignored_refuted"
   ],
   "note": ""
  },
  {
   "property": "C100",
   "status": "proved",
   "theorems": [
    "C100_lines",
    "C100_texts",
    "C100_laws",
    "C100_read_part"
   ],
   "note": ""
  },
  {
   "property": "C101",
   "status": "proved",
   "theorems": [
    "C101_match",
    "C101_none",
    "C101_one",
    "C101_groups",
    "C101_progress",
    "C101_roman"
   ],
   "note": ""
  },
  {
   "property": "C102",
   "status": "proved",
   "theorems": [
    "C102_patterns",
    "C102_best",
    "C102_roman",
    "C102_anchored",
    "C102_unanchored",
    "C102_unambiguous"
   ],
   "note": ""
  },
  {
   "property": "C103",
   "status": "proved",
   "theorems": [
    "C103_layout",
    "C103_deeper",
    "C103_law_layout",
    "C103_joined",
    "C103_row_layout",
    "C103_article_layout",
    "C103_article_joined",
    "C103_row_joined",
    "C103_error_joined"
   ],
   "note": "The premise on the table of printable characters is a documented property of the standard library."
  }
 ]
}