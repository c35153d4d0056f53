{
 "claims": [
  {
   "property": "C01",
   "status": "proved",
   "theorems": [
    "C01_range_pair",
    "C01_range_single",
    "C01_range_text",
    "C01_range_overlong",
    "C01_range_cases",
    "C01_range_roundtrip"
   ],
   "note": ""
  },
  {
   "property": "C02",
   "status": "proved",
   "theorems": [
    "C02_reversed_iff"
   ],
   "note": ""
  },
  {
   "property": "C03",
   "status": "proved",
   "theorems": [
    "C03_document",
    "C03_neighbour_lints",
    "C03_overlap_gap_iff"
   ],
   "note": ""
  },
  {
   "property": "C04",
   "status": "proved",
   "theorems": [
    "C04_document",
    "C04_clean_partition"
   ],
   "note": ""
  },
  {
   "property": "C05",
   "status": "proved",
   "theorems": [
    "C05_contiguous_clean"
   ],
   "note": ""
  },
  {
   "property": "C06",
   "status": "proved",
   "theorems": [
    "C06_order_reported",
    "C06_order_iff",
    "C06_naive_order_refuted"
   ],
   "note": "The code's actual order check, with a witness that a descending pair above the first low is not reported."
  },
  {
   "property": "C07",
   "status": "proved",
   "theorems": [
    "C07_fields_determined",
    "C07_field_order",
    "C07_value_order"
   ],
   "note": ""
  },
  {
   "property": "C08",
   "status": "proved",
   "theorems": [
    "C08_duplicate_labels",
    "C08_labels_distinct"
   ],
   "note": ""
  },
  {
   "property": "C09",
   "status": "proved",
   "theorems": [
    "C09_value_duplicates",
    "C09_values_distinct"
   ],
   "note": ""
  },
  {
   "property": "C10",
   "status": "proved",
   "theorems": [
    "C10_headers",
    "C10_no_row",
    "C10_header_unique",
    "C10_normal_fixed"
   ],
   "note": ""
  },
  {
   "property": "C11",
   "status": "proved",
   "theorems": [
    "C11_choice",
    "C11_skipped",
    "C11_skipped_only"
   ],
   "note": ""
  },
  {
   "property": "C12",
   "status": "proved",
   "theorems": [
    "C12_columns",
    "C12_distinct",
    "C12_first_match_refuted"
   ],
   "note": ""
  },
  {
   "property": "C13",
   "status": "proved",
   "theorems": [
    "C13_tiling",
    "C13_headers",
    "C13_content"
   ],
   "note": ""
  },
  {
   "property": "C14",
   "status": "proved",
   "theorems": [
    "C14_header_row",
    "C14_empty_row",
    "C14_restoration_refuted"
   ],
   "note": ""
  },
  {
   "property": "C15",
   "status": "proved",
   "theorems": [
    "C15_verbatim"
   ],
   "note": ""
  },
  {
   "property": "C16",
   "status": "proved",
   "theorems": [
    "C16_brief",
    "C16_brief_exact",
    "C16_exact",
    "C16_unique",
    "C16_document"
   ],
   "note": ""
  },
  {
   "property": "C17",
   "status": "proved",
   "theorems": [
    "C17_pattern_total",
    "C17_reading_unique",
    "C17_same_column",
    "C17_acronym_form",
    "C17_exact",
    "C17_read"
   ],
   "note": ""
  },
  {
   "property": "C18",
   "status": "proved",
   "theorems": [
    "C18_value_label",
    "C18_pattern_total",
    "C18_exact",
    "C18_unique"
   ],
   "note": ""
  },
  {
   "property": "C19",
   "status": "proved",
   "theorems": [
    "C19_no_separators",
    "C19_upper",
    "C19_trimmed",
    "C19_idempotent",
    "C19_idempotent_refuted",
    "C19_trimmed_refuted",
    "C19_words_joined",
    "C19_exact"
   ],
   "note": ""
  },
  {
   "property": "C20",
   "status": "proved",
   "theorems": [
    "C20_validate"
   ],
   "note": ""
  },
  {
   "property": "C21",
   "status": "proved",
   "theorems": [
    "C21_identifiers",
    "C21_document"
   ],
   "note": ""
  },
  {
   "property": "C22",
   "status": "proved",
   "theorems": [
    "C22_separate_column",
    "C22_imputed_iff",
    "C22_value_attribute"
   ],
   "note": ""
  },
  {
   "property": "C23",
   "status": "proved",
   "theorems": [
    "C23_concatenation",
    "C23_replacement"
   ],
   "note": ""
  },
  {
   "property": "C24",
   "status": "proved",
   "theorems": [
    "C24_abort",
    "C24_finishes",
    "C24_exceptions",
    "C24_aborts_refuted"
   ],
   "note": ""
  },
  {
   "property": "C25",
   "status": "proved",
   "theorems": [
    "C25_one_error",
    "C25_document",
    "C25_failed",
    "C25_no_own_entity"
   ],
   "note": ""
  },
  {
   "property": "C26",
   "status": "proved",
   "theorems": [
    "C26_fail_fast",
    "C26_errors"
   ],
   "note": ""
  },
  {
   "property": "C27",
   "status": "proved",
   "theorems": [
    "C27_wellformed",
    "C27_figure_id"
   ],
   "note": ""
  },
  {
   "property": "C28",
   "status": "proved",
   "theorems": [
    "C28_numbering",
    "C28_distinct",
    "C28_untitled"
   ],
   "note": ""
  },
  {
   "property": "C29",
   "status": "proved",
   "theorems": [
    "C29_figure_id"
   ],
   "note": ""
  },
  {
   "property": "C30",
   "status": "proved",
   "theorems": [
    "C30_order",
    "C30_sub"
   ],
   "note": ""
  },
  {
   "property": "C31",
   "status": "proved",
   "theorems": [
    "C31_refuted",
    "C31_rows_refuted"
   ],
   "note": ""
  },
  {
   "property": "C32",
   "status": "proved",
   "theorems": [
    "C32_ignore"
   ],
   "note": ""
  },
  {
   "property": "C33",
   "status": "proved",
   "theorems": [
    "C33_written",
    "C33_not_opened",
    "C33_complete"
   ],
   "note": ""
  },
  {
   "property": "C34",
   "status": "proved",
   "theorems": [
    "C34_same_result",
    "C34_reports",
    "C34_stop"
   ],
   "note": ""
  },
  {
   "property": "C35",
   "status": "proved",
   "theorems": [
    "C35_total",
    "C35_index_refuted",
    "C35_split_refuted"
   ],
   "note": ""
  },
  {
   "property": "C36",
   "status": "proved",
   "theorems": [
    "C36_schema",
    "C36_refuted"
   ],
   "note": ""
  },
  {
   "property": "C37",
   "status": "proved",
   "theorems": [
    "C37_terminates",
    "C37_any_depth"
   ],
   "note": ""
  },
  {
   "property": "C38",
   "status": "proved",
   "theorems": [
    "C38_formula_range",
    "C38_formula_range_text",
    "C38_no_list",
    "C38_text_reported"
   ],
   "note": ""
  },
  {
   "property": "C39",
   "status": "proved",
   "theorems": [
    "C39_row"
   ],
   "note": ""
  },
  {
   "property": "C40",
   "status": "proved",
   "theorems": [
    "C40_override",
    "C40_no_extraction"
   ],
   "note": ""
  },
  {
   "property": "C41",
   "status": "proved",
   "theorems": [
    "C41_rectangles",
    "C41_positions",
    "C41_shown_unique",
    "C41_misaligned_refuted"
   ],
   "note": ""
  },
  {
   "property": "C42",
   "status": "proved",
   "theorems": [
    "C42_cells",
    "C42_tag",
    "C42_header"
   ],
   "note": ""
  },
  {
   "property": "C43",
   "status": "proved",
   "theorems": [
    "C43_lossless",
    "C43_covered_row_refuted"
   ],
   "note": ""
  },
  {
   "property": "C44",
   "status": "proved",
   "theorems": [
    "C44_places",
    "C44_once",
    "C44_count",
    "C44_own_place",
    "C44_negative_refuted"
   ],
   "note": ""
  },
  {
   "property": "C45",
   "status": "proved",
   "theorems": [
    "C45_list",
    "C45_items",
    "C45_depth",
    "C45_terminates"
   ],
   "note": ""
  },
  {
   "property": "C46",
   "status": "proved",
   "theorems": [
    "C46_list"
   ],
   "note": ""
  },
  {
   "property": "C47",
   "status": "proved",
   "theorems": [
    "C47_reversible"
   ],
   "note": ""
  },
  {
   "property": "C48",
   "status": "proved",
   "theorems": [
    "C48_text",
    "C48_cells",
    "C48_apart"
   ],
   "note": ""
  },
  {
   "property": "C49",
   "status": "proved",
   "theorems": [
    "C49_merge",
    "C49_algebra",
    "C49_equal_hash"
   ],
   "note": ""
  },
  {
   "property": "C50",
   "status": "proved",
   "theorems": [
    "C50_decoration",
    "C50_switched_off"
   ],
   "note": ""
  },
  {
   "property": "C51",
   "status": "proved",
   "theorems": [
    "C51_props",
    "C51_value",
    "C51_raises",
    "C51_run",
    "C51_cycle"
   ],
   "note": ""
  },
  {
   "property": "C52",
   "status": "proved",
   "theorems": [
    "C52_operations",
    "C52_all"
   ],
   "note": ""
  },
  {
   "property": "C53",
   "status": "proved",
   "theorems": [
    "C53_id",
    "C53_document",
    "C53_file"
   ],
   "note": ""
  },
  {
   "property": "C54",
   "status": "proved",
   "theorems": [
    "C54_revision",
    "C54_title"
   ],
   "note": ""
  },
  {
   "property": "C55",
   "status": "proved",
   "theorems": [
    "C55_serves",
    "C55_overwrites"
   ],
   "note": ""
  },
  {
   "property": "C56",
   "status": "proved",
   "theorems": [
    "C56_events",
    "C56_available",
    "C56_failure",
    "C56_kept",
    "C56_failure_refuted"
   ],
   "note": ""
  },
  {
   "property": "C57",
   "status": "proved",
   "theorems": [
    "C57_unknown",
    "C57_never_404"
   ],
   "note": ""
  },
  {
   "property": "C58",
   "status": "proved",
   "theorems": [
    "C58_rows",
    "C58_sum",
    "C58_selected",
    "C58_figures",
    "C58_report",
    "C58_builtin_refuted"
   ],
   "note": ""
  },
  {
   "property": "C59",
   "status": "proved",
   "theorems": [
    "C59_success",
    "C59_failure",
    "C59_status"
   ],
   "note": ""
  },
  {
   "property": "C60",
   "status": "proved",
   "theorems": [
    "C60_name",
    "C60_shared",
    "C60_last_wins"
   ],
   "note": ""
  },
  {
   "property": "C61",
   "status": "proved",
   "theorems": [
    "C61_codes",
    "C61_unknown"
   ],
   "note": ""
  },
  {
   "property": "C62",
   "status": "proved",
   "theorems": [
    "C62_number_moved",
    "C62_number_moved_plain",
    "C62_other_unchanged",
    "C62_exact"
   ],
   "note": ""
  },
  {
   "property": "C63",
   "status": "proved",
   "theorems": [
    "C63_terminates"
   ],
   "note": ""
  },
  {
   "property": "C64",
   "status": "proved",
   "theorems": [
    "C64_listed",
    "C64_level",
    "C64_known",
    "C64_numbered",
    "C64_by_number_refuted"
   ],
   "note": ""
  },
  {
   "property": "C65",
   "status": "proved",
   "theorems": [
    "C65_text",
    "C65_unique",
    "C65_defined",
    "C65_all_refuted"
   ],
   "note": ""
  },
  {
   "property": "C66",
   "status": "proved",
   "theorems": [
    "C66_document",
    "C66_any_refuted"
   ],
   "note": ""
  },
  {
   "property": "C67",
   "status": "proved",
   "theorems": [
    "C67_read_back"
   ],
   "note": ""
  },
  {
   "property": "C68",
   "status": "proved",
   "theorems": [
    "C68_inside",
    "C68_outside_refuted"
   ],
   "note": ""
  },
  {
   "property": "C69",
   "status": "proved",
   "theorems": [
    "C69_digest"
   ],
   "note": ""
  },
  {
   "property": "C70",
   "status": "proved",
   "theorems": [
    "C70_table"
   ],
   "note": ""
  },
  {
   "property": "C71",
   "status": "proved",
   "theorems": [
    "C71_text",
    "C71_keys",
    "C71_plain",
    "C71_figures",
    "C71_lossless"
   ],
   "note": ""
  },
  {
   "property": "C72",
   "status": "proved",
   "theorems": [
    "C72_intact",
    "C72_ascii",
    "C72_goes",
    "C72_server",
    "C72_always_refuted"
   ],
   "note": ""
  },
  {
   "property": "C73",
   "status": "proved",
   "theorems": [
    "C73_file",
    "C73_read_back",
    "C73_cr_refuted"
   ],
   "note": ""
  },
  {
   "property": "C74",
   "status": "proved",
   "theorems": [
    "C74_sheet",
    "C74_text",
    "C74_cell",
    "C74_order",
    "C74_injection_refuted"
   ],
   "note": ""
  },
  {
   "property": "C75",
   "status": "proved",
   "theorems": [
    "C75_markers",
    "C75_own_level",
    "C75_mixed_refuted",
    "C75_skipped_refuted"
   ],
   "note": ""
  },
  {
   "property": "C76",
   "status": "proved",
   "theorems": [
    "C76_table",
    "C76_border",
    "C76_paragraph"
   ],
   "note": ""
  },
  {
   "property": "C77",
   "status": "proved",
   "theorems": [
    "C77_emitted",
    "C77_obstacle",
    "C77_causes",
    "C77_readable",
    "C77_document"
   ],
   "note": ""
  },
  {
   "property": "C78",
   "status": "proved",
   "theorems": [
    "C78_figure",
    "C78_file"
   ],
   "note": ""
  },
  {
   "property": "C79",
   "status": "proved",
   "theorems": [
    "C79_cells",
    "C79_figure",
    "C79_file"
   ],
   "note": ""
  },
  {
   "property": "C80",
   "status": "proved",
   "theorems": [
    "C80_unique",
    "C80_figure",
    "C80_document",
    "C80_file"
   ],
   "note": ""
  },
  {
   "property": "C81",
   "status": "proved",
   "theorems": [
    "C81_document",
    "C81_unique",
    "C81_error",
    "C81_shown"
   ],
   "note": ""
  },
  {
   "property": "C82",
   "status": "proved",
   "theorems": [
    "C82_frame",
    "C82_docx",
    "C82_html",
    "C82_model",
    "C82_replaced_refuted"
   ],
   "note": ""
  },
  {
   "property": "C83",
   "status": "proved",
   "theorems": [
    "C83_one",
    "C83_docx",
    "C83_html",
    "C83_failure"
   ],
   "note": ""
  },
  {
   "property": "C84",
   "status": "proved",
   "theorems": [
    "C84_json",
    "C84_html",
    "C84_again"
   ],
   "note": ""
  },
  {
   "property": "C85",
   "status": "proved",
   "theorems": [
    "C85_total",
    "C85_success",
    "C85_skip"
   ],
   "note": ""
  },
  {
   "property": "C86",
   "status": "proved",
   "theorems": [
    "C86_file",
    "C86_read",
    "C86_interrupted",
    "C86_console",
    "C86_debug"
   ],
   "note": ""
  },
  {
   "property": "C87",
   "status": "proved",
   "theorems": [
    "C87_rows",
    "C87_cells",
    "C87_ends",
    "C87_all_cells_refuted"
   ],
   "note": ""
  },
  {
   "property": "C88",
   "status": "proved",
   "theorems": [
    "C88_traceable",
    "C88_same",
    "C88_reports",
    "C88_abort",
    "C88_silent",
    "C88_which",
    "C88_which_title",
    "C88_told_refuted"
   ],
   "note": ""
  },
  {
   "property": "C89",
   "status": "proved",
   "theorems": [
    "C89_traceable",
    "C89_same",
    "C89_told",
    "C89_announced",
    "C89_status",
    "C89_clean",
    "C89_console",
    "C89_ignored_refuted",
    "C89_above_refuted"
   ],
   "note": ""
  },
  {
   "property": "C90",
   "status": "proved",
   "theorems": [
    "C90_starts",
    "C90_unique",
    "C90_stops",
    "C90_made",
    "C90_refused",
    "C90_usage",
    "C90_split",
    "C90_ambiguous",
    "C90_early",
    "C90_no_input",
    "C90_checked",
    "C90_anywhere_refuted",
    "C90_unmade_refuted"
   ],
   "note": ""
  },
  {
   "property": "C91",
   "status": "proved",
   "theorems": [
    "C91_total",
    "C91_run",
    "C91_usage",
    "C91_frame",
    "C91_success"
   ],
   "note": ""
  },
  {
   "property": "C92",
   "status": "proved",
   "theorems": [
    "C92_origin",
    "C92_closed",
    "C92_ascii",
    "C92_utf8",
    "C92_latin1_refuted"
   ],
   "note": ""
  },
  {
   "property": "C93",
   "status": "proved",
   "theorems": [
    "C93_same",
    "C93_document",
    "C93_tables",
    "C93_attributes",
    "C93_formatting",
    "C93_paragraphs_refuted",
    "C93_run"
   ],
   "note": ""
  },
  {
   "property": "C94",
   "status": "proved",
   "theorems": [
    "C94_text",
    "C94_attribute",
    "C94_children",
    "C94_child",
    "C94_heading",
    "C94_spanning",
    "C94_without",
    "C94_integer",
    "C94_span"
   ],
   "note": ""
  },
  {
   "property": "C95",
   "status": "proved",
   "theorems": [
    "C95_labels",
    "C95_figure",
    "C95_run",
    "C95_special_refuted"
   ],
   "note": ""
  },
  {
   "property": "C96",
   "status": "proved",
   "theorems": [
    "C96_document",
    "C96_numbering",
    "C96_run",
    "C96_cleaned",
    "C96_edited",
    "C96_bookmark_refuted",
    "C96_told",
    "C96_program"
   ],
   "note": ""
  },
  {
   "property": "C97",
   "status": "proved",
   "theorems": [
    "C97_document",
    "C97_exactly",
    "C97_more",
    "C97_input",
    "C97_run",
    "C97_always_refuted",
    "C97_anywhere",
    "C97_program",
    "C97_messages",
    "C97_told"
   ],
   "note": ""
  }
 ]
}