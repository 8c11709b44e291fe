{
 "claims": [
  {
   "property": "C01",
   "status": "proved",
   "theorems": [
    "C01_parsing_returns"
   ],
   "note": ""
  },
  {
   "property": "C02",
   "status": "partial",
   "theorems": [
    "C02_never_panics_refuted",
    "C02_returns_partial",
    "C02_only_panic_partial",
    "C02_unsized_never_accepted",
    "C02_panics_exactly_partial"
   ],
   "note": "The property is false of the code (C02_never_panics_refuted): a string default on char/bit/varchar/varbit without a length panics. Proved: it always returns otherwise, and that is the only way to panic."
  },
  {
   "property": "C03",
   "status": "proved",
   "theorems": [
    "C03_same_ast",
    "C03_same_error",
    "C03_otherwise_semantic"
   ],
   "note": ""
  },
  {
   "property": "C04",
   "status": "proved",
   "theorems": [
    "C04_spans_are_slices"
   ],
   "note": ""
  },
  {
   "property": "C05",
   "status": "proved",
   "theorems": [
    "C05_raw_is_source"
   ],
   "note": ""
  },
  {
   "property": "C06",
   "status": "proved",
   "theorems": [
    "C06_parts_lie_inside",
    "C06_parts_are_in_order"
   ],
   "note": ""
  },
  {
   "property": "C07",
   "status": "proved",
   "theorems": [
    "C07_whole_input"
   ],
   "note": ""
  },
  {
   "property": "C08",
   "status": "proved",
   "theorems": [
    "C08_identifiers",
    "C08_attribute_keys"
   ],
   "note": ""
  },
  {
   "property": "C09",
   "status": "partial",
   "theorems": [
    "C09_strings_verbatim_refuted",
    "C09_strings_partial",
    "C09_expressions_partial",
    "C09_verbatim_partial"
   ],
   "note": "False of the code (leading white space/comments inside quotes are dropped). Proved: exactly what is dropped, and verbatim otherwise."
  },
  {
   "property": "C10",
   "status": "proved",
   "theorems": [
    "C10_too_large",
    "C10_integers_exact",
    "C10_type_arguments_exact",
    "C10_array_sizes_exact"
   ],
   "note": ""
  },
  {
   "property": "C11",
   "status": "proved",
   "theorems": [
    "C11_types_raw",
    "C11_types_raw_checked"
   ],
   "note": ""
  },
  {
   "property": "C12",
   "status": "proved",
   "theorems": [
    "C12_column_settings"
   ],
   "note": "That no written attribute is lost is C15."
  },
  {
   "property": "C13",
   "status": "proved",
   "theorems": [
    "C13_unknown",
    "C13_other_settings"
   ],
   "note": ""
  },
  {
   "property": "C14",
   "status": "proved",
   "theorems": [
    "C14_block_references",
    "C14_inline_references",
    "C14_endpoints_have_columns"
   ],
   "note": ""
  },
  {
   "property": "C15",
   "status": "proved",
   "theorems": [
    "C15_written_is_read",
    "C15_every_schema_can_be_written",
    "C15_nothing_else_is_read",
    "C15_nothing_else_can_be_written",
    "C15_only_values_without_layout"
   ],
   "note": ""
  },
  {
   "property": "C16",
   "status": "proved",
   "theorems": [
    "C16_same_schema",
    "C16_leading_layout"
   ],
   "note": ""
  },
  {
   "property": "C17",
   "status": "proved",
   "theorems": [
    "C17_accessors_partition"
   ],
   "note": ""
  },
  {
   "property": "C18",
   "status": "proved",
   "theorems": [
    "C18_one_project"
   ],
   "note": ""
  },
  {
   "property": "C19",
   "status": "proved",
   "theorems": [
    "C19_table_names"
   ],
   "note": ""
  },
  {
   "property": "C20",
   "status": "proved",
   "theorems": [
    "C20_column_names"
   ],
   "note": ""
  },
  {
   "property": "C21",
   "status": "proved",
   "theorems": [
    "C21_aliases"
   ],
   "note": ""
  },
  {
   "property": "C22",
   "status": "proved",
   "theorems": [
    "C22_enums"
   ],
   "note": ""
  },
  {
   "property": "C23",
   "status": "partial",
   "theorems": [
    "C23_items_exist_refuted",
    "C23_groups_partial",
    "C23_unqualified_items_exist_partial"
   ],
   "note": "Existence of schema-qualified items is false of the code (refuted); everything else proved."
  },
  {
   "property": "C24",
   "status": "partial",
   "theorems": [
    "C24_keys_distinct_refuted",
    "C24_keys_distinct_partial"
   ],
   "note": "False for table groups (refuted); proved for the five other kinds of settings lists."
  },
  {
   "property": "C25",
   "status": "proved",
   "theorems": [
    "C25_primary_keys"
   ],
   "note": ""
  },
  {
   "property": "C26",
   "status": "proved",
   "theorems": [
    "C26_index_definitions"
   ],
   "note": ""
  },
  {
   "property": "C27",
   "status": "proved",
   "theorems": [
    "C27_type_arguments"
   ],
   "note": ""
  },
  {
   "property": "C28",
   "status": "proved",
   "theorems": [
    "C28_enum_defaults"
   ],
   "note": ""
  },
  {
   "property": "C29",
   "status": "partial",
   "theorems": [
    "C29_integer_defaults",
    "C29_in_range_accepted_refuted",
    "C29_in_range_accepted_partial"
   ],
   "note": "First half proved in full; the converse is false for bigint i64::MAX (refuted), proved to be the only exception."
  },
  {
   "property": "C30",
   "status": "proved",
   "theorems": [
    "C30_string_defaults"
   ],
   "note": ""
  },
  {
   "property": "C31",
   "status": "proved",
   "theorems": [
    "C31_boolean_and_null_defaults",
    "C31_types_mean_something"
   ],
   "note": ""
  },
  {
   "property": "C32",
   "status": "proved",
   "theorems": [
    "C32_endpoints_exist"
   ],
   "note": ""
  },
  {
   "property": "C33",
   "status": "proved",
   "theorems": [
    "C33_same_types",
    "C33_same_lengths"
   ],
   "note": ""
  },
  {
   "property": "C34",
   "status": "partial",
   "theorems": [
    "C34_many_to_many_refuted",
    "C34_keys_partial"
   ],
   "note": "Both-sides claim for single-column many-to-many is false of the code (refuted); the exact rule is proved."
  },
  {
   "property": "C35",
   "status": "proved",
   "theorems": [
    "C35_no_clash"
   ],
   "note": ""
  },
  {
   "property": "C36",
   "status": "proved",
   "theorems": [
    "C36_acceptance",
    "C36_acceptance_ast"
   ],
   "note": ""
  },
  {
   "property": "C37",
   "status": "proved",
   "theorems": [
    "C37_errors_truthful"
   ],
   "note": ""
  },
  {
   "property": "C38",
   "status": "proved",
   "theorems": [
    "C38_errors_in_source"
   ],
   "note": ""
  },
  {
   "property": "C39",
   "status": "proved",
   "theorems": [
    "C39_order_of_blocks",
    "C39_order_of_blocks_in_text"
   ],
   "note": ""
  },
  {
   "property": "C40",
   "status": "proved",
   "theorems": [
    "C40_table_refs"
   ],
   "note": ""
  },
  {
   "property": "C41",
   "status": "partial",
   "theorems": [
    "C41_transparent_refuted",
    "C41_alias_always_rejected",
    "C41_public_always_rejected",
    "C41_same_meaning_partial",
    "C41_explicit_schema_partial",
    "C41_spellings_in_text_partial"
   ],
   "note": "False of the code: such references always fail (proved). For tables declared with a schema the spellings are interchangeable in whole texts (proved)."
  },
  {
   "property": "C42",
   "status": "proved",
   "theorems": [
    "C42_actions",
    "C42_index_types",
    "C42_relations",
    "C42_booleans",
    "C42_boolean_texts",
    "C42_databases",
    "C42_types"
   ],
   "note": ""
  },
  {
   "property": "C43",
   "status": "proved",
   "theorems": [
    "C43_removal",
    "C43_removal_in_text",
    "C43_unused"
   ],
   "note": ""
  },
  {
   "property": "C44",
   "status": "proved",
   "theorems": [
    "C44_index_order",
    "C44_order_can_matter",
    "C44_exactly_in_text",
    "C44_index_order_in_text"
   ],
   "note": "Exact characterisation; C44_order_can_matter records that order matters in general."
  },
  {
   "property": "C45",
   "status": "proved",
   "theorems": [
    "C45_parse_errors_truthful"
   ],
   "note": ""
  },
  {
   "property": "C46",
   "status": "proved",
   "theorems": [
    "C46_database_type",
    "C46_notes_are_strings"
   ],
   "note": ""
  },
  {
   "property": "C47",
   "status": "proved",
   "theorems": [
    "C47_unambiguous",
    "C47_rejects_exactly_the_rest",
    "C47_too_big",
    "C47_too_big_only",
    "C47_one_meaning"
   ],
   "note": ""
  },
  {
   "property": "C48",
   "status": "proved",
   "theorems": [
    "C48_answer_depends_on_what_is_said",
    "C48_up_to_overridden_blocks"
   ],
   "note": ""
  },
  {
   "property": "C49",
   "status": "proved",
   "theorems": [
    "C49_block_spans",
    "C49_name_spans",
    "C49_value_spans",
    "C49_settings_spans",
    "C49_table_part_spans",
    "C49_reference_spans"
   ],
   "note": ""
  },
  {
   "property": "C50",
   "status": "proved",
   "theorems": [
    "C50_decimals_nearest",
    "C50_decimal_arguments_nearest",
    "C50_nearest_is_one",
    "C50_every_decimal_has_one"
   ],
   "note": ""
  },
  {
   "property": "C51",
   "status": "proved",
   "theorems": [
    "C51_first_fault",
    "C51_one_fault",
    "C51_real_fault"
   ],
   "note": ""
  },
  {
   "property": "C52",
   "status": "proved",
   "theorems": [
    "C52_accepts_exactly",
    "C52_any_reading",
    "C52_what_is_returned"
   ],
   "note": ""
  },
  {
   "property": "C53",
   "status": "proved",
   "theorems": [
    "C53_other_end"
   ],
   "note": ""
  },
  {
   "property": "C54",
   "status": "proved",
   "theorems": [
    "C54_inline_or_block"
   ],
   "note": ""
  },
  {
   "property": "C55",
   "status": "proved",
   "theorems": [
    "C55_order"
   ],
   "note": ""
  },
  {
   "property": "C56",
   "status": "proved",
   "theorems": [
    "C56_annotations"
   ],
   "note": ""
  },
  {
   "property": "C57",
   "status": "proved",
   "theorems": [
    "C57_all_names",
    "C57_all_new_names",
    "C57_renaming",
    "C57_new_names"
   ],
   "note": ""
  },
  {
   "property": "C58",
   "status": "proved",
   "theorems": [
    "C58_together"
   ],
   "note": ""
  },
  {
   "property": "C59",
   "status": "proved",
   "theorems": [
    "C59_join",
    "C59_join_accepted"
   ],
   "note": ""
  },
  {
   "property": "C60",
   "status": "proved",
   "theorems": [
    "C60_message_tells_the_rule",
    "C60_message_shows_the_offender",
    "C60_message_says_everything",
    "C60_numbers"
   ],
   "note": ""
  },
  {
   "property": "C61",
   "status": "proved",
   "theorems": [
    "C61_values_read_back"
   ],
   "note": ""
  },
  {
   "property": "C62",
   "status": "proved",
   "theorems": [
    "C62_reported",
    "C62_located",
    "C62_list",
    "C62_listed_is_missing",
    "C62_furthest",
    "C62_nothing_left_out",
    "C62_error_in_the_rest",
    "C62_message"
   ],
   "note": ""
  },
  {
   "property": "C63",
   "status": "proved",
   "theorems": [
    "C63_start",
    "C63_end",
    "C63_unambiguous"
   ],
   "note": ""
  },
  {
   "property": "C64",
   "status": "proved",
   "theorems": [
    "C64_grammar_is_the_file",
    "C64_layout_is_the_file",
    "C64_optimized_file",
    "C64_skip_pass",
    "C64_optimizer"
   ],
   "note": ""
  },
  {
   "property": "C65",
   "status": "proved",
   "theorems": [
    "C65_same_parse",
    "C65_polynomial",
    "C65_polynomial_optimized",
    "C65_pairs"
   ],
   "note": ""
  },
  {
   "property": "C66",
   "status": "proved",
   "theorems": [
    "C66_ast",
    "C66_one_ast",
    "C66_checked"
   ],
   "note": ""
  },
  {
   "property": "C67",
   "status": "proved",
   "theorems": [
    "C67_references",
    "C67_tables",
    "C67_enums",
    "C67_aliases",
    "C67_endpoints",
    "C67_enum_values",
    "C67_fields",
    "C67_groups"
   ],
   "note": ""
  },
  {
   "property": "C68",
   "status": "proved",
   "theorems": [
    "C68_reported",
    "C68_reported_checked",
    "C68_accepted",
    "C68_every_text",
    "C68_one_list",
    "C68_none_iff_fits",
    "C68_order"
   ],
   "note": ""
  },
  {
   "property": "C69",
   "status": "proved",
   "theorems": [
    "C69_checked",
    "C69_unchecked",
    "C69_one_answer",
    "C69_one_reading"
   ],
   "note": ""
  },
  {
   "property": "C70",
   "status": "proved",
   "theorems": [
    "C70_checked",
    "C70_unchecked"
   ],
   "note": ""
  },
  {
   "property": "C71",
   "status": "proved",
   "theorems": [
    "C71_join",
    "C71_not"
   ],
   "note": ""
  },
  {
   "property": "C72",
   "status": "proved",
   "theorems": [
    "C72_piece",
    "C72_alone"
   ],
   "note": ""
  },
  {
   "property": "C73",
   "status": "proved",
   "theorems": [
    "C73_edit",
    "C73_insert",
    "C73_delete"
   ],
   "note": ""
  },
  {
   "property": "C74",
   "status": "proved",
   "theorems": [
    "C74_part",
    "C74_faults_stay"
   ],
   "note": ""
  },
  {
   "property": "C75",
   "status": "proved",
   "theorems": [
    "C75_says_the_same",
    "C75_same_answer",
    "C75_values_that_span_lines",
    "C75_same_outcome",
    "C75_no_new_errors",
    "C75_windows",
    "C75_flush_left"
   ],
   "note": ""
  },
  {
   "property": "C76",
   "status": "proved",
   "theorems": [
    "C76_no_larger",
    "C76_text"
   ],
   "note": ""
  },
  {
   "property": "C77",
   "status": "proved",
   "theorems": [
    "C77_same_verdict",
    "C77_cubic"
   ],
   "note": ""
  },
  {
   "property": "C78",
   "status": "proved",
   "theorems": [
    "C78_same_answer",
    "C78_build_linear",
    "C78_polynomial"
   ],
   "note": ""
  },
  {
   "property": "C79",
   "status": "proved",
   "theorems": [
    "C79_same_outcome",
    "C79_says",
    "C79_read",
    "C79_accepted",
    "C79_accepted_iff",
    "C79_ast",
    "C79_checked_ast",
    "C79_answer",
    "C79_checked_answer",
    "C79_grammar_error",
    "C79_shown",
    "C79_analyze",
    "C79_table_refs"
   ],
   "note": ""
  },
  {
   "property": "C80",
   "status": "proved",
   "theorems": [
    "C80_each_reference",
    "C80_outgoing",
    "C80_incoming",
    "C80_undeclared"
   ],
   "note": ""
  },
  {
   "property": "C81",
   "status": "partial",
   "theorems": [
    "C81_ref_to_refuted",
    "C81_foreign_keys_partial",
    "C81_turned_partial"
   ],
   "note": "False of the code (refuted): ref_to goes by which end is written first. How to read the foreign keys off ref_to and ref_by is proved."
  },
  {
   "property": "C82",
   "status": "proved",
   "theorems": [
    "C82_prints",
    "C82_excerpt",
    "C82_grammar_caret",
    "C82_names_something",
    "C82_marked_part"
   ],
   "note": ""
  },
  {
   "property": "C83",
   "status": "proved",
   "theorems": [
    "C83_grammar_error",
    "C83_moves_down",
    "C83_printed",
    "C83_declarations_above",
    "C83_declarations_below",
    "C83_whole_text",
    "C83_no_place"
   ],
   "note": ""
  },
  {
   "property": "C84",
   "status": "proved",
   "theorems": [
    "C84_same_lines",
    "C84_any_line_ends",
    "C84_same_message",
    "C84_grammar_error",
    "C84_shown",
    "C84_printed",
    "C84_printed_at_a_line_end"
   ],
   "note": ""
  }
 ]
}