{
 "claims": [
  {
   "property": "C01",
   "status": "proved",
   "theorems": [
    "C01_unknown_keys_irrelevant",
    "C01_unknown_keys_irrelevant_from_dict",
    "C01_unknown_keys_irrelevant_mark",
    "C01_only_declared_keys_left",
    "C01_content_always_walked"
   ],
   "note": "Full outcome (result, exception, log) for parse_node, K.from_dict and parse_mark. 'content' and 'marks' count as keys that matter on every class because the code walks them."
  },
  {
   "property": "C02",
   "status": "proved",
   "theorems": [
    "C02_unimplemented_pruned_exactly",
    "C02_unimplemented_pruned_exactly_from_dict",
    "C02_prune_leaves_nothing"
   ],
   "note": ""
  },
  {
   "property": "C03",
   "status": "proved",
   "theorems": [
    "C03_unimplemented_never_escapes",
    "C03_unimplemented_iff",
    "C03_first_fault_is_raised",
    "C03_first_fault_is_raised_from_dict",
    "C03_deep_failure_propagates"
   ],
   "note": ""
  },
  {
   "property": "C04",
   "status": "proved",
   "theorems": [
    "C04_dispatch_sound",
    "C04_dispatch_sound_mark",
    "C04_dispatch_sound_from_dict",
    "C04_type_test_is_class_test",
    "C04_registries",
    "C04_registries_of_source",
    "C04_source_consistent"
   ],
   "note": ""
  },
  {
   "property": "C05",
   "status": "proved",
   "theorems": [
    "C05_accepted_iff",
    "C05_accepted_iff_from_dict",
    "C05_missing_required_field",
    "C05_bad_attrs",
    "C05_accepted_iff_source",
    "C05_accepted_iff_source_mark"
   ],
   "note": "Exact acceptance condition, both over the model's class tables and over the tables generated from the source text (RepoSchema.v)."
  },
  {
   "property": "C06",
   "status": "proved",
   "theorems": [
    "C06_declared_data_preserved",
    "C06_declared_data_preserved_from_dict",
    "C06_declared_data_preserved_mark",
    "C06_children_in_order",
    "C06_marks_in_order",
    "C06_fields_of_source",
    "C06_fields_of_source_mark"
   ],
   "note": ""
  },
  {
   "property": "C07",
   "status": "proved",
   "theorems": [
    "C07_history_log",
    "C07_flag_only_affects_log",
    "C07_flag_only_affects_log_from_dict",
    "C07_flag_off_is_silent",
    "C07_flag_off_is_silent_from_dict"
   ],
   "note": ""
  },
  {
   "property": "C08",
   "status": "proved",
   "theorems": [
    "C08_cache_transparent",
    "C08_all_answers",
    "C08_entries_correct",
    "C08_entries_never_lost"
   ],
   "note": ""
  },
  {
   "property": "C09",
   "status": "proved",
   "theorems": [
    "C09_argument_unchanged",
    "C09_result_is_fresh",
    "C09_no_aliasing",
    "C09_argument_same_graph",
    "C09_later_edits",
    "C09_same_result",
    "C09_two_parses",
    "C09_attrs_class_aliases_refuted"
   ],
   "note": "Heap model with shared sub-objects; refinement to the value model in HeapRefine.v. Refuted for Attrs.from_dict called directly."
  },
  {
   "property": "C10",
   "status": "proved",
   "theorems": [
    "C10_object_roundtrip",
    "C10_object_roundtrip_from_dict",
    "C10_object_roundtrip_mark",
    "C10_without_list_content_refuted"
   ],
   "note": "Proviso: content/marks hold lists (listy) and the input is JSON (no OPT inside); refuted without it."
  },
  {
   "property": "C11",
   "status": "proved",
   "theorems": [
    "C11_dictionary_normal_form",
    "C11_dictionary_normal_form_mark",
    "C11_keys_of_source"
   ],
   "note": ""
  },
  {
   "property": "C12",
   "status": "proved",
   "theorems": [
    "C12_no_sentinel_refuted",
    "C12_sentinel_iff_unset_mark_attribute"
   ],
   "note": "Exact condition for the leak (iff), plus a witness that the documented 'no sentinel' claim is false."
  },
  {
   "property": "C13",
   "status": "proved",
   "theorems": [
    "C13_serialisation_stable"
   ],
   "note": ""
  },
  {
   "property": "C14",
   "status": "proved",
   "theorems": [
    "C14_markdown_independent_of_roundtrip",
    "C14_markdown_independent_of_unimplemented"
   ],
   "note": ""
  },
  {
   "property": "C15",
   "status": "proved",
   "theorems": [
    "C15_emphasis_wraps",
    "C15_text_recoverable"
   ],
   "note": ""
  },
  {
   "property": "C16",
   "status": "proved",
   "theorems": [
    "C16_transparent",
    "C16_insert_anywhere",
    "C16_marks_without_markdown_irrelevant",
    "C16_drop_all"
   ],
   "note": ""
  },
  {
   "property": "C17",
   "status": "proved",
   "theorems": [
    "C17_no_marks",
    "C17_marks_in_order",
    "C17_text_kept",
    "C17_indentation_loses_text",
    "C17_titled_link_loses_text",
    "C17_content_preservation_refuted"
   ],
   "note": ""
  },
  {
   "property": "C18",
   "status": "proved",
   "theorems": [
    "C18_code_mark",
    "C18_code_fails_iff"
   ],
   "note": ""
  },
  {
   "property": "C19",
   "status": "proved",
   "theorems": [
    "C19_link",
    "C19_link_href_required"
   ],
   "note": ""
  },
  {
   "property": "C20",
   "status": "proved",
   "theorems": [
    "C20_input_text_kept",
    "C20_input_text_verbatim",
    "C20_input_text_in_output",
    "C20_texts_in_order",
    "C20_no_text_lost",
    "C20_leaves_verbatim",
    "C20_ignore_error",
    "C20_exceptions_refuted"
   ],
   "note": ""
  },
  {
   "property": "C21",
   "status": "proved",
   "theorems": [
    "C21_every_run",
    "C21_without_newline_unchanged",
    "C21_short_runs_stay",
    "C21_up_to_six_become_two",
    "C21_from_seven_on_a_double_blank_line_stays",
    "C21_only_deletes",
    "C21_visible_characters_kept",
    "C21_full_lines_kept",
    "C21_three_newlines_iff_seven",
    "C21_at_most_one_blank_line_refuted"
   ],
   "note": ""
  },
  {
   "property": "C22",
   "status": "proved",
   "theorems": [
    "C22_two_blank_lines_iff",
    "C22_no_double_blank_line_refuted"
   ],
   "note": "Iff condition; the documented claim is refuted by a witness."
  },
  {
   "property": "C23",
   "status": "proved",
   "theorems": [
    "C23_conservative",
    "C23_conservative_at_level",
    "C23_errors_shrink"
   ],
   "note": ""
  },
  {
   "property": "C24",
   "status": "proved",
   "theorems": [
    "C24_document",
    "C24_every_container",
    "C24_table"
   ],
   "note": ""
  },
  {
   "property": "C25",
   "status": "proved",
   "theorems": [
    "C25_first_failing_child",
    "C25_table",
    "C25_list",
    "C25_task_list",
    "C25_decision_list"
   ],
   "note": ""
  },
  {
   "property": "C26",
   "status": "proved",
   "theorems": [
    "C26_what_is_skipped",
    "C26_propagation_refuted",
    "C26_task_list_raises_anyway",
    "C26_ordered_list_raises_anyway"
   ],
   "note": "Exact description of what is skipped; the documented recursive propagation is refuted by a witness."
  },
  {
   "property": "C27",
   "status": "proved",
   "theorems": [
    "C27_padding",
    "C27_document",
    "C27_expand",
    "C27_visible_characters",
    "C27_full_lines"
   ],
   "note": ""
  },
  {
   "property": "C28",
   "status": "proved",
   "theorems": [
    "C28_lines",
    "C28_columns",
    "C28_delimiter_columns",
    "C28_header_row"
   ],
   "note": ""
  },
  {
   "property": "C29",
   "status": "proved",
   "theorems": [
    "C29_cell",
    "C29_every_line_has_leading_spaces",
    "C29_single_line",
    "C29_pipes_escaped",
    "C29_plain_cell",
    "C29_header_like_cell",
    "C29_backslash_not_escaped"
   ],
   "note": ""
  },
  {
   "property": "C30",
   "status": "proved",
   "theorems": [
    "C30_header_row_table",
    "C30_no_header_no_delimiter",
    "C30_header_column_delimiters",
    "C30_one_delimiter_refuted"
   ],
   "note": ""
  },
  {
   "property": "C31",
   "status": "proved",
   "theorems": [
    "C31_bullet_outline",
    "C31_bullet_at_level",
    "C31_lines_are_the_outline",
    "C31_one_line_per_item",
    "C31_outline_unique",
    "C31_rendering_lists_have_an_outline"
   ],
   "note": ""
  },
  {
   "property": "C32",
   "status": "proved",
   "theorems": [
    "C32_ordered_outline",
    "C32_default_start",
    "C32_nested_start",
    "C32_consecutive",
    "C32_one_line_per_item",
    "C32_lines_are_the_outline",
    "C32_rendering_lists_have_an_outline",
    "C32_outline_unique",
    "C32_no_attrs_raises"
   ],
   "note": ""
  },
  {
   "property": "C33",
   "status": "proved",
   "theorems": [
    "C33_task_outline",
    "C33_task_at_level",
    "C33_one_line_per_task",
    "C33_outline_unique",
    "C33_rendering_lists_have_an_outline",
    "C33_item_without_content_raises"
   ],
   "note": ""
  },
  {
   "property": "C34",
   "status": "proved",
   "theorems": [
    "C34_foreign_list_is_copied_flat",
    "C34_mixed_nesting_refuted"
   ],
   "note": "What really happens to a foreign list is proved for every depth; the documented indentation is refuted by witnesses."
  },
  {
   "property": "C35",
   "status": "proved",
   "theorems": [
    "C35_decision_item",
    "C35_blank_item",
    "C35_stretches_unique",
    "C35_every_line_quoted",
    "C35_no_blank_before_second",
    "C35_no_adjacent_blank",
    "C35_no_trailing_space",
    "C35_last_line",
    "C35_content_kept",
    "C35_decision_list"
   ],
   "note": ""
  },
  {
   "property": "C36",
   "status": "proved",
   "theorems": [
    "C36_lines_determined",
    "C36_unquote",
    "C36_blockquote",
    "C36_panel",
    "C36_panel_title"
   ],
   "note": ""
  },
  {
   "property": "C37",
   "status": "proved",
   "theorems": [
    "C37_heading",
    "C37_heading_without_content",
    "C37_heading_marks_irrelevant",
    "C37_heading_level_must_be_int"
   ],
   "note": ""
  },
  {
   "property": "C38",
   "status": "proved",
   "theorems": [
    "C38_date",
    "C38_out_of_range",
    "C38_range",
    "C38_calendar_function",
    "C38_later_is_later",
    "C38_same_day",
    "C38_not_a_number"
   ],
   "note": ""
  },
  {
   "property": "C39",
   "status": "proved",
   "theorems": [
    "C39_code_block",
    "C39_code_block_without_attrs",
    "C39_code_verbatim",
    "C39_code_block_lines",
    "C39_fence_safety_refuted"
   ],
   "note": ""
  },
  {
   "property": "C40",
   "status": "proved",
   "theorems": [
    "C40_emoji",
    "C40_mention",
    "C40_status",
    "C40_inline_card",
    "C40_block_card",
    "C40_embed_card",
    "C40_extension",
    "C40_any_value",
    "C40_rule_and_break"
   ],
   "note": ""
  },
  {
   "property": "C41",
   "status": "proved",
   "theorems": [
    "C41_external_media",
    "C41_file_media",
    "C41_any_id",
    "C41_marks",
    "C41_link_media",
    "C41_other_media"
   ],
   "note": ""
  },
  {
   "property": "C42",
   "status": "proved",
   "theorems": [
    "C42_result_is_str",
    "C42_text_returns_its_text"
   ],
   "note": ""
  },
  {
   "property": "C43",
   "status": "proved",
   "theorems": [
    "C43_is_type_of",
    "C43_is_type_of_mark",
    "C43_single_is_one_element_list",
    "C43_monotone",
    "C43_order_irrelevant"
   ],
   "note": ""
  },
  {
   "property": "C44",
   "status": "proved",
   "theorems": [
    "C44_well_formed_renders",
    "C44_lists_at_every_level",
    "C44_documented_input_renders"
   ],
   "note": ""
  },
  {
   "property": "C45",
   "status": "proved",
   "theorems": [
    "C45_exact",
    "C45_succeeds_iff_modules_load",
    "C45_order_independent",
    "C45_last_import_wins",
    "C45_collision_free",
    "C45_same_name_in_two_modules_refuted",
    "C45_marks_in_path_refuted",
    "C45_committed_file",
    "C45_repository_well_formed",
    "C45_repository_collision_free"
   ],
   "note": "Exactness, order independence, success condition; name collisions and a 'marks' path component are shown as deviations; the repository's own modules (RepoApi.v, generated from the source) are checked to have none and to generate the committed api.py."
  },
  {
   "property": "C46",
   "status": "proved",
   "theorems": [
    "C46_ignored_children",
    "C46_empty_containers"
   ],
   "note": ""
  },
  {
   "property": "C47",
   "status": "proved",
   "theorems": [
    "C47_message_identifies",
    "C47_message_injective"
   ],
   "note": ""
  },
  {
   "property": "C48",
   "status": "proved",
   "theorems": [
    "C48_presentation_irrelevant",
    "C48_unread_attrs"
   ],
   "note": ""
  },
  {
   "property": "C49",
   "status": "proved",
   "theorems": [
    "C49_every_answer_as_alone",
    "C49_cache_correct",
    "C49_log_of_a_thread",
    "C49_log_complete",
    "C49_log_silent",
    "C49_never_blocks",
    "C49_terminates",
    "C49_can_finish"
   ],
   "note": ""
  },
  {
   "property": "C50",
   "status": "proved",
   "theorems": [
    "C50_object_unchanged",
    "C50_result_is_fresh",
    "C50_no_aliasing",
    "C50_same_result",
    "C50_same_result_mark",
    "C50_same_result_attrs",
    "C50_edit_the_dictionary",
    "C50_edit_the_object",
    "C50_pipeline"
   ],
   "note": ""
  },
  {
   "property": "C51",
   "status": "proved",
   "theorems": [
    "C51_same_outcome",
    "C51_same_outcome_from_dict",
    "C51_same_dictionary",
    "C51_same_object",
    "C51_same_markdown"
   ],
   "note": ""
  },
  {
   "property": "C52",
   "status": "proved",
   "theorems": [
    "C52_dict_equality",
    "C52_equal_inputs",
    "C52_equal_objects_equal_dictionaries",
    "C52_equal_iff_equal_dictionaries",
    "C52_reflexive",
    "C52_symmetric",
    "C52_transitive",
    "C52_same_class",
    "C52_equal_objects_equal_markdown",
    "C52_markdown_refuted"
   ],
   "note": ""
  },
  {
   "property": "C53",
   "status": "proved",
   "theorems": [
    "C53_equal_objects_equal_hash",
    "C53_equal_marks_equal_hash",
    "C53_hashable_iff",
    "C53_containers_are_unhashable"
   ],
   "note": ""
  },
  {
   "property": "C54",
   "status": "proved",
   "theorems": [
    "C54_order",
    "C54_all_once",
    "C54_parts",
    "C54_dependencies_first",
    "C54_acyclic",
    "C54_deterministic",
    "C54_dependencies_first_refuted"
   ],
   "note": ""
  },
  {
   "property": "C55",
   "status": "proved",
   "theorems": [
    "C55_exact",
    "C55_total",
    "C55_errors",
    "C55_terminates",
    "C55_deterministic"
   ],
   "note": ""
  },
  {
   "property": "C56",
   "status": "proved",
   "theorems": [
    "C56_parse_cost",
    "C56_mark_cost",
    "C56_to_dict_cost",
    "C56_parse_linear_refuted",
    "C56_to_dict_linear_refuted"
   ],
   "note": ""
  },
  {
   "property": "C57",
   "status": "proved",
   "theorems": [
    "C57_mixins_never_overwritten",
    "C57_run_touches",
    "C57_history_touches",
    "C57_nothing_deleted"
   ],
   "note": ""
  },
  {
   "property": "C58",
   "status": "proved",
   "theorems": [
    "C58_nodes_from_schema",
    "C58_rerun_repairs",
    "C58_completes",
    "C58_mixins_complete",
    "C58_mixins_repaired_refuted",
    "C58_new_stub"
   ],
   "note": "nodes/ is proved self-repairing; for mixins/ the claim is refuted (truncated stubs stay)."
  },
  {
   "property": "C59",
   "status": "proved",
   "theorems": [
    "C59_without_mixins"
   ],
   "note": "mixins/ does not exist at this commit, so this is what running the script does there."
  },
  {
   "property": "C60",
   "status": "proved",
   "theorems": [
    "C60_kinds_apart",
    "C60_same_file",
    "C60_names_recognizable",
    "C60_camel_case",
    "C60_camel_distinct",
    "C60_registry"
   ],
   "note": "Case mapping of non-ASCII letters is an oracle; name theorems are for ASCII names."
  },
  {
   "property": "C61",
   "status": "proved",
   "theorems": [
    "C61_attrs_class",
    "C61_class_body"
   ],
   "note": ""
  },
  {
   "property": "C62",
   "status": "proved",
   "theorems": [
    "C62_definition_order",
    "C62_second_call"
   ],
   "note": ""
  },
  {
   "property": "C63",
   "status": "proved",
   "theorems": [
    "C63_check_seder_passes",
    "C63_check_seder_passes_mark",
    "C63_second_assertion_vacuous",
    "C63_without_list_content_refuted"
   ],
   "note": ""
  },
  {
   "property": "C64",
   "status": "proved",
   "theorems": [
    "C64_present_file_is_used",
    "C64_first_download_wins",
    "C64_download_is_stored",
    "C64_unreadable_file_stays",
    "C64_cut_download_never_repaired"
   ],
   "note": "json is an oracle; its contract (json_text) is a hypothesis of the theorems that need it."
  },
  {
   "property": "C65",
   "status": "proved",
   "theorems": [
    "C65_concurrent_processes",
    "C65_complete_in_the_end",
    "C65_different_answers_refuted"
   ],
   "note": "Proved for a server with one answer; refuted for differing answers. Reading the file and writing the whole text are single steps."
  },
  {
   "property": "C66",
   "status": "proved",
   "theorems": [
    "C66_replace_equal_text",
    "C66_replace_equal_text_any_level",
    "C66_replace_many",
    "C66_list_items_excluded",
    "C66_types_needed"
   ],
   "note": ""
  },
  {
   "property": "C67",
   "status": "proved",
   "theorems": [
    "C67_rendering",
    "C67_reading",
    "C67_parse_node",
    "C67_parse_mark",
    "C67_writing"
   ],
   "note": ""
  },
  {
   "property": "C68",
   "status": "proved",
   "theorems": [
    "C68_lines",
    "C68_length",
    "C68_quadratic",
    "C68_quadratic_reached",
    "C68_linear_refuted",
    "C68_heading_level"
   ],
   "note": ""
  },
  {
   "property": "C69",
   "status": "proved",
   "theorems": [
    "C69_reading_joins",
    "C69_reading_cuts",
    "C69_reading_fails",
    "C69_warnings",
    "C69_writing_joins",
    "C69_writing_cuts",
    "C69_rendering_joins",
    "C69_rendering_cuts",
    "C69_documents_join",
    "C69_documents_cut",
    "C69_ordered_lists",
    "C69_ordered_lists_cut"
   ],
   "note": ""
  },
  {
   "property": "C70",
   "status": "proved",
   "theorems": [
    "C70_same_result",
    "C70_at_most",
    "C70_exactly",
    "C70_stops",
    "C70_once_in_order",
    "C70_number",
    "C70_nesting"
   ],
   "note": ""
  },
  {
   "property": "C71",
   "status": "proved",
   "theorems": [
    "C71_source",
    "C71_default",
    "C71_level",
    "C71_only_reads",
    "C71_mark",
    "C71_is_type_of",
    "C71_mark_is_type_of",
    "C71_strip"
   ],
   "note": ""
  },
  {
   "property": "C72",
   "status": "proved",
   "theorems": [
    "C72_start",
    "C72_parse_node",
    "C72_parse_mark",
    "C72_from_dict",
    "C72_mark_from_dict",
    "C72_classes",
    "C72_to_dict",
    "C72_to_kwargs",
    "C72_mark_to_dict",
    "C72_is_opt",
    "C72_only_reads",
    "C72_faithful",
    "C72_mark_faithful",
    "C72_history"
   ],
   "note": ""
  },
  {
   "property": "C73",
   "status": "proved",
   "theorems": [
    "C73_same_object",
    "C73_total",
    "C73_reading_total",
    "C73_warnings",
    "C73_log",
    "C73_pruned",
    "C73_documented",
    "C73_text",
    "C73_conservative",
    "C73_round_trip",
    "C73_raises",
    "C73_string",
    "C73_size"
   ],
   "note": ""
  },
  {
   "property": "C74",
   "status": "proved",
   "theorems": [
    "C74_objects",
    "C74_dictionaries",
    "C74_from_dict",
    "C74_source",
    "C74_renamed",
    "C74_shape",
    "C74_characters",
    "C74_ascii"
   ],
   "note": ""
  },
  {
   "property": "C75",
   "status": "proved",
   "theorems": [
    "C75_document",
    "C75_unambiguous",
    "C75_block"
   ],
   "note": "Blocks outside the described form: C76-C78."
  },
  {
   "property": "C76",
   "status": "proved",
   "theorems": [
    "C76_header_column",
    "C76_excess_cells",
    "C76_no_header",
    "C76_text_after_table"
   ],
   "note": "A finding about the renderer: the structure is not recovered from these tables."
  },
  {
   "property": "C77",
   "status": "proved",
   "theorems": [
    "C77_paragraphs_merge",
    "C77_text_after_nested",
    "C77_other_kind",
    "C77_number_too_wide",
    "C77_text_after_tasks",
    "C77_bullet_lists",
    "C77_ordered_lists"
   ],
   "note": "A finding about the renderer. Whole lists of any size and depth in C77_bullet_lists and C77_ordered_lists; a list of the other kind, a number too wide and a task list are stated for lists with one item."
  },
  {
   "property": "C78",
   "status": "proved",
   "theorems": [
    "C78_heading_too_deep",
    "C78_heading_break",
    "C78_code_fence_inside",
    "C78_code_blank_lines",
    "C78_code_first_in_item"
   ],
   "note": "A finding about the renderer: these blocks are not recovered."
  },
  {
   "property": "C79",
   "status": "proved",
   "theorems": [
    "C79_nodes",
    "C79_source",
    "C79_paragraph",
    "C79_unambiguous",
    "C79_harmless_text"
   ],
   "note": ""
  },
  {
   "property": "C80",
   "status": "proved",
   "theorems": [
    "C80_break_tag",
    "C80_character_reference",
    "C80_same_twice",
    "C80_white_space",
    "C80_next_to_letter",
    "C80_em_twice",
    "C80_no_escape",
    "C80_backslash",
    "C80_code_outside",
    "C80_ticks_in_code",
    "C80_picture",
    "C80_parenthesis",
    "C80_two_breaks"
   ],
   "note": ""
  },
  {
   "property": "C81",
   "status": "proved",
   "theorems": [
    "C81_document",
    "C81_block",
    "C81_distinguishes",
    "C81_decision_break_lost",
    "C81_source"
   ],
   "note": "For documents in C75's and C79's scope, the cells of tables in C82's."
  },
  {
   "property": "C82",
   "status": "proved",
   "theorems": [
    "C82_cell",
    "C82_table",
    "C82_unambiguous",
    "C82_one_paragraph"
   ],
   "note": "Cells with other blocks than paragraphs (lists, code blocks ...) are outside its scope: Markdown tables cannot hold them, and the renderer glues their text together."
  },
  {
   "property": "C83",
   "status": "proved",
   "theorems": [
    "C83_complete",
    "C83_possible",
    "C83_raised",
    "C83_requests",
    "C83_never_again",
    "C83_stored_answers",
    "C83_restart",
    "C83_resumes",
    "C83_output_lost",
    "C83_same_title"
   ],
   "note": "The parser, prettify and the file system's treatment of names are parameters; a server that changes its answer within a run is covered because a run asks for a page at most once."
  },
  {
   "property": "C84",
   "status": "proved",
   "theorems": [
    "C84_article",
    "C84_no_article",
    "C84_menu",
    "C84_links"
   ],
   "note": ""
  },
  {
   "property": "C85",
   "status": "proved",
   "theorems": [
    "C85_complete",
    "C85_raised",
    "C85_possible",
    "C85_output_lost"
   ],
   "note": "Names that leave the directory (a slash in a title) are parameters: such files are written elsewhere or refused."
  },
  {
   "property": "C86",
   "status": "proved",
   "theorems": [
    "C86_restored",
    "C86_body",
    "C86_no_directory",
    "C86_removed",
    "C86_nested",
    "C86_unit_test",
    "C86_cov_test",
    "C86_helpers",
    "C86_module",
    "C86_folder",
    "C86_pytest",
    "C86_report",
    "C86_threads",
    "C86_overlap"
   ],
   "note": "No symbolic links; what a command does to the directories, and whether it raises, is a parameter."
  },
  {
   "property": "C87",
   "status": "proved",
   "theorems": [
    "C87_document",
    "C87_unambiguous",
    "C87_text_after_tasks",
    "C87_text_after_decisions",
    "C87_decisions_after_decisions",
    "C87_text_after_table",
    "C87_table_after_table",
    "C87_side_by_side"
   ],
   "note": "A finding about the layout of documents, together with the whole-document reading that shows its extent. Not in the rules: a table directly after a task list or decisions (its delimiter line there is outside the reader's scope), and a table with a header row directly after one without."
  }
 ]
}