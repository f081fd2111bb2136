(** Generated by tools/gen_assumptions.py from MANIFEST.json: prints what every claimed theorem rests on.
    All of them are closed under the global context. *)
From Verif Require Properties_Analyze Properties_Api Properties_Cache Properties_Calls Properties_Cell Properties_Chars Properties_Code Properties_Code2 Properties_Cost Properties_Crawl Properties_Cwd Properties_Date Properties_Download Properties_Equal Properties_Errors Properties_Errors2 Properties_Flow Properties_GenNodes Properties_Heap Properties_HeapDict Properties_Helper Properties_Inline Properties_Inline2 Properties_InputText Properties_Join Properties_Layout Properties_Lists Properties_Marks Properties_Nodes Properties_Parse Properties_Quote Properties_Raise Properties_Reader Properties_Reader2 Properties_Reader3 Properties_Reader4 Properties_Render Properties_Schema Properties_Sight Properties_Size Properties_Source Properties_Subst Properties_Table Properties_Text Properties_Threads.
Print Assumptions Verif.Properties_Parse.C01_unknown_keys_irrelevant.
Print Assumptions Verif.Properties_Parse.C01_unknown_keys_irrelevant_from_dict.
Print Assumptions Verif.Properties_Parse.C01_unknown_keys_irrelevant_mark.
Print Assumptions Verif.Properties_Parse.C01_only_declared_keys_left.
Print Assumptions Verif.Properties_Parse.C01_content_always_walked.
Print Assumptions Verif.Properties_Parse.C02_unimplemented_pruned_exactly.
Print Assumptions Verif.Properties_Parse.C02_unimplemented_pruned_exactly_from_dict.
Print Assumptions Verif.Properties_Parse.C02_prune_leaves_nothing.
Print Assumptions Verif.Properties_Parse.C03_unimplemented_never_escapes.
Print Assumptions Verif.Properties_Parse.C03_unimplemented_iff.
Print Assumptions Verif.Properties_Parse.C03_first_fault_is_raised.
Print Assumptions Verif.Properties_Parse.C03_first_fault_is_raised_from_dict.
Print Assumptions Verif.Properties_Parse.C03_deep_failure_propagates.
Print Assumptions Verif.Properties_Parse.C04_dispatch_sound.
Print Assumptions Verif.Properties_Parse.C04_dispatch_sound_mark.
Print Assumptions Verif.Properties_Parse.C04_dispatch_sound_from_dict.
Print Assumptions Verif.Properties_Parse.C04_type_test_is_class_test.
Print Assumptions Verif.Properties_Parse.C04_registries.
Print Assumptions Verif.Properties_Schema.C04_registries_of_source.
Print Assumptions Verif.Properties_Schema.C04_source_consistent.
Print Assumptions Verif.Properties_Parse.C05_accepted_iff.
Print Assumptions Verif.Properties_Parse.C05_accepted_iff_from_dict.
Print Assumptions Verif.Properties_Parse.C05_missing_required_field.
Print Assumptions Verif.Properties_Parse.C05_bad_attrs.
Print Assumptions Verif.Properties_Schema.C05_accepted_iff_source.
Print Assumptions Verif.Properties_Schema.C05_accepted_iff_source_mark.
Print Assumptions Verif.Properties_Parse.C06_declared_data_preserved.
Print Assumptions Verif.Properties_Parse.C06_declared_data_preserved_from_dict.
Print Assumptions Verif.Properties_Parse.C06_declared_data_preserved_mark.
Print Assumptions Verif.Properties_Parse.C06_children_in_order.
Print Assumptions Verif.Properties_Parse.C06_marks_in_order.
Print Assumptions Verif.Properties_Schema.C06_fields_of_source.
Print Assumptions Verif.Properties_Schema.C06_fields_of_source_mark.
Print Assumptions Verif.Properties_Cache.C07_history_log.
Print Assumptions Verif.Properties_Parse.C07_flag_only_affects_log.
Print Assumptions Verif.Properties_Parse.C07_flag_only_affects_log_from_dict.
Print Assumptions Verif.Properties_Parse.C07_flag_off_is_silent.
Print Assumptions Verif.Properties_Parse.C07_flag_off_is_silent_from_dict.
Print Assumptions Verif.Properties_Cache.C08_cache_transparent.
Print Assumptions Verif.Properties_Cache.C08_all_answers.
Print Assumptions Verif.Properties_Cache.C08_entries_correct.
Print Assumptions Verif.Properties_Cache.C08_entries_never_lost.
Print Assumptions Verif.Properties_Heap.C09_argument_unchanged.
Print Assumptions Verif.Properties_Heap.C09_result_is_fresh.
Print Assumptions Verif.Properties_Heap.C09_no_aliasing.
Print Assumptions Verif.Properties_Heap.C09_argument_same_graph.
Print Assumptions Verif.Properties_Heap.C09_later_edits.
Print Assumptions Verif.Properties_Heap.C09_same_result.
Print Assumptions Verif.Properties_Heap.C09_two_parses.
Print Assumptions Verif.Properties_Heap.C09_attrs_class_aliases_refuted.
Print Assumptions Verif.Properties_Parse.C10_object_roundtrip.
Print Assumptions Verif.Properties_Parse.C10_object_roundtrip_from_dict.
Print Assumptions Verif.Properties_Parse.C10_object_roundtrip_mark.
Print Assumptions Verif.Properties_Parse.C10_without_list_content_refuted.
Print Assumptions Verif.Properties_Parse.C11_dictionary_normal_form.
Print Assumptions Verif.Properties_Parse.C11_dictionary_normal_form_mark.
Print Assumptions Verif.Properties_Schema.C11_keys_of_source.
Print Assumptions Verif.Properties_Parse.C12_no_sentinel_refuted.
Print Assumptions Verif.Properties_Parse.C12_sentinel_iff_unset_mark_attribute.
Print Assumptions Verif.Properties_Parse.C13_serialisation_stable.
Print Assumptions Verif.Properties_Parse.C14_markdown_independent_of_roundtrip.
Print Assumptions Verif.Properties_Parse.C14_markdown_independent_of_unimplemented.
Print Assumptions Verif.Properties_Marks.C15_emphasis_wraps.
Print Assumptions Verif.Properties_Marks.C15_text_recoverable.
Print Assumptions Verif.Properties_Marks.C16_transparent.
Print Assumptions Verif.Properties_Marks.C16_insert_anywhere.
Print Assumptions Verif.Properties_Nodes.C16_marks_without_markdown_irrelevant.
Print Assumptions Verif.Properties_Nodes.C16_drop_all.
Print Assumptions Verif.Properties_Marks.C17_no_marks.
Print Assumptions Verif.Properties_Marks.C17_marks_in_order.
Print Assumptions Verif.Properties_Marks.C17_text_kept.
Print Assumptions Verif.Properties_Marks.C17_indentation_loses_text.
Print Assumptions Verif.Properties_Marks.C17_titled_link_loses_text.
Print Assumptions Verif.Properties_Marks.C17_content_preservation_refuted.
Print Assumptions Verif.Properties_Marks.C18_code_mark.
Print Assumptions Verif.Properties_Marks.C18_code_fails_iff.
Print Assumptions Verif.Properties_Marks.C19_link.
Print Assumptions Verif.Properties_Marks.C19_link_href_required.
Print Assumptions Verif.Properties_InputText.C20_input_text_kept.
Print Assumptions Verif.Properties_InputText.C20_input_text_verbatim.
Print Assumptions Verif.Properties_InputText.C20_input_text_in_output.
Print Assumptions Verif.Properties_Text.C20_texts_in_order.
Print Assumptions Verif.Properties_Text.C20_no_text_lost.
Print Assumptions Verif.Properties_Text.C20_leaves_verbatim.
Print Assumptions Verif.Properties_Text.C20_ignore_error.
Print Assumptions Verif.Properties_Text.C20_exceptions_refuted.
Print Assumptions Verif.Properties_Layout.C21_every_run.
Print Assumptions Verif.Properties_Layout.C21_without_newline_unchanged.
Print Assumptions Verif.Properties_Layout.C21_short_runs_stay.
Print Assumptions Verif.Properties_Layout.C21_up_to_six_become_two.
Print Assumptions Verif.Properties_Layout.C21_from_seven_on_a_double_blank_line_stays.
Print Assumptions Verif.Properties_Layout.C21_only_deletes.
Print Assumptions Verif.Properties_Layout.C21_visible_characters_kept.
Print Assumptions Verif.Properties_Layout.C21_full_lines_kept.
Print Assumptions Verif.Properties_Layout.C21_three_newlines_iff_seven.
Print Assumptions Verif.Properties_Layout.C21_at_most_one_blank_line_refuted.
Print Assumptions Verif.Properties_Layout.C22_two_blank_lines_iff.
Print Assumptions Verif.Properties_Layout.C22_no_double_blank_line_refuted.
Print Assumptions Verif.Properties_Errors.C23_conservative.
Print Assumptions Verif.Properties_Errors.C23_conservative_at_level.
Print Assumptions Verif.Properties_Errors.C23_errors_shrink.
Print Assumptions Verif.Properties_Errors.C24_document.
Print Assumptions Verif.Properties_Errors.C24_every_container.
Print Assumptions Verif.Properties_Errors2.C24_table.
Print Assumptions Verif.Properties_Errors.C25_first_failing_child.
Print Assumptions Verif.Properties_Errors2.C25_table.
Print Assumptions Verif.Properties_Errors2.C25_list.
Print Assumptions Verif.Properties_Errors2.C25_task_list.
Print Assumptions Verif.Properties_Errors2.C25_decision_list.
Print Assumptions Verif.Properties_Errors.C26_what_is_skipped.
Print Assumptions Verif.Properties_Errors.C26_propagation_refuted.
Print Assumptions Verif.Properties_Errors.C26_task_list_raises_anyway.
Print Assumptions Verif.Properties_Errors.C26_ordered_list_raises_anyway.
Print Assumptions Verif.Properties_Layout.C27_padding.
Print Assumptions Verif.Properties_Layout.C27_document.
Print Assumptions Verif.Properties_Layout.C27_expand.
Print Assumptions Verif.Properties_Layout.C27_visible_characters.
Print Assumptions Verif.Properties_Layout.C27_full_lines.
Print Assumptions Verif.Properties_Table.C28_lines.
Print Assumptions Verif.Properties_Table.C28_columns.
Print Assumptions Verif.Properties_Table.C28_delimiter_columns.
Print Assumptions Verif.Properties_Table.C28_header_row.
Print Assumptions Verif.Properties_Table.C29_cell.
Print Assumptions Verif.Properties_Table.C29_every_line_has_leading_spaces.
Print Assumptions Verif.Properties_Table.C29_single_line.
Print Assumptions Verif.Properties_Table.C29_pipes_escaped.
Print Assumptions Verif.Properties_Table.C29_plain_cell.
Print Assumptions Verif.Properties_Table.C29_header_like_cell.
Print Assumptions Verif.Properties_Table.C29_backslash_not_escaped.
Print Assumptions Verif.Properties_Table.C30_header_row_table.
Print Assumptions Verif.Properties_Table.C30_no_header_no_delimiter.
Print Assumptions Verif.Properties_Table.C30_header_column_delimiters.
Print Assumptions Verif.Properties_Table.C30_one_delimiter_refuted.
Print Assumptions Verif.Properties_Lists.C31_bullet_outline.
Print Assumptions Verif.Properties_Lists.C31_bullet_at_level.
Print Assumptions Verif.Properties_Lists.C31_lines_are_the_outline.
Print Assumptions Verif.Properties_Lists.C31_one_line_per_item.
Print Assumptions Verif.Properties_Lists.C31_outline_unique.
Print Assumptions Verif.Properties_Lists.C31_rendering_lists_have_an_outline.
Print Assumptions Verif.Properties_Lists.C32_ordered_outline.
Print Assumptions Verif.Properties_Lists.C32_default_start.
Print Assumptions Verif.Properties_Lists.C32_nested_start.
Print Assumptions Verif.Properties_Lists.C32_consecutive.
Print Assumptions Verif.Properties_Lists.C32_one_line_per_item.
Print Assumptions Verif.Properties_Lists.C32_lines_are_the_outline.
Print Assumptions Verif.Properties_Lists.C32_rendering_lists_have_an_outline.
Print Assumptions Verif.Properties_Lists.C32_outline_unique.
Print Assumptions Verif.Properties_Lists.C32_no_attrs_raises.
Print Assumptions Verif.Properties_Lists.C33_task_outline.
Print Assumptions Verif.Properties_Lists.C33_task_at_level.
Print Assumptions Verif.Properties_Lists.C33_one_line_per_task.
Print Assumptions Verif.Properties_Lists.C33_outline_unique.
Print Assumptions Verif.Properties_Lists.C33_rendering_lists_have_an_outline.
Print Assumptions Verif.Properties_Lists.C33_item_without_content_raises.
Print Assumptions Verif.Properties_Lists.C34_foreign_list_is_copied_flat.
Print Assumptions Verif.Properties_Lists.C34_mixed_nesting_refuted.
Print Assumptions Verif.Properties_Quote.C35_decision_item.
Print Assumptions Verif.Properties_Quote.C35_blank_item.
Print Assumptions Verif.Properties_Quote.C35_stretches_unique.
Print Assumptions Verif.Properties_Quote.C35_every_line_quoted.
Print Assumptions Verif.Properties_Quote.C35_no_blank_before_second.
Print Assumptions Verif.Properties_Quote.C35_no_adjacent_blank.
Print Assumptions Verif.Properties_Quote.C35_no_trailing_space.
Print Assumptions Verif.Properties_Quote.C35_last_line.
Print Assumptions Verif.Properties_Quote.C35_content_kept.
Print Assumptions Verif.Properties_Quote.C35_decision_list.
Print Assumptions Verif.Properties_Layout.C36_lines_determined.
Print Assumptions Verif.Properties_Layout.C36_unquote.
Print Assumptions Verif.Properties_Layout.C36_blockquote.
Print Assumptions Verif.Properties_Layout.C36_panel.
Print Assumptions Verif.Properties_Layout.C36_panel_title.
Print Assumptions Verif.Properties_Nodes.C37_heading.
Print Assumptions Verif.Properties_Nodes.C37_heading_without_content.
Print Assumptions Verif.Properties_Nodes.C37_heading_marks_irrelevant.
Print Assumptions Verif.Properties_Nodes.C37_heading_level_must_be_int.
Print Assumptions Verif.Properties_Date.C38_date.
Print Assumptions Verif.Properties_Date.C38_out_of_range.
Print Assumptions Verif.Properties_Date.C38_range.
Print Assumptions Verif.Properties_Date.C38_calendar_function.
Print Assumptions Verif.Properties_Date.C38_later_is_later.
Print Assumptions Verif.Properties_Date.C38_same_day.
Print Assumptions Verif.Properties_Date.C38_not_a_number.
Print Assumptions Verif.Properties_Nodes.C39_code_block.
Print Assumptions Verif.Properties_Nodes.C39_code_block_without_attrs.
Print Assumptions Verif.Properties_Nodes.C39_code_verbatim.
Print Assumptions Verif.Properties_Nodes.C39_code_block_lines.
Print Assumptions Verif.Properties_Nodes.C39_fence_safety_refuted.
Print Assumptions Verif.Properties_Nodes.C40_emoji.
Print Assumptions Verif.Properties_Nodes.C40_mention.
Print Assumptions Verif.Properties_Nodes.C40_status.
Print Assumptions Verif.Properties_Nodes.C40_inline_card.
Print Assumptions Verif.Properties_Nodes.C40_block_card.
Print Assumptions Verif.Properties_Nodes.C40_embed_card.
Print Assumptions Verif.Properties_Nodes.C40_extension.
Print Assumptions Verif.Properties_Nodes.C40_any_value.
Print Assumptions Verif.Properties_Nodes.C40_rule_and_break.
Print Assumptions Verif.Properties_Nodes.C41_external_media.
Print Assumptions Verif.Properties_Nodes.C41_file_media.
Print Assumptions Verif.Properties_Nodes.C41_any_id.
Print Assumptions Verif.Properties_Nodes.C41_marks.
Print Assumptions Verif.Properties_Nodes.C41_link_media.
Print Assumptions Verif.Properties_Nodes.C41_other_media.
Print Assumptions Verif.Properties_Nodes.C42_result_is_str.
Print Assumptions Verif.Properties_Nodes.C42_text_returns_its_text.
Print Assumptions Verif.Properties_Marks.C43_is_type_of.
Print Assumptions Verif.Properties_Marks.C43_is_type_of_mark.
Print Assumptions Verif.Properties_Marks.C43_single_is_one_element_list.
Print Assumptions Verif.Properties_Marks.C43_monotone.
Print Assumptions Verif.Properties_Marks.C43_order_irrelevant.
Print Assumptions Verif.Properties_Render.C44_well_formed_renders.
Print Assumptions Verif.Properties_Render.C44_lists_at_every_level.
Print Assumptions Verif.Properties_Render.C44_documented_input_renders.
Print Assumptions Verif.Properties_Api.C45_exact.
Print Assumptions Verif.Properties_Api.C45_succeeds_iff_modules_load.
Print Assumptions Verif.Properties_Api.C45_order_independent.
Print Assumptions Verif.Properties_Api.C45_last_import_wins.
Print Assumptions Verif.Properties_Api.C45_collision_free.
Print Assumptions Verif.Properties_Api.C45_same_name_in_two_modules_refuted.
Print Assumptions Verif.Properties_Api.C45_marks_in_path_refuted.
Print Assumptions Verif.Properties_Api.C45_committed_file.
Print Assumptions Verif.Properties_Api.C45_repository_well_formed.
Print Assumptions Verif.Properties_Api.C45_repository_collision_free.
Print Assumptions Verif.Properties_Nodes.C46_ignored_children.
Print Assumptions Verif.Properties_Nodes.C46_empty_containers.
Print Assumptions Verif.Properties_Marks.C47_message_identifies.
Print Assumptions Verif.Properties_Marks.C47_message_injective.
Print Assumptions Verif.Properties_Nodes.C48_presentation_irrelevant.
Print Assumptions Verif.Properties_Nodes.C48_unread_attrs.
Print Assumptions Verif.Properties_Threads.C49_every_answer_as_alone.
Print Assumptions Verif.Properties_Threads.C49_cache_correct.
Print Assumptions Verif.Properties_Threads.C49_log_of_a_thread.
Print Assumptions Verif.Properties_Threads.C49_log_complete.
Print Assumptions Verif.Properties_Threads.C49_log_silent.
Print Assumptions Verif.Properties_Threads.C49_never_blocks.
Print Assumptions Verif.Properties_Threads.C49_terminates.
Print Assumptions Verif.Properties_Threads.C49_can_finish.
Print Assumptions Verif.Properties_HeapDict.C50_object_unchanged.
Print Assumptions Verif.Properties_HeapDict.C50_result_is_fresh.
Print Assumptions Verif.Properties_HeapDict.C50_no_aliasing.
Print Assumptions Verif.Properties_HeapDict.C50_same_result.
Print Assumptions Verif.Properties_HeapDict.C50_same_result_mark.
Print Assumptions Verif.Properties_HeapDict.C50_same_result_attrs.
Print Assumptions Verif.Properties_HeapDict.C50_edit_the_dictionary.
Print Assumptions Verif.Properties_HeapDict.C50_edit_the_object.
Print Assumptions Verif.Properties_HeapDict.C50_pipeline.
Print Assumptions Verif.Properties_Equal.C51_same_outcome.
Print Assumptions Verif.Properties_Equal.C51_same_outcome_from_dict.
Print Assumptions Verif.Properties_Equal.C51_same_dictionary.
Print Assumptions Verif.Properties_Equal.C51_same_object.
Print Assumptions Verif.Properties_Equal.C51_same_markdown.
Print Assumptions Verif.Properties_Equal.C52_dict_equality.
Print Assumptions Verif.Properties_Equal.C52_equal_inputs.
Print Assumptions Verif.Properties_Equal.C52_equal_objects_equal_dictionaries.
Print Assumptions Verif.Properties_Equal.C52_equal_iff_equal_dictionaries.
Print Assumptions Verif.Properties_Equal.C52_reflexive.
Print Assumptions Verif.Properties_Equal.C52_symmetric.
Print Assumptions Verif.Properties_Equal.C52_transitive.
Print Assumptions Verif.Properties_Equal.C52_same_class.
Print Assumptions Verif.Properties_Equal.C52_equal_objects_equal_markdown.
Print Assumptions Verif.Properties_Equal.C52_markdown_refuted.
Print Assumptions Verif.Properties_Equal.C53_equal_objects_equal_hash.
Print Assumptions Verif.Properties_Equal.C53_equal_marks_equal_hash.
Print Assumptions Verif.Properties_Equal.C53_hashable_iff.
Print Assumptions Verif.Properties_Equal.C53_containers_are_unhashable.
Print Assumptions Verif.Properties_Analyze.C54_order.
Print Assumptions Verif.Properties_Analyze.C54_all_once.
Print Assumptions Verif.Properties_Analyze.C54_parts.
Print Assumptions Verif.Properties_Analyze.C54_dependencies_first.
Print Assumptions Verif.Properties_Analyze.C54_acyclic.
Print Assumptions Verif.Properties_Analyze.C54_deterministic.
Print Assumptions Verif.Properties_Analyze.C54_dependencies_first_refuted.
Print Assumptions Verif.Properties_Analyze.C55_exact.
Print Assumptions Verif.Properties_Analyze.C55_total.
Print Assumptions Verif.Properties_Analyze.C55_errors.
Print Assumptions Verif.Properties_Analyze.C55_terminates.
Print Assumptions Verif.Properties_Analyze.C55_deterministic.
Print Assumptions Verif.Properties_Cost.C56_parse_cost.
Print Assumptions Verif.Properties_Cost.C56_mark_cost.
Print Assumptions Verif.Properties_Cost.C56_to_dict_cost.
Print Assumptions Verif.Properties_Cost.C56_parse_linear_refuted.
Print Assumptions Verif.Properties_Cost.C56_to_dict_linear_refuted.
Print Assumptions Verif.Properties_GenNodes.C57_mixins_never_overwritten.
Print Assumptions Verif.Properties_GenNodes.C57_run_touches.
Print Assumptions Verif.Properties_GenNodes.C57_history_touches.
Print Assumptions Verif.Properties_GenNodes.C57_nothing_deleted.
Print Assumptions Verif.Properties_GenNodes.C58_nodes_from_schema.
Print Assumptions Verif.Properties_GenNodes.C58_rerun_repairs.
Print Assumptions Verif.Properties_GenNodes.C58_completes.
Print Assumptions Verif.Properties_GenNodes.C58_mixins_complete.
Print Assumptions Verif.Properties_GenNodes.C58_mixins_repaired_refuted.
Print Assumptions Verif.Properties_GenNodes.C58_new_stub.
Print Assumptions Verif.Properties_GenNodes.C59_without_mixins.
Print Assumptions Verif.Properties_GenNodes.C60_kinds_apart.
Print Assumptions Verif.Properties_GenNodes.C60_same_file.
Print Assumptions Verif.Properties_GenNodes.C60_names_recognizable.
Print Assumptions Verif.Properties_GenNodes.C60_camel_case.
Print Assumptions Verif.Properties_GenNodes.C60_camel_distinct.
Print Assumptions Verif.Properties_GenNodes.C60_registry.
Print Assumptions Verif.Properties_GenNodes.C61_attrs_class.
Print Assumptions Verif.Properties_GenNodes.C61_class_body.
Print Assumptions Verif.Properties_GenNodes.C62_definition_order.
Print Assumptions Verif.Properties_GenNodes.C62_second_call.
Print Assumptions Verif.Properties_Helper.C63_check_seder_passes.
Print Assumptions Verif.Properties_Helper.C63_check_seder_passes_mark.
Print Assumptions Verif.Properties_Helper.C63_second_assertion_vacuous.
Print Assumptions Verif.Properties_Helper.C63_without_list_content_refuted.
Print Assumptions Verif.Properties_Download.C64_present_file_is_used.
Print Assumptions Verif.Properties_Download.C64_first_download_wins.
Print Assumptions Verif.Properties_Download.C64_download_is_stored.
Print Assumptions Verif.Properties_Download.C64_unreadable_file_stays.
Print Assumptions Verif.Properties_Download.C64_cut_download_never_repaired.
Print Assumptions Verif.Properties_Download.C65_concurrent_processes.
Print Assumptions Verif.Properties_Download.C65_complete_in_the_end.
Print Assumptions Verif.Properties_Download.C65_different_answers_refuted.
Print Assumptions Verif.Properties_Subst.C66_replace_equal_text.
Print Assumptions Verif.Properties_Subst.C66_replace_equal_text_any_level.
Print Assumptions Verif.Properties_Subst.C66_replace_many.
Print Assumptions Verif.Properties_Subst.C66_list_items_excluded.
Print Assumptions Verif.Properties_Subst.C66_types_needed.
Print Assumptions Verif.Properties_Raise.C67_rendering.
Print Assumptions Verif.Properties_Raise.C67_reading.
Print Assumptions Verif.Properties_Raise.C67_parse_node.
Print Assumptions Verif.Properties_Raise.C67_parse_mark.
Print Assumptions Verif.Properties_Raise.C67_writing.
Print Assumptions Verif.Properties_Size.C68_lines.
Print Assumptions Verif.Properties_Size.C68_length.
Print Assumptions Verif.Properties_Size.C68_quadratic.
Print Assumptions Verif.Properties_Size.C68_quadratic_reached.
Print Assumptions Verif.Properties_Size.C68_linear_refuted.
Print Assumptions Verif.Properties_Size.C68_heading_level.
Print Assumptions Verif.Properties_Join.C69_reading_joins.
Print Assumptions Verif.Properties_Join.C69_reading_cuts.
Print Assumptions Verif.Properties_Join.C69_reading_fails.
Print Assumptions Verif.Properties_Join.C69_warnings.
Print Assumptions Verif.Properties_Join.C69_writing_joins.
Print Assumptions Verif.Properties_Join.C69_writing_cuts.
Print Assumptions Verif.Properties_Join.C69_rendering_joins.
Print Assumptions Verif.Properties_Join.C69_rendering_cuts.
Print Assumptions Verif.Properties_Join.C69_documents_join.
Print Assumptions Verif.Properties_Join.C69_documents_cut.
Print Assumptions Verif.Properties_Join.C69_ordered_lists.
Print Assumptions Verif.Properties_Join.C69_ordered_lists_cut.
Print Assumptions Verif.Properties_Calls.C70_same_result.
Print Assumptions Verif.Properties_Calls.C70_at_most.
Print Assumptions Verif.Properties_Calls.C70_exactly.
Print Assumptions Verif.Properties_Calls.C70_stops.
Print Assumptions Verif.Properties_Calls.C70_once_in_order.
Print Assumptions Verif.Properties_Calls.C70_number.
Print Assumptions Verif.Properties_Calls.C70_nesting.
Print Assumptions Verif.Properties_Code.C71_source.
Print Assumptions Verif.Properties_Code.C71_default.
Print Assumptions Verif.Properties_Code.C71_level.
Print Assumptions Verif.Properties_Code.C71_only_reads.
Print Assumptions Verif.Properties_Code.C71_mark.
Print Assumptions Verif.Properties_Code.C71_is_type_of.
Print Assumptions Verif.Properties_Code.C71_mark_is_type_of.
Print Assumptions Verif.Properties_Code.C71_strip.
Print Assumptions Verif.Properties_Code2.C72_start.
Print Assumptions Verif.Properties_Code2.C72_parse_node.
Print Assumptions Verif.Properties_Code2.C72_parse_mark.
Print Assumptions Verif.Properties_Code2.C72_from_dict.
Print Assumptions Verif.Properties_Code2.C72_mark_from_dict.
Print Assumptions Verif.Properties_Code2.C72_classes.
Print Assumptions Verif.Properties_Code2.C72_to_dict.
Print Assumptions Verif.Properties_Code2.C72_to_kwargs.
Print Assumptions Verif.Properties_Code2.C72_mark_to_dict.
Print Assumptions Verif.Properties_Code2.C72_is_opt.
Print Assumptions Verif.Properties_Code2.C72_only_reads.
Print Assumptions Verif.Properties_Code2.C72_faithful.
Print Assumptions Verif.Properties_Code2.C72_mark_faithful.
Print Assumptions Verif.Properties_Code2.C72_history.
Print Assumptions Verif.Properties_Source.C73_same_object.
Print Assumptions Verif.Properties_Source.C73_total.
Print Assumptions Verif.Properties_Source.C73_reading_total.
Print Assumptions Verif.Properties_Source.C73_warnings.
Print Assumptions Verif.Properties_Source.C73_log.
Print Assumptions Verif.Properties_Source.C73_pruned.
Print Assumptions Verif.Properties_Source.C73_documented.
Print Assumptions Verif.Properties_Source.C73_text.
Print Assumptions Verif.Properties_Source.C73_conservative.
Print Assumptions Verif.Properties_Source.C73_round_trip.
Print Assumptions Verif.Properties_Source.C73_raises.
Print Assumptions Verif.Properties_Source.C73_string.
Print Assumptions Verif.Properties_Source.C73_size.
Print Assumptions Verif.Properties_Chars.C74_objects.
Print Assumptions Verif.Properties_Chars.C74_dictionaries.
Print Assumptions Verif.Properties_Chars.C74_from_dict.
Print Assumptions Verif.Properties_Chars.C74_source.
Print Assumptions Verif.Properties_Chars.C74_renamed.
Print Assumptions Verif.Properties_Chars.C74_shape.
Print Assumptions Verif.Properties_Chars.C74_characters.
Print Assumptions Verif.Properties_Chars.C74_ascii.
Print Assumptions Verif.Properties_Reader.C75_document.
Print Assumptions Verif.Properties_Reader.C75_unambiguous.
Print Assumptions Verif.Properties_Reader.C75_block.
Print Assumptions Verif.Properties_Reader2.C76_header_column.
Print Assumptions Verif.Properties_Reader2.C76_excess_cells.
Print Assumptions Verif.Properties_Reader2.C76_no_header.
Print Assumptions Verif.Properties_Reader2.C76_text_after_table.
Print Assumptions Verif.Properties_Reader2.C77_paragraphs_merge.
Print Assumptions Verif.Properties_Reader2.C77_text_after_nested.
Print Assumptions Verif.Properties_Reader2.C77_other_kind.
Print Assumptions Verif.Properties_Reader2.C77_number_too_wide.
Print Assumptions Verif.Properties_Reader2.C77_text_after_tasks.
Print Assumptions Verif.Properties_Reader4.C77_bullet_lists.
Print Assumptions Verif.Properties_Reader4.C77_ordered_lists.
Print Assumptions Verif.Properties_Reader3.C78_heading_too_deep.
Print Assumptions Verif.Properties_Reader3.C78_heading_break.
Print Assumptions Verif.Properties_Reader3.C78_code_fence_inside.
Print Assumptions Verif.Properties_Reader3.C78_code_blank_lines.
Print Assumptions Verif.Properties_Reader3.C78_code_first_in_item.
Print Assumptions Verif.Properties_Inline.C79_nodes.
Print Assumptions Verif.Properties_Inline.C79_source.
Print Assumptions Verif.Properties_Inline.C79_paragraph.
Print Assumptions Verif.Properties_Inline.C79_unambiguous.
Print Assumptions Verif.Properties_Inline.C79_harmless_text.
Print Assumptions Verif.Properties_Cell.C80_break_tag.
Print Assumptions Verif.Properties_Cell.C80_character_reference.
Print Assumptions Verif.Properties_Inline2.C80_same_twice.
Print Assumptions Verif.Properties_Inline2.C80_white_space.
Print Assumptions Verif.Properties_Inline2.C80_next_to_letter.
Print Assumptions Verif.Properties_Inline2.C80_em_twice.
Print Assumptions Verif.Properties_Inline2.C80_no_escape.
Print Assumptions Verif.Properties_Inline2.C80_backslash.
Print Assumptions Verif.Properties_Inline2.C80_code_outside.
Print Assumptions Verif.Properties_Inline2.C80_ticks_in_code.
Print Assumptions Verif.Properties_Inline2.C80_picture.
Print Assumptions Verif.Properties_Inline2.C80_parenthesis.
Print Assumptions Verif.Properties_Inline2.C80_two_breaks.
Print Assumptions Verif.Properties_Sight.C81_document.
Print Assumptions Verif.Properties_Sight.C81_block.
Print Assumptions Verif.Properties_Sight.C81_distinguishes.
Print Assumptions Verif.Properties_Sight.C81_decision_break_lost.
Print Assumptions Verif.Properties_Sight.C81_source.
Print Assumptions Verif.Properties_Cell.C82_cell.
Print Assumptions Verif.Properties_Cell.C82_table.
Print Assumptions Verif.Properties_Cell.C82_unambiguous.
Print Assumptions Verif.Properties_Cell.C82_one_paragraph.
Print Assumptions Verif.Properties_Crawl.C83_complete.
Print Assumptions Verif.Properties_Crawl.C83_possible.
Print Assumptions Verif.Properties_Crawl.C83_raised.
Print Assumptions Verif.Properties_Crawl.C83_requests.
Print Assumptions Verif.Properties_Crawl.C83_never_again.
Print Assumptions Verif.Properties_Crawl.C83_stored_answers.
Print Assumptions Verif.Properties_Crawl.C83_restart.
Print Assumptions Verif.Properties_Crawl.C83_resumes.
Print Assumptions Verif.Properties_Crawl.C83_output_lost.
Print Assumptions Verif.Properties_Crawl.C83_same_title.
Print Assumptions Verif.Properties_Crawl.C84_article.
Print Assumptions Verif.Properties_Crawl.C84_no_article.
Print Assumptions Verif.Properties_Crawl.C84_menu.
Print Assumptions Verif.Properties_Crawl.C84_links.
Print Assumptions Verif.Properties_Crawl.C85_complete.
Print Assumptions Verif.Properties_Crawl.C85_raised.
Print Assumptions Verif.Properties_Crawl.C85_possible.
Print Assumptions Verif.Properties_Crawl.C85_output_lost.
Print Assumptions Verif.Properties_Cwd.C86_restored.
Print Assumptions Verif.Properties_Cwd.C86_body.
Print Assumptions Verif.Properties_Cwd.C86_no_directory.
Print Assumptions Verif.Properties_Cwd.C86_removed.
Print Assumptions Verif.Properties_Cwd.C86_nested.
Print Assumptions Verif.Properties_Cwd.C86_unit_test.
Print Assumptions Verif.Properties_Cwd.C86_cov_test.
Print Assumptions Verif.Properties_Cwd.C86_helpers.
Print Assumptions Verif.Properties_Cwd.C86_module.
Print Assumptions Verif.Properties_Cwd.C86_folder.
Print Assumptions Verif.Properties_Cwd.C86_pytest.
Print Assumptions Verif.Properties_Cwd.C86_report.
Print Assumptions Verif.Properties_Cwd.C86_threads.
Print Assumptions Verif.Properties_Cwd.C86_overlap.
Print Assumptions Verif.Properties_Flow.C87_document.
Print Assumptions Verif.Properties_Flow.C87_unambiguous.
Print Assumptions Verif.Properties_Flow.C87_text_after_tasks.
Print Assumptions Verif.Properties_Flow.C87_text_after_decisions.
Print Assumptions Verif.Properties_Flow.C87_decisions_after_decisions.
Print Assumptions Verif.Properties_Flow.C87_text_after_table.
Print Assumptions Verif.Properties_Flow.C87_table_after_table.
Print Assumptions Verif.Properties_Flow.C87_side_by_side.
