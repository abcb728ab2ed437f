{"claims": [
{"property": "C01", "status": "proved", "theorems": ["C01_split_then_join", "C01_list_then_split", "C01_no_collision", "C01_empty_list"], "note": ""},
{"property": "C02", "status": "proved", "theorems": ["C02_join_text", "C02_join_parts", "C02_join_assoc", "C02_eq_iff_parts", "C02_eq_implies_same_hash", "C02_view_strip"], "note": ""},
{"property": "C03", "status": "proved", "theorems": ["C03_filepath_roundtrip", "C03_no_shared_file", "C03_empty_part_refuted"], "note": ""},
{"property": "C04", "status": "proved", "theorems": ["C04_suffix_accepted", "C04_exact_when_not_shorter", "C04_shorter_is_prefix_test", "C04_suffix_law_refuted", "C04_module_search", "C04_six_never_found"], "note": ""},
{"property": "C05", "status": "proved", "theorems": ["C05_owner_of_file", "C05_no_owner", "C05_root_manager_owns_nothing", "C05_config_file_names_its_item", "C05_innermost_owner_refuted"], "note": ""},
{"property": "C06", "status": "proved", "theorems": ["C06_registry_is_newest_live", "C06_lookup_by_path", "C06_unknown_name", "C06_late_finaliser_harmless", "C06_rejected_construction"], "note": ""},
{"property": "C07", "status": "proved", "theorems": ["C07_change_stores_exactly_the_request", "C07_otherwise_nothing_changes", "C07_new_keys_alone_are_dropped", "C07_update_then_read_refuted"], "note": ""},
{"property": "C08", "status": "proved", "theorems": ["C08_refresh_after_any_history", "C08_manager_refresh_when_changed", "C08_manager_refresh_when_unchanged", "C08_refresh_keeps_record", "C08_persisted_always_survives_refuted"], "note": ""},
{"property": "C09", "status": "proved", "theorems": ["C09_change_iff", "C09_raise_iff", "C09_true_iff", "C09_raises_only_value_error", "C09_raising_comparison_is_a_change", "C09_frames_compared_by_content", "C09_frame_differs_from_everything_else", "C09_bool_int", "C09_array_raises", "C09_same_value_no_change"], "note": ""},
{"property": "C10", "status": "proved", "theorems": ["C10_precedence", "C10_empty_inherits_nothing", "C10_innermost_section_wins", "C10_loaded_trees_qualify"], "note": ""},
{"property": "C11", "status": "proved", "theorems": ["C11_second_get_returns_the_same", "C11_get_leaves_others", "C11_get_is_pure_refuted"], "note": ""},
{"property": "C12", "status": "proved", "theorems": ["C12_section_get_overwrites_own", "C12_items_below_see_the_outer_value", "C12_innermost_wins_refuted", "C12_reading_a_section_affects_items_refuted"], "note": ""},
{"property": "C13", "status": "proved", "theorems": ["C13_update_is_local", "C13_update_effect", "C13_refresh_is_local", "C13_reset_is_local"], "note": ""},
{"property": "C14", "status": "proved", "theorems": ["C14_local_config_stays_empty", "C14_update_without_path_does_nothing", "C14_project_wide_update_works_refuted"], "note": ""},
{"property": "C15", "status": "proved", "theorems": ["C15_reset_when_file_differs", "C15_reset_otherwise_keeps_everything", "C15_reset_restores_file_values", "C15_reset_discards_updates_refuted", "C15_reset_without_path", "C15_reset_of_a_missing_item", "C15_reset_of_a_section"], "note": ""},
{"property": "C16", "status": "proved", "theorems": ["C16_reset_with_create_changes_nothing", "C16_reset_with_create_restores_refuted"], "note": ""},
{"property": "C17", "status": "proved", "theorems": ["C17_item_reachable_unless_named_like_section", "C17_section_config_shadows", "C17_every_item_reachable_refuted"], "note": ""},
{"property": "C18", "status": "proved", "theorems": ["C18_same_object_forever", "C18_get_gives_the_loaded_object", "C18_nothing_else_can_be_got", "C18_run_calls_the_loaded_object", "C18_first_access_binds_effective_config", "C18_first_access_constructs_with_effective_config", "C18_different_paths_different_objects", "C18_reload_gives_new_objects", "C18_running_a_class_calls_its_instance"], "note": ""},
{"property": "C19", "status": "proved", "theorems": ["C19_update_reaches_loaded_function", "C19_in_sync_only_named_arguments_change", "C19_in_sync_after_first_access", "C19_no_change_no_effect", "C19_update_reaches_loaded_instance", "C19_other_arguments_keep_their_value_refuted"], "note": ""},
{"property": "C20", "status": "proved", "theorems": ["C20_update_elsewhere_leaves_loaded", "C20_section_update_seen_in_config_not_in_loaded", "C20_section_update_reaches_loaded_items_refuted"], "note": ""},
{"property": "C21", "status": "proved", "theorems": ["C21_list_runs_in_order", "C21_functions_called_once_in_order"], "note": ""},
{"property": "C22", "status": "proved", "theorems": ["C22_one_element_list_is_unwrapped", "C22_list_result_iff", "C22_plugin_paths_give_a_list", "C22_plugin_results_come_last", "C22_plugin_results_after_one_path", "C22_list_gives_list_refuted"], "note": ""},
{"property": "C23", "status": "proved", "theorems": ["C23_every_path_is_run", "C23_functions_called_once_despite_failures", "C23_single_path", "C23_positions_refuted"], "note": ""},
{"property": "C24", "status": "proved", "theorems": ["C24_section_runs_its_functions", "C24_functions_only", "C24_class_entry_raises", "C24_first_entry_error", "C24_entry_error"], "note": ""},
{"property": "C25", "status": "proved", "theorems": ["C25_get_shows_loaded_objects", "C25_mixed_section_raises", "C25_get_succeeds", "C25_class_stays_a_partial"], "note": ""},
{"property": "C26", "status": "proved", "theorems": ["C26_clean_access_resolves", "C26_access_is_relative_to_the_leftover", "C26_dead_forever", "C26_missing_name_is_dead", "C26_one_failed_lookup_breaks_all_later_ones", "C26_own_names", "C26_failed_lookup_has_no_effect_refuted", "C26_looking_at_a_section_has_no_effect_refuted"], "note": ""},
{"property": "C27", "status": "proved", "theorems": ["C27_update_hooks_on_change", "C27_update_no_hooks_without_change", "C27_refresh_hooks", "C27_reset_hooks", "C27_post_hook_after_every_change_refuted", "C27_keyword_d_skips_the_post_hook_refuted"], "note": ""},
{"property": "C28", "status": "proved", "theorems": ["C28_full_product", "C28_number_of_cases", "C28_case_contents", "C28_no_updates", "C28_plugin_cases_come_first", "C28_iteration_uses_them"], "note": ""},
{"property": "C29", "status": "proved", "theorems": ["C29_case_values", "C29_calls_get_case_values", "C29_full_names", "C29_empty_base_refuted", "C29_defaults_are_the_configs", "C29_new_keys_leak_refuted", "C29_section_values_interfere_refuted", "C29_dict_argument_unused_refuted"], "note": ""},
{"property": "C30", "status": "proved", "theorems": ["C30_generator_has_run_k_cases", "C30_generator_end", "C30_generator_failure", "C30_run_returns_all_pairs", "C30_run_stops_at_failure", "C30_configs_keep_last_case", "C30_configs_restored_refuted", "C30_frames_iterate_refuted", "C30_only_changes_updated", "C30_plain_cases_compare"], "note": ""},
{"property": "C31", "status": "proved", "theorems": ["C31_batch_is_the_sequence", "C31_update_batch", "C31_persisted_by_default", "C31_failure_position", "C31_plugin_updates_first", "C31_atomic_refuted", "C31_foreign_view_redirected", "C31_reset_batch_is_the_sequence", "C31_persist_by_truth", "C31_d_none", "C31_refused"], "note": ""},
{"property": "C32", "status": "proved", "theorems": ["C32_handlers_match_log_folder", "C32_direct_switch_keeps_old_handler", "C32_folder_not_comparable", "C32_two_handlers_stay_forever", "C32_reset_raises_with_other_than_one_handler", "C32_failed_open_leaves_option_set", "C32_handler_follows_options_refuted", "C32_handler_has_options_of_that_time", "C32_handler_needs_a_folder"], "note": ""},
{"property": "C33", "status": "proved", "theorems": ["C33_leaving_sets_defaults", "C33_restores_iff_default_before", "C33_inner_block_restores_outer_refuted"], "note": ""},
{"property": "C34", "status": "proved", "theorems": ["C34_normal_run_restores_stdout", "C34_layers", "C34_failed_run_leaves_stdout_replaced", "C34_failing_runs_pile_up", "C34_forced_runs_restore_unless_interrupted", "C34_interrupt_ends_a_forced_run", "C34_interrupt_ends_a_pdb_run", "C34_writes_are_logged_once", "C34_output_after_a_failed_run_refuted", "C34_plain_writes", "C34_replaced_by_an_item"], "note": ""},
{"property": "C35", "status": "proved", "theorems": ["C35_stack_is_balanced", "C35_running_an_item_is_balanced", "C35_reset_within_a_run_raises", "C35_balanced_despite_reset_refuted"], "note": ""},
{"property": "C36", "status": "proved", "theorems": ["C36_observations_follow_the_nesting", "C36_dependencies_follow_the_nesting", "C36_own_path_inside_outer_path_after", "C36_run_inside_a_file"], "note": ""},
{"property": "C37", "status": "proved", "theorems": ["C37_dependencies_are_well_formed", "C37_dependencies_grow", "C37_getting_through_the_selector_is_recorded", "C37_no_self_dependency_while_running", "C37_acyclic_refuted"], "note": ""},
{"property": "C38", "status": "proved", "theorems": ["C38_update_reaches_all_dependents", "C38_refresh_brings_up_to_date", "C38_loading_keeps_everything_up_to_date", "C38_always_up_to_date", "C38_order_does_not_matter", "C38_settled_states_are_those_reached", "C38_order_does_not_matter_with_section_values_refuted", "C38_new_names_appear_refuted", "C38_everything_up_to_date_after_an_exception_refuted", "C38_cycles_give_up", "C38_depth_is_not_reported", "C38_updates_end", "C38_refreshes_end", "C38_loads_end"], "note": ""},
{"property": "C39", "status": "proved", "theorems": ["C39_each_dependent_refreshed_once", "C39_loop_never_raises_resolve_error", "C39_updates_never_raise_resolve_error", "C39_loop_ends", "C39_loop_ends_refuted"], "note": ""},
{"property": "C40", "status": "proved", "theorems": ["C40_item_added_at_the_end", "C40_everything_else_unchanged", "C40_sections_on_the_way", "C40_failure_changes_nothing", "C40_when_it_fails", "C40_keys_stay_distinct"], "note": ""},
{"property": "C41", "status": "proved", "theorems": ["C41_pipeline_dict_reads_back", "C41_reads_back_after_black", "C41_class_dict_reads_back", "C41_which_dicts_can_be_written", "C41_reading_gives_real_dicts", "C41_strings_become_names", "C41_any_key_refuted", "C41_backslash_refuted", "C41_line_break_refuted", "C41_attribute_entries_refuted"], "note": "Black is assumed to change only the layout; the reader covers the part of Python's syntax that dict files are made of."},
{"property": "C42", "status": "proved", "theorems": ["C42_create_equals_reload", "C42_any_sequence", "C42_create_class_equals_reload", "C42_any_class_sequence", "C42_tree_update_is_rebuild", "C42_any_path_refuted", "C42_failure_leaves_file_refuted", "C42_class_failure_leaves_file_refuted", "C42_unreadable_file", "C42_registrar_names", "C42_when_the_file_changes", "C42_when_the_class_file_changes", "C42_name_clash_refuted", "C42_lambda_refuted"], "note": "Imports of the dict file enter as the function that says what a name stands for; black is assumed to change only the layout."},
{"property": "C43", "status": "proved", "theorems": ["C43_text_written", "C43_values_added", "C43_value_written", "C43_settings_kept", "C43_new_file", "C43_unreadable_file_raises", "C43_old_values_are_not_printed", "C43_specific_classes_too", "C43_assignment_sign", "C43_annotated_setting", "C43_plain_setting", "C43_declared_setting", "C43_value_needed", "C43_target_needed", "C43_annotated_attribute_refuted", "C43_only_syntax_errors", "C43_import_word_needed"], "note": "The text is read by the line reader of PySource_Model (statements over tokens), not by an abstract parser. Layout by black is assumed to change layout only for values that are printed and is a premise on the values (value_ok). The cleanup_kwargs of data pipelines are part of C83. Declarations without a value (x: int) are settings (C43_declared_setting)."},
{"property": "C44", "status": "proved", "theorems": ["C44_only_newlines_at_the_end_change", "C44_new_files_too", "C44_settles", "C44_settles_with_the_second_rewriting"], "note": "'survive' excludes relative imports and others that printing changes (C47); see C45 for what happens to them."},
{"property": "C45", "status": "proved", "theorems": ["C45_imports_below_multiply", "C45_below_a_comment_refuted", "C45_setting_deleted_refuted", "C45_comment_deleted_refuted", "C45_import_over_lines_refuted", "C45_relative_import_refuted", "C45_future_import_refuted", "C45_setting_comes_and_goes_refuted"], "note": "The growth theorem is general; each refuted theorem gives the file that is damaged."},
{"property": "C46", "status": "proved", "theorems": ["C46_one_file", "C46_interrupted_load", "C46_at_most_one_file_torn", "C46_old_or_new_refuted", "C46_settings_survive_refuted"], "note": "Writes are modelled byte by byte, so that the crash states include all that buffering can produce. Non-interference of files needs trees in which names of files and folders of a section differ (tidy). The refuted theorems use the model of config files (C43)."},
{"property": "C47", "status": "proved", "theorems": ["C47_import_is_read", "C47_from_import_is_read", "C47_written_statement_reads_back", "C47_names_as_last_renamed", "C47_survives_iff_one_way", "C47_one_way_statements_survive", "C47_written_the_same_again", "C47_two_names_lose_one_refuted", "C47_relative_imports_lose_their_dots", "C47_dots_only_raise"], "note": ""},
{"property": "C48", "status": "proved", "theorems": ["C48_first_statement_with_the_name", "C48_raises_iff_in_no_statement", "C48_original_name", "C48_new_name", "C48_gives_the_binding", "C48_hidden_name_refuted", "C48_shadowed_name_refuted", "C48_package_not_found_refuted"], "note": ""},
{"property": "C49", "status": "proved", "theorems": ["C49_passed", "C49_function_runs", "C49_missing_raises", "C49_required_keyword_only_refuted", "C49_keyword_only", "C49_positional_only_required", "C49_positional_only_configured", "C49_positional_only_to_kwargs", "C49_other_keywords_refuted", "C49_class_runs", "C49_class_entry_for_self_raises", "C49_object_updated", "C49_update_function_raises"], "note": "Python's binding of arguments is modelled by call in FuncArgs_Spec. Classes without __new__ and metaclass."},
{"property": "C50", "status": "proved", "theorems": ["C50_defaults", "C50_alignment", "C50_keyword_only_refuted", "C50_method", "C50_method_raises", "C50_placeholder", "C50_placeholder_key", "C50_placeholder_first_parameter", "C50_scaffold_runs", "C50_source_agrees"], "note": "Run-time signatures and those read from the source; C50_keyword_only_refuted and the placeholder theorems give the cases where the expectation fails."},
{"property": "C51", "status": "proved", "theorems": ["C51_item_found_iff_written", "C51_section_found_iff_written", "C51_nothing_else_found", "C51_registrar_finds_the_same", "C51_reserved_names_find_nothing", "C51_nothing_below_reserved_names", "C51_collection_is_an_alias", "C51_direct_values_dropped", "C51_when_building_fails", "C51_later_item_hides", "C51_every_entry_reachable_refuted", "C51_key_in_list_refuted"], "note": ""},
{"property": "C52", "status": "proved", "theorems": ["C52_failed_load_removes_its_imports", "C52_failed_load_leaves_no_trace", "C52_load_remembers_its_imports", "C52_imports_before_caught_errors", "C52_reload_imports_again", "C52_reload_finds_its_modules", "C52_modules_have_one_owner", "C52_reload_before_load", "C52_loading_twice_forgets", "C52_reload_stays_broken", "C52_interrupted_reload_refuted", "C52_nested_load_refuted", "C52_load_in_own_load_refuted"], "note": "What happens in a load is an arbitrary list of actions (imports, removals, exceptions, nested loads, try statements). Module objects are numbered by execution."},
{"property": "C53", "status": "proved", "theorems": ["C53_loaded_tree_mirrors_folder", "C53_missing_folder_is_empty_section", "C53_reset_of_a_removed_folder", "C53_value_error_in_section_file_is_swallowed", "C53_item_of_a_removed_file", "C53_refresh_of_a_removed_file", "C53_reset_of_a_removed_file", "C53_path_below_an_item", "C53_path_below_an_item_same_when_loaded_refuted", "C53_hidden_folders_do_not_matter", "C53_load_outcome"], "note": ""},
{"property": "C54", "status": "proved", "theorems": ["C54_contains", "C54_unknown_manager", "C54_later_manager", "C54_reloads_are_not_seen", "C54_follows_reloads_refuted", "C54_needs_all_managers_loaded", "C54_methods_are_items_refuted", "C54_not_a_string", "C54_class_dict_called_general", "C54_types", "C54_attribute_access", "C54_first_name_is_not_checked", "C54_view_of_path", "C54_equality", "C54_all_contained_reachable_refuted", "C54_own_names"], "note": "Dunder attributes are left out; what an attribute that is not contained gives (the attribute of the real item) is left open."},
{"property": "C55", "status": "proved", "theorems": ["C55_existing_unchanged", "C55_success", "C55_result", "C55_twice", "C55_needed_again", "C55_only_if_needed", "C55_other_config_folder_refuted", "C55_class_dict_called_pipeline_refuted", "C55_after_an_interruption", "C55_repaired_after_interruption_refuted", "C55_torn_pipeline_dict_unreadable"], "note": "File system without links and permissions; all OS errors are OSError. Missing parents etc. follow os.makedirs."},
{"property": "C56", "status": "proved", "theorems": ["C56_plugin_values", "C56_callers_dict_changed", "C56_reserved_name_raises", "C56_no_contributions"], "note": ""},
{"property": "C57", "status": "proved", "theorems": ["C57_auto_pdb", "C57_auto_pdb_never_raises_other", "C57_setting_off", "C57_setting_on", "C57_debugging_function", "C57_debugging_is_determined", "C57_which_debugger_does_not_matter", "C57_auto_pdb_always_gives_none_refuted"], "note": ""},
{"property": "C58", "status": "proved", "theorems": ["C58_config_attribute_is_none", "C58_missing_attribute_raises", "C58_attribute_is_value_refuted"], "note": ""},
{"property": "C59", "status": "proved", "theorems": ["C59_assignment_does_not_set", "C59_option_is_dead_after_assignment", "C59_reset_raises_after_assignment", "C59_reset_stops_there"], "note": ""},
{"property": "C60", "status": "proved", "theorems": ["C60_statements_are_kept", "C60_left_out_iff", "C60_its_bindings_are_there", "C60_name_behind_as_refuted"], "note": ""},
{"property": "C61", "status": "proved", "theorems": ["C61_nothing_else_touched", "C61_nothing_removed", "C61_all_written", "C61_failed_load", "C61_again", "C61_again_alike", "C61_section_config_kept_refuted", "C61_removed_items_cleaned_up_refuted"], "note": "The content written for an item is a parameter (cfg), to be taken from C43; the walk over collections, folders and section files is modelled."},
{"property": "C62", "status": "proved", "theorems": ["C62_found_iff", "C62_raises", "C62_binds_the_names", "C62_nothing_else", "C62_module_variable_refuted", "C62_builtin_in_default_refuted", "C62_lambda_refuted", "C62_annotations_refuted", "C62_parameters_refuted"], "note": "The order of sets is a parameter (set_order). The refuted theorems list signatures that cannot be scaffolded."},
{"property": "C63", "status": "proved", "theorems": ["C63_found", "C63_item", "C63_only_definitions", "C63_definitions", "C63_item_with_several_names", "C63_item_without_name", "C63_several_modules", "C63_init_without_self", "C63_class_without_init_refuted", "C63_two_definitions_refuted", "C63_item_of_module_refuted", "C63_positional_only_self_refuted", "C63_circle_refuted"], "note": "Files of modules are given by a function; import_section_path_str is None, as for all items of the collections; a lack of fuel stands for RecursionError."},
{"property": "C64", "status": "proved", "theorems": ["C64_any_name_in_a_dict", "C64_config_keyword_never_works", "C64_E_keyword", "C64_d_keyword_on_a_loaded_item", "C64_d_keyword_otherwise", "C64_refresh_clash", "C64_refresh_skips_E", "C64_refresh_rereads_everything_refuted", "C64_reset_clash", "C64_reset_d_clash", "C64_reset_none_names", "C64_reset_of_a_section"], "note": "Exact outcomes for each clashing name. Mapping values of E, d_ and d, which would be merged as further entries, are outside the value model."},
{"property": "C65", "status": "proved", "theorems": ["C65_call_of_function", "C65_call_fails", "C65_call_of_class", "C65_arguments_reach_the_item_refuted", "C65_call_of_instance", "C65_call_of_method", "C65_every_contained_item_can_be_called_refuted", "C65_set_is_update", "C65_set_on_the_view", "C65_names_of_the_view", "C65_call_of_manager", "C65_manager_gone", "C65_set_then_call", "C65_set_can_be_read_refuted", "C65_read_of_item", "C65_read_raises_what_was_raised_refuted"], "note": "The attributes of the user's own objects (missing, method, class, value) are a parameter; what a called function does is outside. The dependency record made by views is in C35 to C37."},
{"property": "C66", "status": "proved", "theorems": ["C66_method_of_run", "C66_method_of_view", "C66_own_method", "C66_subclass", "C66_specific", "C66_run_uses_own_method_refuted", "C66_view_and_run_agree_refuted"], "note": "Classes are compared as callables of the model; the subclass relation is a parameter."},
{"property": "C67", "status": "proved", "theorems": ["C67_wrong_name", "C67_nothing_works_afterwards", "C67_section_leaves_its_path", "C67_call_of_section", "C67_call_of_any_section", "C67_section_taken_for_a_method", "C67_wrong_name_is_harmless_refuted", "C67_wrong_name_below_manager"], "note": "The wrong name must not be the beginning of a name below the section, nor of one of the collections' own attributes; completing such a beginning by the next access can reach an item."},
{"property": "C68", "status": "proved", "theorems": ["C68_module_found", "C68_not_found", "C68_imported_obj", "C68_imported_name", "C68_imported_from", "C68_considered", "C68_import_gives_object", "C68_import_gives_object_without_aliases", "C68_import_in_another_process", "C68_alias_refuted", "C68_other_object_refuted", "C68_works_in_another_process_refuted", "C68_variable_name", "C68_no_variable_name", "C68_module_gone", "C68_variable_name_of_found", "C68_found_object_has_a_name_refuted", "C68_imported_submodule"], "note": "Modules are lists of names with object identities; importing a module anew is not modelled, another process is another list of modules."},
{"property": "C69", "status": "proved", "theorems": ["C69_ready", "C69_plain_run", "C69_result_returned_refuted", "C69_value_not_printable", "C69_unprintable_values", "C69_view_of_item", "C69_log_is_pure_refuted", "C69_log_cannot_fail_refuted", "C69_log_shows_the_view_refuted", "C69_view_of_section", "C69_run_keeps_views_usable_refuted", "C69_string_literal", "C69_text_is_code_refuted"], "note": "Stated for functions; classes use the same texts. The text of a value is a parameter. Whatever an object has under the name _is_selector counts as true."},
{"property": "C70", "status": "proved", "theorems": ["C70_rejected_changes_nothing", "C70_keys", "C70_class_defaults", "C70_accepted", "C70_determined", "C70_paths_unambiguous", "C70_never_loaded", "C70_constructor", "C70_constructor_with_names", "C70_registrars_by_name", "C70_free_names_accepted_refuted", "C70_general_registrar_found_refuted", "C70_constructed_can_be_loaded_refuted", "C70_failed_constructor_unregistered_refuted", "C70_acceptable_or_fault", "C70_fault_raised"], "note": "How dict files are parsed, what their entries stand for and what is written for an item are parameters here; C41, C51, C43 and C63 are about these. Loading and wiping of modules (C52) is separate."},
{"property": "C71", "status": "proved", "theorems": ["C71_failed_load", "C71_runner_kept", "C71_history_irrelevant", "C71_retry", "C71_failed_reload_undone_refuted"], "note": "The list of imported modules kept by the manager is not part of this model (C52)."},
{"property": "C72", "status": "proved", "theorems": ["C72_files_to_call", "C72_folders_described", "C72_leftover_folder_harmless_refuted"], "note": "Stated for functions of the pipeline dict. The folder seen by the config manager is described from the file system; C72_folders_described shows that this is possible for every folder with finitely many names and levels."},
{"property": "C73", "status": "proved", "theorems": ["C73_settings", "C73_execution", "C73_only_own_names", "C73_last_counts", "C73_assigned_value", "C73_failure", "C73_no_file", "C73_only_assignments_are_settings_refuted", "C73_assignments_are_settings_refuted"], "note": "Expressions are known by their tokens; their values, imports, functions and classes are parameters (record python). Expressions bind no names, and objects are values: changing an object in place is not seen."},
{"property": "C74", "status": "proved", "theorems": ["C74_accepted", "C74_scaffoldable", "C74_names", "C74_names_seen", "C74_values_agree", "C74_executable_loads_refuted", "C74_loaded_scaffolds_refuted", "C74_scaffolded_loads_refuted", "C74_seen_is_set_refuted", "C74_last_in_text_counts_refuted", "C74_declared_has_no_value_refuted", "C74_import_after_refuted", "C74_text", "C74_blanks_between_tokens", "C74_indentation_and_comments", "C74_strings_are_values", "C74_docstrings_are_skipped", "C74_name_words"], "note": "C74_text connects programs with the text of plain files, read by PySource_Model; compound statements are given as trees."},
{"property": "C75", "status": "proved", "theorems": ["C75_program", "C75_value", "C75_value_alone", "C75_names", "C75_defaults_work_refuted", "C75_only_parameters_refuted"], "note": "For items with item_ok (values with the source of an expression). The program is read from the written text, not assumed."},
{"property": "C76", "status": "proved", "theorems": ["C76_program", "C76_settings_kept", "C76_imports_kept_refuted", "C76_imported_s_kept_refuted", "C76_imported_settings_kept_refuted", "C76_stays_loadable_refuted"], "note": "For files of imports and assignments to names. Both files are supposed to load; C76_stays_loadable_refuted shows that the second may not."},
{"property": "C77", "status": "proved", "theorems": ["C77_new_function", "C77_imports_in_sections_harmless_refuted"], "note": "C72 with the execution of C73 and the text of C75; what files other than plain ones give is a parameter."},
{"property": "C78", "status": "proved", "theorems": ["C78_files_to_call", "C78_new_item", "C78_own_name_refuted"], "note": "C71, C72 and C75 for class dicts. C78_own_name_refuted: a section file that assigns key_attr renames all items below it."},
{"property": "C79", "status": "proved", "theorems": ["C79_loaded", "C79_names_kept", "C79_found_until_added", "C79_create", "C79_created", "C79_files_written", "C79_create_fails", "C79_items_stay_refuted", "C79_paths_keep_meaning_refuted", "C79_common_name_refuted", "C79_own_path_refuted"], "note": "The attribute key_attr is there and is a string. Also says when the models with fixed names (C40 to C42, C51, C78) apply to class dicts. An item that was renamed is lost at its path when another one is created next to it."},
{"property": "C80", "status": "proved", "theorems": ["C80_python_gives_one", "C80_found", "C80_nested", "C80_only", "C80_exact", "C80_below_module", "C80_missing", "C80_missing_top", "C80_below_missing", "C80_file", "C80_exceptions", "C80_loaded", "C80_definition", "C80_read_from", "C80_importable_is_found_refuted", "C80_found_is_importable_refuted", "C80_wrong_definition_refuted"], "note": "With Python's own finders; entries of sys.path are directories; executing a module changes neither sys.modules nor paths. C80_wrong_definition_refuted: from pkg.module.tool import run reads the signature of run in a top-level module tool."},
{"property": "C81", "status": "proved", "theorems": ["C81_name", "C81_name_raises", "C81_root", "C81_module", "C81_no_object", "C81_config_of_the_object", "C81_module_of_view", "C81_module_again", "C81_executed", "C81_one_name", "C81_pipeline", "C81_pipeline_names", "C81_first_output_name", "C81_pipeline_without_name", "C81_attribute_refuted", "C81_module_attribute_refuted", "C81_package_refuted", "C81_submodule_refuted", "C81_run_under_own_name_refuted", "C81_outer_name_refuted"], "note": "C81_config_of_the_object supposes that the modules do what their files say (as_written). The mixin for cached properties is outside of the repository."},
{"property": "C82", "status": "proved", "theorems": ["C82_manager_needs_loading", "C82_manager_lists", "C82_how_often", "C82_listed_is_found", "C82_found_is_listed", "C82_listed_can_be_accessed_refuted", "C82_listed_is_what_is_accessed_refuted", "C82_methods_listed_refuted", "C82_sections_of_manager", "C82_items_of_sections_listed_refuted", "C82_selector", "C82_view_of_section", "C82_view_of_manager", "C82_view_of_get_refuted", "C82_view_after_reload_refuted", "C82_view_of_item", "C82_view_below_item", "C82_view_of_unknown_manager", "C82_config_section", "C82_config_manager", "C82_own_names_of_collections", "C82_own_names_of_config_tree", "C82_config_attributes", "C82_config_values_refuted"], "note": "Names with double underscores and those of the mixins package are left out; the order of the listed names is not modelled."},
{"property": "C83", "status": "proved", "theorems": ["C83_assign_string", "C83_import_string", "C83_rejected_string", "C83_only_what_is_read", "C83_verbatim_refuted", "C83_strings_or_own", "C83_given_imports", "C83_import_strings_last", "C83_import_string_left_out", "C83_selector_first", "C83_empty_sequence_refuted", "C83_accepted", "C83_attribute_strings", "C83_value_of_a_name", "C83_order", "C83_own_strings_refuted", "C83_file_first", "C83_then_as_usual", "C83_bad_strings_raise", "C83_pipeline_as_usual", "C83_other_names", "C83_pipeline_defaults", "C83_saved_to_path", "C83_saved_to_its_file", "C83_text_saved", "C83_new_path_refuted", "C83_save_fails"], "note": "What astor prints for values and annotations of strings is a parameter. Strings are read with the parser of C43. Declarations without value in strings are printed like assignments."},
{"property": "C84", "status": "proved", "theorems": ["C84_order_of_calls", "C84_default_in_between", "C84_register", "C84_unregister", "C84_default_removed", "C84_only_default_removed", "C84_reset", "C84_paths_contributed", "C84_in_place", "C84_in_place_refuted", "C84_later_hooks", "C84_views_run", "C84_list_contributed", "C84_list_contributed_refuted", "C84_list_as_one_item", "C84_results_added", "C84_post_run_at_the_end_refuted", "C84_value_in_update", "C84_first_wins_refuted", "C84_batch_of_list", "C84_batch_order", "C84_batch_of_generator_read", "C84_batch_of_generator_unread", "C84_generator_refuted", "C84_default_only", "C84_batch_without_default", "C84_no_cases", "C84_removing_is_harmless_refuted", "C84_cases", "C84_case_of_another_item", "C84_cases_of_plugins_refuted"], "note": "Hooks are functions of what they are given (and, for generators, say whether they iterate over it); hooks that raise are in C107, wrappers and historic calls are left out. pluggy's order of calls is modelled from its documentation."},
{"property": "C85", "status": "proved", "theorems": ["C85_recorded_path", "C85_recorded_project", "C85_found", "C85_refresh_raises", "C85_refresh_project", "C85_loaded_items_not_told", "C85_dependents_refreshed", "C85_hooks_called", "C85_unknown_manager", "C85_update_stops", "C85_update_fails", "C85_update_reaches_dependents_refuted", "C85_order_does_not_matter_refuted", "C85_other_paths", "C85_same_operations"], "note": "What executing config files yields is a parameter that may depend on the state of all managers; recorded dependencies are given; executing a file again records nothing new."},
{"property": "C86", "status": "proved", "theorems": ["C86_loads_iff", "C86_tree", "C86_strings", "C86_python_agrees", "C86_executed", "C86_final_value_refuted", "C86_other_statements_ignored", "C86_blocks_ignored", "C86_wrapped", "C86_wrapped_value_refuted", "C86_entries_refuted", "C86_bad_import", "C86_several_targets", "C86_target_no_name", "C86_found", "C86_readable_refuted"], "note": "From the syntax tree on (reading texts is in C40-C42 and C51). A constant key that is no string raises TypeError when it is read, instead of when the path is joined. The evaluation of expressions that are no displays and the effect of other statements are parameters."},
{"property": "C87", "status": "proved", "theorems": ["C87_class_of_item", "C87_class_of_section", "C87_class_without_manager", "C87_isinstance", "C87_isinstance_any", "C87_old_selector", "C87_old_selector_section", "C87_class_checks_have_no_effect_refuted", "C87_run_view", "C87_run_view_is_run_of_path", "C87_run_runs_the_item_of_the_view_refuted", "C87_run_view_raises", "C87_force_continue_catches_everything_refuted", "C87_run_list", "C87_run_something_else", "C87_from_ambiguous", "C87_list_from_ambiguous", "C87_conversion_raises", "C87_view_of_a_list", "C87_comparison", "C87_would_update", "C87_comparison_raises", "C87_view_of_a_frame", "C87_update", "C87_update_raises", "C87_update_without_path", "C87_views_are_only_looked_up_when_used_refuted"], "note": "isinstance as in CPython: the real type first, then __class__, for which an AttributeError counts as no class. The class of attributes of items and the answer of pandas' equals are parameters. A view that claims to be a string or a SectionPath is not followed further."},
{"property": "C88", "status": "proved", "theorems": ["C88_misfit_rejected", "C88_misfit_or_placed", "C88_nothing_or_entry", "C88_in_step", "C88_class_in_step", "C88_load_gives_the_same", "C88_created_then_run", "C88_needs_a_runner", "C88_class_without_registrar", "C88_new_section_configurable_refuted", "C88_sections_get_their_file_refuted", "C88_again_harmless_refuted", "C88_raising_changes_nothing_refuted", "C88_created_can_be_run_refuted", "C88_failed_first_load_refuted", "C88_entry_or_fault", "C88_entry_fault_raised"], "note": "Reading and writing of dict files, the meaning of names, instantiation of class dict entries and the text of config files are parameters, the writing being assumed to say what it should where this matters (see C42 and C68 for the real writers). Paths with names that registrars or collections define themselves are left out of the in-step theorems."},
{"property": "C89", "status": "proved", "theorems": ["C89_absolute_path", "C89_same_place", "C89_one_place_one_path_refuted", "C89_normal_path", "C89_normal_form", "C89_relative_path", "C89_section_path_of_file", "C89_file_of_section_path", "C89_file_outside", "C89_frame_of_file_outside", "C89_dict_file_frame_refuted", "C89_own_section_path_refuted", "C89_outside_leads_back_refuted", "C89_section_name", "C89_file_name"], "note": "posixpath is modelled, not assumed; symbolic links and other systems than POSIX are left out, the working directory is a parameter."},
{"property": "C90", "status": "proved", "theorems": ["C90_values_suffice", "C90_steps_on_present_contents", "C90_library_changes_no_list", "C90_run_changes_arguments_only", "C90_in_place_change", "C90_run_passes_present_contents", "C90_update_takes_objects", "C90_same_objects_no_update", "C90_reset_restores", "C90_refresh_gives_present_contents", "C90_file_lists_are_new", "C90_reset_lets_go", "C90_other_lists_do_not_matter", "C90_runs_repeat_refuted", "C90_given_lists_stay_refuted", "C90_changed_list_noticed_refuted", "C90_refresh_brings_back_refuted", "C90_reset_always_lets_go_refuted"], "note": "Of the objects only lists can change in place, their elements are values; one function item outside sections with configs."},
{"property": "C91", "status": "proved", "theorems": ["C91_updates_are_copied", "C91_copy_keeps_sharing", "C91_run_product_is_calls", "C91_values_suffice", "C91_given_lists_stay", "C91_case_arguments", "C91_case_gets_its_values_refuted", "C91_case_describes_call_refuted", "C91_cases_are_independent_refuted"], "note": "Updates of one item that is itself run; deep copies of item views (which copy the loaded item) are left out."},
{"property": "C92", "status": "proved", "theorems": ["C92_only_own_operations_matter", "C92_other_operations_do_not_matter", "C92_one_operation", "C92_lists_of_runs_refuted", "C92_running_a_section_refuted", "C92_second_names_refuted"], "note": "No pre-run items contributed by hooks (u_pre_run empty); hooks observe only, so dependents refreshed by the default hooks are outside (C37-C39, C85)."},
{"property": "C93", "status": "proved", "theorems": ["C93_only_own_operations_matter", "C93_other_operations_do_not_matter", "C93_operations_change_one_manager", "C93_batch_of_several_managers", "C93_failing_batch_refuted", "C93_curious_code_refuted", "C93_foreign_views"], "note": "The code of items returns values and may look at all managers, but changes none itself; hooks observe only, so dependents in other managers refreshed by the default hooks are outside (C37-C39, C85)."},
{"property": "C94", "status": "proved", "theorems": ["C94_failed_update", "C94_failed_update_is_not_repeated", "C94_update_gives_the_values_refuted", "C94_next_update_gives_everything", "C94_failed_refresh", "C94_failed_reset", "C94_failed_get", "C94_failed_get_is_repeated", "C94_failed_run"], "note": "What the user's __init__ did to the instance before it raised is not tracked; user code returns values and changes no configs; hooks observe only."},
{"property": "C95", "status": "proved", "theorems": ["C95_config_has_the_value_set_last", "C95_runs_use_the_value_set_last", "C95_transient_refuted", "C95_persistent_after_transient_refuted", "C95_section_refuted", "C95_unmentioned_refuted"], "note": "Values are ordinary ones (numbers, strings, lists of them); user code returns values and changes no configs; no pre-run hooks; the updates and resets of the item go through (for those that raise see C94)."},
{"property": "C96", "status": "proved", "theorems": ["C96_the_argument_follows_the_machine", "C96_in_one_way", "C96_the_next_run_uses_it", "C96_alone", "C96_a_loaded_object_is_deaf", "C96_reset_of_a_section", "C96_a_run_keeps_the_value_around", "C96_section_update_used_refuted", "C96_update_only_its_own_arguments_refuted", "C96_reset_brings_back_the_start_refuted", "C96_reset_forgets_refuted", "C96_section_reset_used_refuted"], "note": "Values are ordinary ones (numbers, strings, lists of them); user code returns values and changes no configs and accepts its arguments; no pre-run hooks; the updates, resets and refreshes of the item and around it go through (for those that raise see C94). Runs and gets of whole sections around the item and of lists follow in C98; resets with allow_create are not among the operations."},
{"property": "C97", "status": "proved", "theorems": ["C97_update_again", "C97_local_update_again", "C97_made_persistent_refuted", "C97_update_again_array_refuted", "C97_update_again_odd_refuted", "C97_refresh_again", "C97_refresh_again_refuted", "C97_reset_again", "C97_local_reset_again", "C97_two_updates_as_one", "C97_two_updates_as_one_refuted", "C97_one_update_as_two_refuted", "C97_undone", "C97_persistent_undone_refuted"], "note": "The laws for two updates and for undoing ask for values that can be compared (plain ones) and names the config knows. The refresh law is for items whose files and updates do not set E."},
{"property": "C98", "status": "proved", "theorems": ["C98_run_of_the_functions", "C98_one_after_the_other", "C98_in_two_runs", "C98_run_in_a_history", "C98_get_in_a_history", "C98_the_argument_follows_the_machine", "C98_the_next_run_uses_it", "C98_run_of_the_items_refuted"], "note": "Sections contain functions with names that can be reached by their paths (as in C24); no pre-run hooks, and for the results no post-run hooks."},
{"property": "C99", "status": "proved", "theorems": ["C99_an_edit_changes_one_file", "C99_the_argument_follows_the_machine", "C99_in_one_way", "C99_the_next_run_uses_it", "C99_without_edits", "C99_edit_of_a_read_file", "C99_edit_of_an_unread_file", "C99_edit_of_a_section", "C99_reset_after_the_edit", "C99_refresh_after_the_edit", "C99_section_reset_and_edit", "C99_edit_used_by_the_next_run_refuted", "C99_edit_needs_a_reload_refuted", "C99_edit_before_the_first_run_refuted", "C99_refresh_brings_in_the_edit_refuted", "C99_update_of_another_argument_refuted"], "note": "As in C96. The edited files can be read before and after; in the item's file and the section files around it the argument is given after the edit if and only if it was given before, with an ordinary value. Python's bytecode cache, which can hide an edit made within the same second that leaves the size of the file unchanged, is not modelled."},
{"property": "C100", "status": "proved", "theorems": ["C100_amounts_to_operations_one_after_the_other", "C100_histories", "C100_projects_of_functions", "C100_functions_that_do_not_use_the_manager", "C100_dependencies_are_recorded_for_running_items", "C100_a_run_by_a_running_item_is_a_dependency", "C100_the_argument_follows_the_machine", "C100_a_function_that_runs_itself", "C100_section_run_with_configs_at_its_start_refuted", "C100_update_leaves_other_items_alone_refuted", "C100_own_update_seen_refuted", "C100_failed_function_undone_refuted", "C100_failed_run_is_a_dependency_refuted"], "note": "One manager; constructors and config files do not use the manager, item views are left out; no paths are added by plugins before runs. Sections that are run contain functions and sections with proper names (C100_projects_of_functions gives a sufficient condition); gets of sections are one plain operation."},
{"property": "C101", "status": "proved", "theorems": ["C101_config_of_an_object", "C101_object_made_again", "C101_key_is_no_parameter", "C101_attribute_raises", "C101_none_comes_back_refuted", "C101_base_class_changes_nothing", "C101_base_class", "C101_base_class_any_class_refuted"], "note": "Reading an attribute twice gives the same; nothing in the library calls from_obj. Python's binding of arguments is modelled by call in FuncArgs_Spec."},
{"property": "C102", "status": "proved", "theorems": ["C102_loading_undoes_a_session", "C102_a_new_process_repeats", "C102_files_that_settle", "C102_files_of_the_library", "C102_edits_change_the_files_only", "C102_loads_make_new_objects", "C102_before_loading", "C102_executing_ignores_newlines", "C102_sessions_change_no_file_refuted", "C102_only_the_files_count", "C102_a_load_that_fails", "C102_changed_files", "C102_persistent_updates_survive_a_load_refuted", "C102_folders_described"], "note": "Conditions: the names of files do not get into each other's way, the folder for configs is not called pipeline_dict.py, and writing a config file again gives a text that is read alike; C102_files_of_the_library shows this for the files that scaffolding (C43, C44) writes, in which no import stands among the settings. What user functions do to files and the wiping of imported modules (C52) are left out."},
{"property": "C103", "status": "proved", "theorems": ["C103_display", "C103_other_keys", "C103_other_nodes", "C103_call", "C103_keys_of_calls", "C103_read_back", "C103_written", "C103_calls_read_back_refuted", "C103_displays_and_calls_agree_refuted", "C103_by_name", "C103_by_name_agrees_refuted"], "note": "Trees are displays, calls and other nodes; constants other than strings have no attribute s; a keyword without name (**d) has the key **, which stands for None."},
{"property": "C104", "status": "proved", "theorems": ["C104_add", "C104_add_all", "C104_imports", "C104_insert", "C104_together", "C104_equal_assignments", "C104_compared_with", "C104_annotations_kept_refuted", "C104_names_once_refuted", "C104_contains_varname", "C104_rename_of", "C104_all_new_names_known_refuted", "C104_names_and_back", "C104_back", "C104_listed", "C104_front", "C104_position"], "note": "The equality of items does not raise; str.strip and str.lower for characters below 128."},
{"property": "C105", "status": "proved", "theorems": ["C105_shown", "C105_unnamed_function", "C105_interrupted", "C105_names_taken", "C105_no_data", "C105_nothing_asked", "C105_ways_of_merging", "C105_method_is_enough_refuted"], "note": "Data frames are opaque; reading and calling a method are one step; the text of arguments is a parameter; display_df_dict is of another package."},
{"property": "C106", "status": "proved", "theorems": ["C106_definition_to_call", "C106_imported_late", "C106_not_imported", "C106_no_name", "C106_pipeline_entry", "C106_changed_definition", "C106_no_config", "C106_default_in_scope_refuted"], "note": "Composition of the models of views, signatures, config files, execution and projects."},
{"property": "C107", "status": "proved", "theorems": ["C107_hooks_return", "C107_hooks_raise", "C107_pre_run_raises", "C107_plain", "C107_auto_pdb", "C107_force_continue", "C107_reported", "C107_force_left", "C107_force_only_left", "C107_force_continue_covers_hooks_refuted", "C107_results_kept_refuted", "C107_same_runs", "C107_pre_update_raises", "C107_update", "C107_batch_raises", "C107_batch", "C107_batch_all_or_nothing_refuted", "C107_cases_raise", "C107_modify_raises", "C107_cases_made", "C107_case_hook_raises", "C107_case", "C107_case_not_filled", "C107_iteration", "C107_cases_stop", "C107_no_change", "C107_pre_change_raises", "C107_change", "C107_same_updates", "C107_dependents_left", "C107_dependents_refreshed_refuted"], "note": "The steps between the hooks are parameters; with hooks that do nothing the models of runs (C20, C84) and of dependents (C38) result, which is proved. Hooks called for the refreshes of the dependents themselves (C108) and changes of arguments in place are left out. pluggy's order and its behaviour on exceptions are modelled from its documentation."},
{"property": "C108", "status": "proved", "theorems": ["C108_quiet_hooks_change_nothing", "C108_loads_tell_nothing", "C108_order_of_telling", "C108_telling_of_an_update", "C108_what_is_told_holds", "C108_raising_ends_telling", "C108_changes_are_announced", "C108_all_changes_announced_refuted", "C108_told_after_each_change_refuted", "C108_updates_hold_after_refuted", "C108_parents_first_refuted"], "note": "The model is that of C38 with the calls of the hooks added; that leaving them out gives it back is proved. Hooks look, write down and raise, but do not change configs."},
{"property": "C109", "status": "proved", "theorems": ["C109_loaded_managers", "C109_not_loaded", "C109_read_not_loaded", "C109_never_said_when_reading", "C109_own_names", "C109_gone", "C109_selector", "C109_class_dict_of_new_manager", "C109_runner_decides", "C109_failed_load", "C109_added_by_failed_load", "C109_contained_can_be_called_refuted", "C109_not_loaded_is_said_refuted"], "note": "Dependency records (C36) are left out."},
{"property": "C110", "status": "proved", "theorems": ["C110_reset_reaches_all_dependents", "C110_always_up_to_date", "C110_values_of_the_file", "C110_undo", "C110_order_does_not_matter", "C110_histories_are_settled", "C110_quiet_hooks_change_nothing", "C110_order_of_telling", "C110_what_is_told_holds", "C110_raising_ends_telling", "C110_follows_its_file_again_refuted", "C110_undoes_other_names_refuted", "C110_sections_win_refuted"], "note": "On top of the models of C38 and C108. The theorems about undoing and the order need user types that keep the values of their config and are updated by calling __init__ again, an equality of values that is exact, no values of sections, and files whose names do not depend on other items."},
{"property": "C111", "status": "proved", "theorems": ["C111_sections", "C111_division_is_unique", "C111_nothing_is_lost", "C111_rewriting_keeps_this", "C111_split_at_first_sign", "C111_stripping", "C111_no_blank_end_refuted", "C111_only_imports_refuted", "C111_all_imports_refuted", "C111_name_before_sign_refuted"], "note": "The function that splits assignments is not called by the library. Characters below 128."}
]}
