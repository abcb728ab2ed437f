{
 "ru7": [
  "C22_plugin_results_come_last",
  "C22_plugin_results_after_one_path"
 ],
 "cfg11": [
  "C58_config_attribute_is_none",
  "C58_missing_attribute_raises",
  "C58_attribute_is_value_refuted"
 ],
 "ct11": [
  "C15_reset_without_path"
 ],
 "ct17": [
  "C53_missing_folder_is_empty_section",
  "C53_reset_of_a_removed_folder"
 ],
 "ct6": [
  "C15_reset_of_a_missing_item"
 ],
 "ru17": [
  "C18_running_a_class_calls_its_instance"
 ],
 "ru21": [
  "C22_plugin_results_come_last",
  "C22_plugin_results_after_one_path"
 ],
 "ba4": [
  "C31_persisted_by_default"
 ],
 "it18": [
  "C28_plugin_cases_come_first"
 ],
 "op3": [
  "C32_handler_needs_a_folder"
 ],
 "so3": [
  "C34_interrupt_ends_a_forced_run",
  "C34_interrupt_ends_a_pdb_run"
 ],
 "cx15": [
  "C37_getting_through_the_selector_is_recorded"
 ],
 "co3": [
  "C51_reserved_names_find_nothing"
 ],
 "ps6": [
  "C43_assignment_sign",
  "C43_annotated_setting",
  "C43_plain_setting"
 ],
 "ps7": [
  "C43_assignment_sign",
  "C43_annotated_setting",
  "C43_plain_setting"
 ],
 "ps10": [
  "C43_annotated_setting"
 ],
 "fa16": [
  "C63_definitions"
 ],
 "fa22": [
  "C63_item_with_several_names"
 ],
 "ex18": [
  "C73_execution"
 ],
 "ex19": [
  "C73_execution"
 ],
 "na1": [
  "C68_considered"
 ],
 "re1": [
  "C69_log_shows_the_view_refuted"
 ],
 "su2": [
  "C70_keys"
 ],
 "vi7": [
  "C65_call_of_manager"
 ],
 "vi9": [
  "C65_names_of_the_view"
 ],
 "vi12": [
  "C66_specific"
 ],
 "vi13": [
  "C65_manager_gone"
 ],
 "vi15": [
  "C67_call_of_any_section"
 ],
 "dr10": [
  "C82_view_below_item"
 ],
 "dr12": [
  "C82_view_of_unknown_manager"
 ],
 "al21": [
  "C83_pipeline_defaults"
 ],
 "pl11": [
  "C84_views_run"
 ],
 "pl13": [
  "C84_later_hooks"
 ],
 "sd13": [
  "C85_same_operations"
 ],
 "sd14": [
  "C85_same_operations"
 ],
 "sd16": [
  "C85_hooks_called"
 ],
 "sd18": [
  "C85_unknown_manager"
 ],
 "sd22": [
  "C85_dependents_refreshed"
 ],
 "pp5": [
  "C89_absolute_path",
  "C89_normal_path"
 ],
 "pp6": [
  "C89_normal_form",
  "C89_normal_path"
 ],
 "pp7": [
  "C89_normal_form",
  "C89_normal_path"
 ],
 "pp9": [
  "C89_relative_path"
 ],
 "it30": [
  "C30_only_changes_updated"
 ],
 "it33": [
  "C30_only_changes_updated"
 ],
 "pp11": [
  "C89_relative_path"
 ],
 "pp12": [
  "C89_relative_path"
 ],
 "ct30": [
  "C53_item_of_a_removed_file",
  "C53_refresh_of_a_removed_file",
  "C53_reset_of_a_removed_file"
 ],
 "rn47": [
  "C64_reset_none_names"
 ],
 "ct34": [
  "C53_path_below_an_item",
  "C53_path_below_an_item_same_when_loaded_refuted"
 ],
 "ps42": [
  "C74_blanks_between_tokens",
  "C74_indentation_and_comments"
 ],
 "ps45": [
  "C74_strings_are_values"
 ],
 "ct35": [
  "C53_path_below_an_item"
 ],
 "ct43": [
  "C53_hidden_folders_do_not_matter",
  "C53_load_outcome"
 ],
 "pd44": [
  "C41_pipeline_dict_reads_back"
 ],
 "pd45": [
  "C41_line_break_refuted",
  "C41_pipeline_dict_reads_back"
 ],
 "pd52": [
  "C42_class_failure_leaves_file_refuted",
  "C42_when_the_class_file_changes"
 ],
 "pj47": [
  "C55_only_if_needed"
 ],
 "md31": [
  "C52_imports_before_caught_errors"
 ],
 "fa42": [
  "C62_found_iff",
  "C63_item",
  "C81_no_object"
 ],
 "fa48": [
  "C62_found_iff",
  "C63_item",
  "C81_no_object"
 ],
 "fa46": [
  "C63_several_modules"
 ],
 "fa47": [
  "C63_item_without_name"
 ],
 "su40": [
  "C70_constructor_with_names"
 ],
 "su41": [
  "C70_class_defaults"
 ],
 "bt30": [
  "C31_persist_by_truth"
 ],
 "bt31": [
  "C31_d_none"
 ],
 "bt33": [
  "C31_reset_batch_is_the_sequence"
 ],
 "il30": [
  "C81_executed"
 ],
 "il32": [
  "C81_module_again"
 ],
 "di31": [
  "C82_config_manager"
 ],
 "se30": [
  "C54_contains"
 ],
 "ex_Batch1": [
  "C31_refused"
 ],
 "ex_Batch2": [
  "C31_refused"
 ],
 "mg9": [
  "C31_reset_batch_is_the_sequence"
 ],
 "ex_Collection1": [
  "C51_nothing_below_reserved_names"
 ],
 "mg10": [
  "C29_full_names"
 ],
 "au_Report_tab0": [
  "C69_plain_run"
 ],
 "ps2_12": [
  "C74_name_words"
 ],
 "ps7_12": [
  "C74_name_words"
 ],
 "pd4_12": [
  "C41_which_dicts_can_be_written"
 ],
 "au_Selector_iv_attrs0": [
  "C54_own_names"
 ],
 "au_Selector_selector_attrs1": [
  "C54_own_names"
 ],
 "au_ConfigTree_file_reserved1": [
  "C53_path_below_an_item"
 ],
 "au_FuncArgs_ast_none0": [
  "C50_source_example"
 ],
 "au_Dir_object_view_attrs0": [
  "C82_view_of_item"
 ],
 "au_Setup_shown0": [
  "C70_constructor"
 ],
 "au_FileStr_class_item0": [
  "C83_given_imports",
  "C83_import_strings_last"
 ],
 "au_Batch_truthy0": [
  "C31_persist_by_truth"
 ],
 "au_ConfigTree_mgr_reserved0": [
  "C82_own_names_of_config_tree"
 ],
 "au_GetAttr_runner_attrs1": [
  "C26_own_names"
 ],
 "au_Collection_reg_reserved1": [
  "C82_own_names_of_collections"
 ],
 "au_Collection_coll_reserved0": [
  "C82_own_names_of_collections"
 ],
 "au_ConfigTree_mgr_reserved1": [
  "C82_own_names_of_config_tree"
 ],
 "au_Dir_object_view_attrs1": [
  "C82_view_of_item"
 ],
 "au_PipeDict_bslash0": [
  "C41_backslash_refuted",
  "C41_line_break_refuted"
 ],
 "au_Plugins_default_name0": [
  "C84_default_removed"
 ],
 "au_Names_import_from0": [
  "C68_imported_submodule"
 ],
 "au_ConfigTree_sec_reserved1": [
  "C82_own_names_of_config_tree"
 ],
 "au_PySource_is_word0": [
  "C43_import_word_needed"
 ],
 "au_PipeDict_print_value0": [
  "C41_strings_become_names"
 ],
 "au_Stdout_newline0": [
  "C34_writes_are_logged_once"
 ],
 "ex_Create1": [
  "C88_failed_first_load_refuted",
  "C88_needs_a_runner"
 ],
 "ex_Create4": [
  "C88_class_without_registrar"
 ],
 "ex_FuncArgs4": [
  "C63_init_without_self"
 ],
 "ex_Names1": [
  "C68_no_variable_name"
 ],
 "ex_Names2": [
  "C68_module_gone"
 ],
 "ex_PipeDict3": [
  "C42_registrar_names"
 ],
 "ex_PipeDict4": [
  "C42_unreadable_file"
 ],
 "ex_PipeDict5": [
  "C42_unreadable_file"
 ],
 "ex_PySource1": [
  "C43_target_needed"
 ],
 "ex_PySource2": [
  "C43_value_needed"
 ],
 "ex_FileStr1": [
  "C43_annotated_attribute_refuted"
 ],
 "ex_Opts1": [
  "C32_folder_not_comparable"
 ],
 "ss10": [
  "C102_edits_change_the_files_only"
 ],
 "ss11": [
  "C102_loads_make_new_objects"
 ],
 "db3": [
  "C57_debugging_function"
 ],
 "ex_PySource3": [
  "C43_only_syntax_errors"
 ],
 "ex_PySource4": [
  "C43_only_syntax_errors"
 ],
 "ex_PySource5": [
  "C43_only_syntax_errors"
 ],
 "ex_PySource6": [
  "C43_only_syntax_errors"
 ],
 "ex_PySource7": [
  "C43_only_syntax_errors"
 ],
 "ex_PySource8": [
  "C43_only_syntax_errors"
 ],
 "ex_Registry3": [
  "C06_unknown_name"
 ],
 "ex_Runner11": [
  "C18_nothing_else_can_be_got"
 ],
 "hk31": [
  "C107_cases_made"
 ],
 "sox1": [
  "C34_plain_writes"
 ],
 "sox8": [
  "C34_replaced_by_an_item"
 ],
 "ss6": [
  "C102_before_loading"
 ],
 "au_Dir_pm_methods0": [
  "C82_manager_lists"
 ],
 "adx1": [
  "C103_written"
 ],
 "whx1": [
  "C106_no_name"
 ],
 "ex_Runner14": [
  "C64_reset_of_a_section"
 ],
 "ex_SectionDeps2": [
  "C85_update_fails"
 ],
 "au_View_call_runner0": [
  "C67_section_taken_for_a_method"
 ],
 "au_Selector_general_name0": [
  "C54_class_dict_called_general"
 ]
}