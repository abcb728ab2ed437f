(** Specification vocabulary for C26. *)
From Verif Require Import Runner_Model GetAttr_Model.
Local Open Scope string_scope.
Local Open Scope list_scope.

(** the attributes and methods of a manager, and those of a runner *)
Definition own_names_of_managers : list string :=
  ["folder"; "pipeline_dict_path"; "specific_class_config_dicts"; "specific_class_names"; "default_config_path"; "name";
   "auto_pdb"; "force_continue"; "_registrars"; "_general_registrar"; "run"; "run_product"; "run_product_gen"; "get";
   "update"; "update_batch"; "refresh"; "reset"; "reload"; "load"; "create"; "config"; "runner"; "get_manager_by_filepath";
   "get_manager_by_section_path_str"; "_run_depending_on_settings"; "_run_with_auto_pdb"; "_run_with_force_continue"; "_update";
   "_create_specific_class_dict_entry"; "_create_pipeline_dict_entry"; "_load_pipeline_config_and_runner"; "_wipe_loaded_modules";
   "_convert_list_or_single_item_view_or_str_to_strs"; "_get_section_path_str_from_section_path_str_or_view"; "_validate_options";
   "_create_project_if_needed"; "_need_to_create_project"; "_registrar_dict"; "_import_tracker"; "_loaded_modules"].
Definition own_names_of_runners : list string :=
  ["repr_cols"; "_config"; "_registrars"; "_general_registrar"; "_manager_name"; "_full_getattr"; "_all_specific_classes";
   "_specific_class_registrar_map"; "_loaded_objects"; "run"; "get"; "update"; "reset"; "refresh"; "_run"; "_run_section";
   "_run_one_func"; "_run_one_class"; "_run_one_specific_class"; "_get_section"; "_get_one_func_with_config";
   "_get_one_obj_with_config"; "_get_config"; "_get_func_or_collection"; "_get_func_and_config"; "_get_class_and_config";
   "_is_specific_class"; "_add_to_config_dependencies_if_necessary"; "_add_full_section_path_str_to_obj"].

(** [x] is handed to [__getattr__] (it is not an attribute of the objects themselves) *)
Definition plain_name (x : string) : Prop := ~ In x own_names_of_managers /\ ~ In x own_names_of_runners.

(** no path beginning with [full] leads anywhere *)
Definition dead (its : items) (e : exn) (full : string) : Prop :=
  e <> KeyError /\ forall t, get_func_or_collection its (full ++ t)%string = Raise e.

(** all names that mean something at the top level *)
Definition top_names (its : items) : list string :=
  "collection" :: reg_reserved ++ coll_reserved ++ map reg_name (i_specific its) ++ map entry_name (coll_entries (i_general its)).
