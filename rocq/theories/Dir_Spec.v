(** Statements about dir(). *)
From Verif Require Export Dir_Model Selector_Spec GetAttr_Spec.
Local Open Scope string_scope.
Local Open Scope list_scope.

(** the methods of a manager that are listed *)
Definition methods_listed : list string :=
  ["get"; "load"; "refresh"; "reload"; "reset"; "run"; "run_product"; "run_product_gen"; "update"].

(** the attributes of the library's placeholder for functions and classes *)
Definition placeholder_names : list string :=
  ["repr_cols"; "obj_ast"; "import_statement"; "section_path_str"; "load"; "default_config"; "item"; "module"; "name"; "output_name";
   "from_ast_and_imports"; "_set_module"; "_set_name"; "_get_default_config"; "_name"; "_module"; "_item"; "_default_config"; "_output_name"].
(** [x] is the name of an entry of the collection *)
Definition entry_of (c : coll) (x : string) : Prop := exists e, In e (coll_entries c) /\ entry_name e = x.

(** [x] means something to the registrars themselves *)
Definition taken (x : string) : Prop := x = "collection" \/ In x reg_reserved \/ In x coll_reserved.

(** What collections, registrars, config sections and the config manager define themselves, methods and attributes
    (collection.py, container.py, registrar.py, section.py, manager.py). *)
Definition own_names_of_collections : list string :=
  ["name_dict"; "_set_name_map"; "_output_config_files"; "_output_config_file"; "_output_section_config_file";
   "_transform_item"; "_transform_items"; "repr_cols"; "basepath"; "imports"; "name"; "always_import_strs";
   "always_assign_strs"; "key_attr"; "execute_attr"; "klass"; "items"; "_items"; "get"; "append"; "extend";
   "name_for_obj"; "from_dict"; "from_list"; "to_nested_dict"; "insert"; "copy"; "add_if_missing";
   "append_if_missing"; "insert_if_missing"].
Definition own_names_of_registrars : list string :=
  ["basepath"; "name"; "always_import_strs"; "always_assign_strs"; "klass"; "key_attr"; "execute_attr"; "from_dict";
   "scaffold_config"; "scaffold_config_for"; "get"; "set"; "to_nested_dict"; "repr_cols"; "collection_class"].
Definition own_names_of_config_sections : list string :=
  ["config"; "items"; "name"; "_items"; "_config_map"; "append"; "extend"; "config_map"; "_set_config_map";
   "update"; "from_files"; "insert"; "copy"; "add_if_missing"; "append_if_missing"; "insert_if_missing"; "repr_cols"].
Definition own_names_of_the_config_manager : list string :=
  ["section"; "basepath"; "pipeline_manager_name"; "local_config"; "load"; "update"; "refresh";
   "refresh_dependent_configs"; "reset"; "pop"; "get"; "set"; "_get_func_or_section_configs";
   "_set_func_or_section_config"; "_set_func_or_config_with_create"; "_set_func_or_config_no_create";
   "_get_default_func_or_section_config"; "_is_function_or_pipeline_path";
   "_get_project_config_or_local_config_by_section_path"; "_track_pre_update"; "track_post_update";
   "_determine_and_track_if_config_would_be_updated"; "_determine_and_track_if_config_would_be_refreshed";
   "pipeline_manager"; "repr_cols"].
(** a section that does not stand for its own config in place of an entry *)
Definition no_own_entry (s : sec) : Prop := (forall y, dget y (s_attrs s) <> Some NSelf) /\ ~ In NSelf (s_items s).

(** how often a name is in a list *)
Definition times (x : string) (l : list string) : nat := count_occ string_dec l x.

(** For examples: a function [f] in a section, an item and a section at the top level, a class dict *)
Definition d_fn : callable := Fn "f" ["a"].
Definition d_general : coll := Coll "p" [EColl (Coll "sec" [EItem "f" (TFunc d_fn)]); EItem "g" (TFunc d_fn); EItem "klass" (TFunc d_fn); EItem "scaffold_config" (TFunc d_fn); EItem "create" (TFunc d_fn)].
Definition d_items : items := Items [Reg "kls" (Coll "kls" [EItem "one" (TInst (Fn "K" []))])] d_general.
Definition d_mgr : smgr := SMgr ["kls"] (Some d_items).
Definition d_mgrs : dict smgr := [("p", d_mgr)].
Definition d_sel : structure := match new_selector d_mgrs with Ok s => s | Raise _ => [] end.
(** the manager after an item was added and it was loaded again *)
Definition d_mgr2 : smgr := SMgr ["kls"] (Some (Items (i_specific d_items) (Coll "p" [EItem "new" (TFunc d_fn)]))).
Definition d_conf : config := Cfg (Some "f") [("a", VInt 5)] [] None.
