(** Statements about item views over the life of the managers. *)
From Verif Require Export Phase_Model View_Spec.
From Verif Require Setup_Model.
Local Open Scope string_scope.
Local Open Scope list_scope.

(** A manager whose last load succeeded, and the world of View_Model seen as one of these. *)
Definition after_load (v : vmgr) : pmgr :=
  PMgr (map reg_name (i_specific (v_items v))) (Some (v_items v, v_klasses v)) (Some (v_items v, v_gs v)) ["_import_tracker"; "config"; "_loaded_modules"].
Definition after_loads (w : world) : pworld := map (fun nv => (fst nv, after_load (snd nv))) w.

(** A manager of which a load has succeeded at some time: what loading sets is there. *)
Definition has_loaded (m : pmgr) : Prop :=
  g_runner m <> None /\ In "_import_tracker" (g_set m) /\ In "config" (g_set m) /\ In "_loaded_modules" (g_set m).

(** The names a manager has from the beginning: those of its methods and of the attributes the constructor sets. *)
Definition early_names : list string :=
  ["folder"; "pipeline_dict_path"; "specific_class_config_dicts"; "specific_class_names"; "default_config_path"; "name";
   "auto_pdb"; "force_continue"; "_registrars"; "_general_registrar"; "run"; "run_product"; "run_product_gen"; "get";
   "update"; "update_batch"; "refresh"; "reset"; "reload"; "load"; "create"; "get_manager_by_filepath";
   "get_manager_by_section_path_str"; "_run_depending_on_settings"; "_run_with_auto_pdb"; "_run_with_force_continue"; "_update";
   "_create_specific_class_dict_entry"; "_create_pipeline_dict_entry"; "_load_pipeline_config_and_runner"; "_wipe_loaded_modules";
   "_convert_list_or_single_item_view_or_str_to_strs"; "_get_section_path_str_from_section_path_str_or_view"; "_validate_options";
   "_create_project_if_needed"; "_need_to_create_project"; "_registrar_dict"].
(** the names of a manager that has no runner *)
Definition own_of_new (m : pmgr) (x : string) : Prop :=
  In x early_names \/ (x = "config" \/ x = "_import_tracker" \/ x = "_loaded_modules") /\ In x (g_set m).

(** the name that is looked up in the manager; a view of the manager itself looks up the empty name *)
Definition first_name (below : list string) : string := match below with [] => "" | x :: _ => x end.

(** the state of loading as in Setup_Model *)
Definition shows (p : Setup_Model.pm) (m : pmgr) : Prop :=
  Setup_Model.p_items p = option_map fst (g_regs m) /\ Setup_Model.p_runner p = option_map (fun r => (fst r, g_rs (snd r))) (g_runner m).

(** For examples: the world of View_Spec, in which manager "p" is replaced by a new one, or has failed to load again after a function "qq"
    had been added. *)
Definition px_sel : vsel := match p_selector (after_loads vx_w) with Ok s => s | Raise _ => VSel [] [] end.
Definition px_new : pworld := dset "p" (PMgr ["kls"; "klt"] None None []) (after_loads vx_w).
Definition px_other : pworld := dset "p" (PMgr ["kls"; "klt"; "a"] None None []) (after_loads vx_w).
Definition px_items : items :=
  Items (i_specific vx_items) (Coll "p" [EColl (Coll "a" [EColl (Coll "b" [EItem "f" (TFunc Runner_Example.ex_f)]); EItem "qq" (TFunc (Fn "qq" []))])]).
Definition px_failed : pworld :=
  dset "p" (PMgr ["kls"; "klt"] (Some (px_items, v_klasses vx_p)) (Some (v_items vx_p, v_gs vx_p)) ["_import_tracker"; "config"; "_loaded_modules"]) (after_loads vx_w).
Definition px_failed_sel : vsel := match p_selector px_failed with Ok s => s | Raise _ => VSel [] [] end.
