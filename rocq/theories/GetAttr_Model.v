(** Model of attribute access on a manager: PipelineManager.__getattr__ (pyfileconf/main.py:85-93) and
    Runner.__getattr__ (pyfileconf/runner/models/runner.py:46-65). *)
From Verif Require Export Runner_Model.
Local Open Scope list_scope.
Local Open Scope monad_scope.

(** The state is the runner's state and its attribute [_full_getattr] (runner.py:41). *)
Record gs : Type := GS { g_full : string; g_rs : rs }.

(** What an access gives: the runner itself (for a section), or what Runner.get returns, or an attribute that is defined on
    the object, for which [__getattr__] is not called. *)
Inductive attr : Type := ASelf | AGot (g : got) | ADefined.

(** Names defined on the objects themselves: the methods and attributes of PipelineManager (main.py:54-634) and of Runner
    (runner.py:31-414). Simplification: dunder names are left out. *)
Definition pm_attrs : list string :=
  ["folder"; "pipeline_dict_path"; "specific_class_config_dicts"; "specific_class_names"; "default_config_path"; "name";
   "auto_pdb"; "force_continue"; "_registrars"; "_general_registrar"; "run"; "run_product"; "run_product_gen"; "get";
   "update"; "update_batch"; "refresh"; "reset"; "reload"; "load"; "create"; "config"; "runner"; "get_manager_by_filepath";
   "get_manager_by_section_path_str"; "_run_depending_on_settings"; "_run_with_auto_pdb"; "_run_with_force_continue"; "_update";
   "_create_specific_class_dict_entry"; "_create_pipeline_dict_entry"; "_load_pipeline_config_and_runner"; "_wipe_loaded_modules";
   "_convert_list_or_single_item_view_or_str_to_strs"; "_get_section_path_str_from_section_path_str_or_view"; "_validate_options";
   "_create_project_if_needed"; "_need_to_create_project"; "_registrar_dict"; "_import_tracker"; "_loaded_modules"]%string.
Definition runner_attrs : list string :=
  ["repr_cols"; "_config"; "_registrars"; "_general_registrar"; "_manager_name"; "_full_getattr"; "_all_specific_classes";
   "_specific_class_registrar_map"; "_loaded_objects"; "run"; "get"; "update"; "reset"; "refresh"; "_run"; "_run_section";
   "_run_one_func"; "_run_one_class"; "_run_one_specific_class"; "_get_section"; "_get_one_func_with_config";
   "_get_one_obj_with_config"; "_get_config"; "_get_func_or_collection"; "_get_func_and_config"; "_get_class_and_config";
   "_is_specific_class"; "_add_to_config_dependencies_if_necessary"; "_add_full_section_path_str_to_obj"]%string.

Section GetAttr.
Variable its : items.
Variable u : user.

(** Runner.__getattr__, runner.py:46-65. Only KeyError resets the collected path. *)
Definition runner_getattr (item : string) (s : gs) : gs * res attr :=
  let full := (g_full s ++ item)%string in
  match get_func_or_collection its full with
  | Raise KeyError => (GS "" (g_rs s), Raise KeyError)
  | Raise e => (GS full (g_rs s), Raise e)
  | Ok (_, FColl _) => (GS (full ++ ".")%string (g_rs s), Ok ASelf)
  | Ok _ => let '(r, o) := runner_get its u full (g_rs s) in
            (GS "" r, match o with Ok g => Ok (AGot g) | Raise e => Raise e end)
  end.

(** one access [obj.x], on the manager or on the runner it returned for a section *)
Inductive access : Type := OnManager (x : string) | OnRunner (x : string).

Definition do_access (a : access) (s : gs) : gs * res attr :=
  match a with
  | OnManager x => if mem x pm_attrs then (s, Ok ADefined)
                   else if mem x runner_attrs then (s, Ok ADefined) else runner_getattr x s
  | OnRunner x => if mem x runner_attrs then (s, Ok ADefined) else runner_getattr x s
  end.

(** any number of accesses; the outcomes are kept *)
Fixpoint accesses (l : list access) (s : gs) : gs * list (res attr) :=
  match l with
  | [] => (s, [])
  | a :: rest => let '(s1, o) := do_access a s in
                 let '(s2, os) := accesses rest s1 in (s2, o :: os)
  end.

(** [pm.x.y...z]: the first access is on the manager, the others on what came back; it ends at the first one that raises. An
    access on a loaded object (or defined attribute) is the user's business and not modelled: [None]. *)
Fixpoint chain (first : bool) (names : list string) (s : gs) : gs * option (res attr) :=
  match names with
  | [] => (s, None)
  | x :: rest =>
      let '(s1, o) := do_access (if first then OnManager x else OnRunner x) s in
      match rest with
      | [] => (s1, Some o)
      | _ :: _ => match o with
                  | Raise e => (s1, Some (Raise e))
                  | Ok ASelf => chain false rest s1
                  | Ok _ => (s1, None)
                  end
      end
  end.

End GetAttr.
