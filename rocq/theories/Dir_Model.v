(** Model of what dir() lists, i.e. of autocompletion: PipelineManager.__dir__ (pyfileconf/main.py:95-123), Registrar.__dir__
    (basemodels/registrar.py:32-42), Collection.__dir__ (basemodels/collection.py:74-75), Selector.__dir__ and
    _get_dir_for_section_path (selector/models/selector.py:67-92), ItemView.__dir__ (selector/models/itemview.py:88-94),
    ConfigManager.__dir__ (config/models/manager.py:32-43), ConfigSection.__dir__ (config/models/section.py:31-32), and
    ConfigBase.__dir__ and __getattr__ (basemodels/config.py:55-62).

    Simplification: dir() sorts the names; the order of the lists here has no meaning. *)
From Verif Require Export GetAttr_Model Selector_Model.
Local Open Scope string_scope.
Local Open Scope list_scope.

(** Collection.__dir__, collection.py:74-75: the keys of name_dict, each once *)
Definition coll_dir (c : coll) : list string := nodup string_dec (map entry_name (coll_entries c)).

(** Registrar.__dir__, registrar.py:32-42 *)
Definition reg_exposed : list string := ["scaffold_config"; "get"; "basepath"; "name"].
Definition reg_dir (c : coll) : list string := reg_exposed ++ filter (fun a => negb (mem a reg_exposed)) (coll_dir c).

(** PipelineManager.__dir__, main.py:95-123. self._registrars is always there (main.py:77), before the first load it is None,
    and iterating it raises TypeError (line 116). The registrars are all SpecificRegistrars, and are listed in addition to the
    names of the class dicts (107, 118). *)
Definition pm_methods : list string := ["run"; "run_product"; "run_product_gen"; "get"; "update"; "load"; "reload"; "refresh"; "reset"].
Definition pm_skip : list string := ["scaffold_config"; "basepath"].
Definition pm_exposed (m : smgr) (i : items) : list string := pm_methods ++ ("name" :: g_names m) ++ map reg_name (i_specific i).
Definition pm_dir (m : smgr) : res (list string) :=
  match g_items m with
  | None => Raise TypeError
  | Some i => let exposed := pm_exposed m i in
              Ok (exposed ++ filter (fun a => negb (mem a (exposed ++ pm_skip))) (reg_dir (i_general i)))
  end.

(** dir() of what an access on the manager gives: for a section that is the runner, which has no __dir__ (the one in
    runner.py:68-86 is commented out), so its own attributes are listed. For items it is the user's object: [None]. *)
Definition attr_dir (a : attr) : option (list string) := match a with ASelf => Some runner_attrs | _ => None end.

(** Selector.__dir__, selector.py:67-74 *)
Definition sel_dir (ms : dict smgr) : list string := "get_type" :: dkeys ms.

(** What dir() is taken of at a path: something with the names listed, an ObjectView (views/object.py), whose own attributes are
    listed, or an object that is not modelled (an instance of a specific class, a method, an attribute of any of these). *)
Inductive shown : Type := Names (l : list string) | OfObjectView | OfObject.

(** attributes of an ObjectView, views/object.py:16-94. Simplification: those of the mixins are left out, those with an underscore
    are only there after the property of that name was used. *)
Definition object_view_attrs : list string :=
  ["repr_cols"; "obj_ast"; "import_statement"; "section_path_str"; "load"; "default_config"; "item"; "module"; "name"; "output_name";
   "from_ast_and_imports"; "_set_module"; "_set_name"; "_get_default_config"; "_name"; "_module"; "_item"; "_default_config"; "_output_name"].
Definition shown_names (s : shown) : option (list string) :=
  match s with Names l => Some l | OfObjectView => Some object_view_attrs | OfObject => None end.

(** dir(_get_from_nested_obj_by_section_path(collection, path)), selector.py:90-92 with logic/get.py:8-39. Names below an item are
    attributes of the item. *)
Fixpoint nested_dir (c : coll) (parts : list string) : res shown :=
  match parts with
  | [] => Ok (Names (coll_dir c))
  | x :: rest => match coll_getattr c x with
                 | Raise e => Raise e
                 | Ok (FColl c') => nested_dir c' rest
                 | Ok (FThing (TInst _)) => Ok OfObject
                 | Ok (FThing _) => Ok match rest with [] => OfObjectView | _ :: _ => OfObject end
                 | Ok FOther => Ok OfObject
                 end
  end.

(** _get_dir_for_section_path, selector.py:81-92. The manager's names are those of the manager now, the others those of the
    structure the selector was made with. *)
Definition dir_for (sel : structure) (ms : dict smgr) (path : string) : res shown :=
  match locate sel ms path with
  | Raise e => Raise e
  | Ok (LRoot None) => match path_parts path with
                       | n :: _ => match dget n ms with
                                   | Some m => match pm_dir m with Ok l => Ok (Names l) | Raise e => Raise e end
                                   | None => Raise KeyError
                                   end
                       | [] => Raise IndexError
                       end
  | Ok (LRoot (Some c)) => Ok (Names (coll_dir c))
  | Ok (LIn _ c parts) => nested_dir c parts
  end.

(** ItemView.__dir__, itemview.py:88-94 *)
Definition iv_dir (sel : structure) (ms : dict smgr) (path : string) : res (option (list string)) :=
  match dir_for sel ms path with
  | Raise e => Raise e
  | Ok s => Ok (option_map (app ["type"; "item"]) (shown_names s))
  end.

(** ConfigSection.__dir__, section.py:31-32 with 51-62: the keys of config_map; entries without a name are left out *)
Definition node_names (l : list node) : list string := flat_map (fun n => match node_name n with Some x => [x] | None => [] end) l.
Definition sec_dir (s : sec) : list string := nodup string_dec (node_names (s_items s)).
(** ConfigManager.__dir__, manager.py:32-43; before load the section is None, which has no config_map *)
Definition cm_exposed : list string := ["load"; "get"; "update"; "basepath"; "pipeline_manager_name"].
Definition cm_dir (root : option sec) : res (list string) :=
  match root with None => Raise AttributeError | Some s => Ok (cm_exposed ++ sec_dir s) end.

(** ConfigBase.__dir__, basemodels/config.py:61-62 *)
Definition conf_dir (c : config) : list string := dkeys (c_vals c).
(** what [config.x] gives: an attribute of the object, or a value *)
Inductive conf_attr : Type := COwn | CVal (v : pyval).
(** ConfigBase.__getattr__, basemodels/config.py:55-59: the entry is looked up but not returned *)
Definition conf_getattr (c : config) (x : string) : res conf_attr :=
  if mem x conf_reserved then Ok COwn
  else if dmem x (c_vals c) then Ok (CVal VNone) else Raise AttributeError.
