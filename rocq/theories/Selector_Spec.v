(** Statements about the selector. *)
From Verif Require Export Selector_Model.
Local Open Scope string_scope.
Local Open Scope list_scope.

(** [e] is the last entry of its name *)
Definition is_entry (c : coll) (x : string) (e : entry) : Prop :=
  exists l1 l2, coll_entries c = l1 ++ e :: l2 /\ entry_name e = x /\ forall e', In e' l2 -> entry_name e' <> x.

(** a path leads through sections to an entry; names that collections use themselves hide entries *)
Inductive leads : coll -> list string -> entry -> Prop :=
| leads_here c x e : ~ In x coll_reserved -> is_entry c x e -> leads c [x] e
| leads_below c x c' rest e : ~ In x coll_reserved -> is_entry c x (EColl c') -> leads c' rest e -> leads c (x :: rest) e.

(** a path leads to a name that collections use themselves *)
Inductive own_name : coll -> list string -> string -> Prop :=
| own_here c x : In x coll_reserved -> own_name c [x] x
| own_below c x c' rest y : ~ In x coll_reserved -> is_entry c x (EColl c') -> own_name c' rest y -> own_name c (x :: rest) y.

(** a manager that has been loaded from its config dicts *)
Definition mgr_ok (m : smgr) : Prop :=
  exists i, g_items m = Some i /\ map reg_name (i_specific i) = g_names m /\ NoDup (g_names m) /\ ~ In "_general" (g_names m).
Definition mgrs_ok (ms : dict smgr) : Prop := dwf ms /\ forall n m, dget n ms = Some m -> mgr_ok m.

(** the collection and the path in it that a path of manager [m] stands for *)
Inductive in_collection (m : smgr) : bool -> coll -> list string -> list string -> Prop :=
| in_specific i r rest : g_items m = Some i -> In r (i_specific i) -> rest <> [] -> in_collection m false (reg_coll r) rest (reg_name r :: rest)
| in_general i x rest : g_items m = Some i -> ~ In x (g_names m) -> in_collection m true (i_general i) (x :: rest) (x :: rest).

(** What can be called among the names collections use themselves: the methods of collections and their base class Container
    (collection.py, container.py), and in a class dict the class. *)
Definition can_be_called (general : bool) (x : string) : Prop :=
  In x ["get"; "append"; "extend"; "name_for_obj"; "from_dict"; "from_list"; "to_nested_dict"; "_set_name_map"; "_output_config_files";
        "_output_config_file"; "_output_section_config_file"; "_transform_item"; "_transform_items";
        "insert"; "copy"; "add_if_missing"; "append_if_missing"; "insert_if_missing"] \/
  general = false /\ x = "klass".

(** What a path of manager [m] stands for: the manager, a class dict, a section, an item, or a method of a collection. *)
Inductive stands_for (m : smgr) : list string -> bool -> Prop :=
| st_manager : stands_for m [] false
| st_class_dict x : In x (g_names m) -> stands_for m [x] false
| st_section g c parts xs c' : in_collection m g c parts xs -> leads c parts (EColl c') -> stands_for m xs false
| st_item g c parts xs n t : in_collection m g c parts xs -> leads c parts (EItem n t) -> stands_for m xs true
| st_method g c parts xs y : in_collection m g c parts xs -> own_name c parts y -> can_be_called g y -> stands_for m xs true.

(** the names a selector and a view define themselves *)
Definition selector_names : list string :=
  ["_managers"; "_structure"; "_is_selector"; "get_type"; "_get_dir_for_section_path"; "_get_real_item"; "_set_attr_for_item";
   "_get_collection_obj_and_relative_section_path_from_structure"; "_attach_to_pipeline_manager"; "_load_structure"].
Definition view_names : list string :=
  ["section_path_str"; "_section_path_str"; "selector"; "_is_item_view"; "type"; "item"; "_add_to_config_dependencies_if_necessary";
   "_specific_class_collection_map"; "_specific_classes"; "from_section_path_str"].

(** names that can be used in attribute access *)
Definition accessible (x : string) : Prop := has_char dot x = false /\ mem x view_names = false.

(** For examples: manager "p" with a class dict "kls" and general sections, manager "q" with nothing. *)
Definition ex_fun : callable := Fn "f" ["a"].
Definition ex_class : callable := Fn "K" [].
Definition ex_general : coll := Coll "p" [EColl (Coll "sec" [EItem "f" (TFunc ex_fun); EColl (Coll "sub" [EItem "K" (TClass ex_class); EItem "get" (TFunc ex_fun)])]); EItem "f" TOther].
Definition ex_items : items := Items [Reg "kls" (Coll "kls" [EColl (Coll "things" [EItem "one" (TInst ex_class)])])] ex_general.
Definition ex_mgrs : dict smgr := [("p", SMgr ["kls"] (Some ex_items)); ("q", SMgr [] (Some (Items [] (Coll "q" []))))].
Definition ex_sel : structure := match new_selector ex_mgrs with Ok s => s | Raise _ => [] end.
