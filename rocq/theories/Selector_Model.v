(** Model of Selector (selector/models/selector.py) and of attribute access on ItemViews (selector/models/itemview.py). *)
From Verif Require Export Collection_Model.
Local Open Scope string_scope.
Local Open Scope list_scope.

(** What a selector sees of a manager: specific_class_names (main.py:71), and its registrars, which are None before the first
    load (main.py:77-78). *)
Record smgr : Type := SMgr { g_names : list string; g_items : option items }.

(** self._structure: for every manager its collections by name *)
Definition structure : Type := dict (dict coll).

Definition general_name : string := "_general".

(** _load_structure, selector.py:171-186. [None.collection] raises AttributeError. *)
Definition manager_dict (i : items) : dict coll :=
  fold_left (fun d r => dset (reg_name r) (reg_coll r) d) (i_specific i) [(general_name, i_general i)].
Fixpoint load_structure (ms : list (string * smgr)) (out : structure) : res structure :=
  match ms with
  | [] => Ok out
  | (n, m) :: rest => match g_items m with
                      | None => Raise AttributeError
                      | Some i => load_structure rest (dset n (manager_dict i) out)
                      end
  end.
(** Selector.__init__ (13-16). self._managers is context.active_managers itself, so it follows later changes; self._structure
    does not. *)
Definition new_selector (ms : dict smgr) : res structure := load_structure ms [].

(** What comes after the manager: nothing, or a collection and a path in it. *)
Inductive located : Type := LRoot (c : option coll) | LIn (general : bool) (c : coll) (parts : list string).

(** _get_collection_obj_and_relative_section_path_from_structure, selector.py:94-119 *)
Definition locate (sel : structure) (ms : dict smgr) (path : string) : res located :=
  let in_structure n x := match dget n sel with None => Raise KeyError | Some d => match dget x d with None => Raise KeyError | Some c => Ok c end end in
  match path_parts path with
  | [] => Raise IndexError
  | n :: below =>
      match dget n ms with
      | None => Raise KeyError
      | Some m =>
          match below with
          | [] => Ok (LRoot None)
          | x :: rest =>
              if mem x (g_names m)
              then match rest with
                   | [] => match in_structure n x with Ok c => Ok (LRoot (Some c)) | Raise e => Raise e end
                   | _ => match in_structure n x with Ok c => Ok (LIn false c (path_parts (join sdot rest))) | Raise e => Raise e end
                   end
              else match in_structure n general_name with Ok c => Ok (LIn true c (path_parts (join sdot (x :: rest)))) | Raise e => Raise e end
          end
      end
  end.

(** Attributes of collections that are callable (collection.py, container.py); klass is a class in collections of a specific
    class and None otherwise. *)
Definition coll_methods : list string :=
  ["_set_name_map"; "_output_config_files"; "_output_config_file"; "_output_section_config_file"; "_transform_item";
   "_transform_items"; "get"; "append"; "extend"; "name_for_obj"; "from_dict"; "from_list"; "to_nested_dict"; "insert"; "copy";
   "add_if_missing"; "append_if_missing"; "insert_if_missing"].
Definition coll_callable (general : bool) (x : string) : bool := mem x coll_methods || (negb general && String.eqb x "klass").

(** the argument of [in]: a string, a SectionPath object or something else *)
Inductive item_arg : Type := IStr (s : string) | ISp (sp : section_path) | IOther.

(** Selector.__contains__, selector.py:18-57. The result says whether the path is contained and whether it counts as an item, in
    which case a config file that is being loaded is recorded as depending on it (50-54). Entries of the general collection are
    ObjectViews, those of the others instances of their class. A SectionPath object gets through line 21 but has no [split]. *)
Definition sel_contains (sel : structure) (ms : dict smgr) (it : item_arg) : res (bool * bool) :=
  match it with
  | IOther => Ok (false, false)
  | ISp _ => Raise AttributeError
  | IStr path =>
      match locate sel ms path with
      | Raise e => Raise e
      | Ok (LRoot _) => Ok (true, false)
      | Ok (LIn general c parts) =>
          match coll_get c parts with
          | Raise AttributeError => Ok (false, false)
          | Raise e => Raise e
          | Ok (FColl _) => Ok (true, false)
          | Ok (FThing _) => Ok (true, true)
          | Ok FOther => let b := coll_callable general (last parts "") in Ok (b, b)
          end
      end
  end.

(** get_type, selector.py:121-142 *)
Inductive ty : Type :=
| TyObject (c : option coll)      (* not a type: the manager or the collection itself *)
| TyFunction
| TyClass (k : callable)
| TyCollection
| TyOther.
Definition get_type (sel : structure) (ms : dict smgr) (path : string) : res ty :=
  match locate sel ms path with
  | Raise e => Raise e
  | Ok (LRoot c) => Ok (TyObject c)
  | Ok (LIn _ c parts) =>
      match coll_get c parts with
      | Raise e => Raise e
      | Ok (FColl _) => Ok TyCollection
      | Ok (FThing (TFunc _)) => Ok TyFunction
      | Ok (FThing (TClass k)) => Ok (TyClass k)
      | Ok (FThing (TInst k)) => Ok (TyClass k)
      | Ok (FThing TOther) => Ok TyOther
      | Ok (FThing (TBroken e)) => Raise e
      | Ok FOther => Ok TyOther
      end
  end.

(** Names that ItemView defines itself (itemview.py). Simplification: dunder names are left out. *)
Definition iv_attrs : list string :=
  ["section_path_str"; "_section_path_str"; "selector"; "_is_item_view"; "type"; "item"; "_add_to_config_dependencies_if_necessary";
   "_specific_class_collection_map"; "_specific_classes"; "from_section_path_str"].
(** Names that Selector defines itself (selector.py). *)
Definition selector_attrs : list string :=
  ["_managers"; "_structure"; "_is_selector"; "get_type"; "_get_dir_for_section_path"; "_get_real_item"; "_set_attr_for_item";
   "_get_collection_obj_and_relative_section_path_from_structure"; "_attach_to_pipeline_manager"; "_load_structure"].

(** What an attribute access gives: a view of a path, something defined on the object, or an attribute of the real item at the
    path (or an error found in looking it up, itemview.py:39-72), which is not modelled here. *)
Inductive iv_result : Type := View (path : string) | OwnAttr | OfRealItem (path : string) (x : string).

(** Selector.__getattr__ (selector.py:59-61): no check at all *)
Definition selector_getattr (x : string) : iv_result := if mem x selector_attrs then OwnAttr else View x.
(** ItemView.__getattr__ (itemview.py:32-72) *)
Definition iv_getattr (sel : structure) (ms : dict smgr) (path x : string) : res iv_result :=
  if mem x iv_attrs then Ok OwnAttr
  else match sel_contains sel ms (IStr (path ++ "." ++ x)%string) with
       | Raise e => Raise e
       | Ok (true, _) => Ok (View (path ++ "." ++ x)%string)
       | Ok (false, _) => Ok (OfRealItem path x)
       end.

(** [v.x1.x2...]; it ends where something else than a view comes back and more names follow: [None] *)
Fixpoint iv_chain (sel : structure) (ms : dict smgr) (r : iv_result) (xs : list string) : res (option iv_result) :=
  match xs with
  | [] => Ok (Some r)
  | x :: rest => match r with
                 | View p => match iv_getattr sel ms p x with Raise e => Raise e | Ok r' => iv_chain sel ms r' rest end
                 | _ => Ok None
                 end
  end.
Definition selector_chain (sel : structure) (ms : dict smgr) (xs : list string) : res (option iv_result) :=
  match xs with [] => Ok None | x :: rest => iv_chain sel ms (selector_getattr x) rest end.

(** ItemView.from_section_path_str, itemview.py:218-234; a new Selector is made *)
Definition iv_from_path (ms : dict smgr) (path : string) : res (option iv_result) :=
  match new_selector ms with
  | Raise e => Raise e
  | Ok sel => if Nat.ltb (length (path_parts path)) 2 then Raise ValueError else selector_chain sel ms (path_parts path)
  end.

(** ItemView.__eq__ and __hash__, itemview.py:160-173. Other objects may have an attribute section_path_str, too: [other] is its value. *)
Definition iv_eq (p : string) (other : option string) : bool := match other with Some q => String.eqb p q | None => false end.
Definition iv_hash {H : Type} (hash : string -> H) (p : string) : H := hash p.
