(** Model of the trees of registered items: pyfileconf/basemodels/collection.py,
    pyfileconf/pipelines/models/collection.py, pyfileconf/data/models/collection.py,
    pyfileconf/basemodels/registrar.py, pyfileconf/pipelines/models/registrar.py and the lookups of
    pyfileconf/logic/get.py on them. *)
From Verif Require Export ConfigTree_Model.
Local Open Scope list_scope.

(** A function or class: [f_id] names the object, [f_args] are the keys of
    function_args_as_dict (imports/logic/load/func.py, modelled in FuncArgs_Model) without self. *)
Record callable : Type := Fn { f_id : string; f_args : list string }.

(** What an entry of a collection stands for. The entries of a PipelineCollection are ObjectViews
    (views/object.py): importing them gives a function, a class, something else, or raises. The entries
    of a SpecificClassCollection are instances of its class. *)
Inductive thing : Type :=
| TFunc (f : callable)
| TClass (k : callable)
| TOther
| TBroken (e : exn)
| TInst (k : callable).

(** class Collection, collection.py:40-54: a name and a list of entries. Not modelled here: basepath and
    the import fields (they only matter for writing files). Simplification: an entry has one name, i.e.
    the special handling of DataPipeline(...) calls in views/object.py:79-85 is left out. *)
Inductive coll : Type := Coll (name : string) (entries : list entry)
with entry : Type :=
| EItem (name : string) (t : thing)
| EColl (c : coll).

Definition coll_name (c : coll) := match c with Coll n _ => n end.
Definition coll_entries (c : coll) := match c with Coll _ l => l end.
Definition entry_name (e : entry) : string := match e with EItem n _ => n | EColl c => coll_name c end.

(** [name_dict[x]], pipelines/models/collection.py:12-17, data/models/collection.py:24-34: the last entry
    of a name wins *)
Fixpoint last_entry (x : string) (l : list entry) : option entry :=
  match l with
  | [] => None
  | e :: rest => match last_entry x rest with
                 | Some e' => Some e'
                 | None => if String.eqb x (entry_name e) then Some e else None
                 end
  end.

(** attributes of Collection and Registrar objects, found before [__getattr__] is consulted
    (collection.py, container.py, registrar.py). Simplification: dunder names are left out. *)
Definition coll_reserved : list string :=
  ["name_dict"; "_set_name_map"; "_output_config_files"; "_output_config_file"; "_output_section_config_file";
   "_transform_item"; "_transform_items"; "repr_cols"; "basepath"; "imports"; "name"; "always_import_strs";
   "always_assign_strs"; "key_attr"; "execute_attr"; "klass"; "items"; "_items"; "get"; "append"; "extend";
   "name_for_obj"; "from_dict"; "from_list"; "to_nested_dict"; "insert"; "copy"; "add_if_missing";
   "append_if_missing"; "insert_if_missing"]%string.
Definition reg_reserved : list string :=
  ["basepath"; "name"; "always_import_strs"; "always_assign_strs"; "klass"; "key_attr"; "execute_attr"; "from_dict";
   "scaffold_config"; "scaffold_config_for"; "get"; "set"; "to_nested_dict"; "repr_cols"; "collection_class"]%string.

(** the object a lookup gives *)
Inductive found : Type :=
| FColl (c : coll)
| FThing (t : thing)
| FOther.                                   (* a method, property, attribute of an item, ...; running or getting it raises
                                               ValueError here (for methods of registrars Python looks for a config of that
                                               path first, and raises KeyError) *)

(** [getattr(collection, x)], collection.py:68-72 *)
Definition coll_getattr (c : coll) (x : string) : res found :=
  if mem x coll_reserved then Ok FOther
  else match last_entry x (coll_entries c) with
       | Some (EItem _ t) => Ok (FThing t)
       | Some (EColl c') => Ok (FColl c')
       | None => Raise AttributeError
       end.

(** _get_from_nested_obj_by_section_path, logic/get.py:8-39, from a collection on. Simplification: what
    lies below an item or a method (attributes of user objects) is not modelled, it counts as missing. *)
Fixpoint coll_get (c : coll) (parts : list string) : res found :=
  match parts with
  | [] => Ok (FColl c)
  | x :: rest => match coll_getattr c x with
                 | Raise e => Raise e
                 | Ok (FColl c') => coll_get c' rest
                 | Ok f => match rest with [] => Ok f | _ :: _ => Raise AttributeError end
                 end
  end.

(** Registrar.get, registrar.py:70-74 with 29-30: [registrar.collection] is the collection itself, other
    names not defined on the registrar are looked up in the collection *)
Definition reg_get (c : coll) (parts : list string) : res found :=
  match parts with
  | [] => Ok FOther
  | x :: rest => if String.eqb x "collection" then coll_get c rest
                 else if mem x reg_reserved
                      then match rest with [] => Ok FOther | _ :: _ => Raise AttributeError end
                      else coll_get c parts
  end.

(** PipelineRegistrar.get, pipelines/models/registrar.py:12-20: items are imported *)
Definition general_get (c : coll) (parts : list string) : res found :=
  match reg_get c parts with
  | Ok (FThing (TBroken e)) => Raise e
  | Ok FOther => Raise AttributeError           (* has no [load] *)
  | r => r
  end.

(** [key_attr]/[execute_attr]/[klass] of specific registrars only matter through [TInst]. *)
Record registrar : Type := Reg { reg_name : string; reg_coll : coll }.

(** the items a manager was loaded with: specific registrars and the general one *)
Record items : Type := Items { i_specific : list registrar; i_general : coll }.

(** Runner._get_func_or_collection, runner.py:335-350. The result says whether it came from a specific
    registrar. *)
Definition find_registrar (name : string) (l : list registrar) : option registrar :=
  find (fun r => String.eqb (reg_name r) name) l.

Definition get_func_or_collection (i : items) (path : string) : res (bool * found) :=
  match path_parts path with
  | [] => Raise IndexError
  | x :: rest =>
      match find_registrar x (i_specific i) with
      | Some r => if String.eqb (join sdot rest) "" then Ok (true, FColl (reg_coll r))
                  else match reg_get (reg_coll r) rest with
                       | Ok f => Ok (true, f)
                       | Raise e => Raise e
                       end
      | None => match general_get (i_general i) (x :: rest) with
                | Ok f => Ok (false, f)
                | Raise e => Raise e
                end
      end
  end.
