(** An item of the pipeline dict as the rest of the library sees it: its view and its config file, put together from the models of
    views (ItemLoad_Model), of signatures (FuncArgs_Model) and of config files (FileStr_Model). *)
From Verif Require Export ItemLoad_Model Collection_Model.
From Verif Require Import FuncArgs_Model FileStr_Model.
Local Open Scope string_scope.
Local Open Scope list_scope.

Section Item.
Context {obj : Type}.
Variable import_module : string -> res obj.     (* importlib.import_module *)
Variable getattr : obj -> string -> res obj.
(** what an object is: inspect.isfunction, inspect.isclass, getfullargspec *)
Variable kind : obj -> thing.

(** The entry made from an item, pipelines/models/collection.py:19-33 (_transform_item) with ObjectView.from_ast_and_imports,
    views/object.py:54-63: the import statement is looked for at once, the object is imported when it is needed. The name is that of
    collection.py:12-17 (_set_name_map).
    Simplification: an item without any name is kept under None in Python, and writing its config file (collection.py:53) raises
    TypeError; here that is raised at once. *)
Definition item_view (dict_imports : list imp) (e : expr) : res (string * thing) :=
  match make_view dict_imports e with
  | Raise x => Raise x
  | Ok _ => match fst (collection_key e None) with
            | Raise x => Raise x
            | Ok None => Raise TypeError
            | Ok (Some n) => Ok (n, match load_item import_module getattr dict_imports e with Ok o => kind o | Raise x => TBroken x end)
            end
  end.

Variable set_list : list string -> list string.
Variable is_builtin_type : string -> bool.
(** what astor prints for an expression, in lines, and for an annotation *)
Variable prints : expr -> list string.
Variable shows : expr -> string.
Variable astor : string -> option (list tok) -> value.

(** The values of a config, basemodels/config.py:109-112, with their annotations. A default that is Python's None
    is not reached: reading the names in it raises before (default_names). *)
Definition config_values (ds : dict (option expr)) (anns : dict expr) : dict value :=
  map (fun q => (fst q, Value (match dget (fst q) anns with Some x => Some (shows x) | None => None end)
                              (match snd q with Some x => prints x | None => [] end))) ds.

(** _output_config_file, pipelines/models/collection.py:43-63, with default_config, views/object.py:87-88: the text of the config
    file of an item, given the text before. The file is read before the definition is looked for (collection.py:55-61). *)
Definition item_config (fuel : nat) (file_of : string -> res source) (dict_imports : list imp) (e : expr) (old : option string) : res string :=
  match (match old with Some t => load_file t | None => Ok not_existing end) with
  | Raise x => Raise x
  | Ok _ =>
      match default_config set_list is_builtin_type fuel file_of dict_imports e with
      | Raise x => Raise x
      | Ok (ds, anns, l) => scaffold astor (function_item l (config_values ds anns)) old
      end
  end.
End Item.
