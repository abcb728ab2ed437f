(** Model of finding the import for an object that is given as an object: imports/logic/load/name.py, and its use in
    PipelineManager.create, main.py:441-447 and 526-527. *)
From Verif Require Export Py_Str Py_Exn Py_Dict SectionPath_Model.
From Coq Require Export String List Bool Arith.
Export ListNotations.
Local Open Scope string_scope.
Local Open Scope list_scope.

(** Objects are identities. A module is the list of the names given by [dir(module)], in this order, with what reading the attribute
    gives; [None] stands for names whose reading raises AttributeError. [sys.modules] is a dict from names to modules. *)
Definition pmod := list (string * option nat).
Definition pmods := dict pmod.

(** imports/logic/load/skipmodules.py *)
Definition name_skip : list string := ["six.moves"].

(** _obj_in_module, name.py:102-114 *)
Fixpoint obj_in_module (o : nat) (m : pmod) : bool :=
  match m with
  | [] => false
  | (_, None) :: r => obj_in_module o r
  | (_, Some v) :: r => if Nat.eqb o v then true else obj_in_module o r
  end.
(** _name_in_module, name.py:116-117 *)
Definition name_in_module (x : string) (m : pmod) : bool := existsb (String.eqb x) (map fst m).

(** get_module_and_name_imported_from, name.py:15-29, with the default search list. All names of the list are in sys.modules. *)
Definition find_module (mods : pmods) (o : nat) : res string :=
  get_module_imported_from name_skip (fun n => match dget n mods with Some m => obj_in_module o m | None => false end) (dkeys mods).
(** is_imported_name, name.py:31-45 *)
Definition is_imported_name (mods : pmods) (x : string) : bool :=
  existsb (fun n => negb (should_skip_module name_skip n) && match dget n mods with Some m => name_in_module x m | None => false end) (dkeys mods).
(** is_imported_obj, name.py:47-61 *)
Definition is_imported_obj (mods : pmods) (o : nat) : bool :=
  existsb (fun n => negb (should_skip_module name_skip n) && match dget n mods with Some m => obj_in_module o m | None => false end) (dkeys mods).
(** _is_imported_from, name.py:63-78 *)
Definition is_imported_from (mods : pmods) (x : string) : list string :=
  filter (fun n => negb (should_skip_module name_skip n) && match dget n mods with Some m => name_in_module x m | None => false end) (dkeys mods).

(** _get_module_keys_and_values_lists, name.py:87-94: here an AttributeError is not caught *)
Fixpoint keys_and_values (m : pmod) : res (list (string * nat)) :=
  match m with
  | [] => Ok []
  | (_, None) :: _ => Raise AttributeError
  | (k, Some v) :: r => match keys_and_values r with Ok l => Ok ((k, v) :: l) | Raise e => Raise e end
  end.
(** _get_key_matching_value, name.py:80-84 *)
Fixpoint key_matching (o : nat) (l : list (string * nat)) : res string :=
  match l with
  | [] => Raise ValueError
  | (k, v) :: r => if Nat.eqb o v then Ok k else key_matching o r
  end.
(** get_imported_obj_variable_name, name.py:10-12 *)
Definition variable_name (o : nat) (m : pmod) : res string :=
  match keys_and_values m with Ok l => key_matching o l | Raise e => Raise e end.

(** The import that create writes, main.py:526-527: the module comes from the search, the name from the object. [oname] is [__name__];
    [None] for objects without it. *)
Definition import_for (oname : nat -> option string) (mods : pmods) (o : nat) : res (string * string) :=
  match find_module mods o with
  | Raise e => Raise e
  | Ok m => match oname o with Some x => Ok (m, x) | None => Raise AttributeError end
  end.

(** What [from m import x] gives when the module has been imported: the attribute, or else the submodule *)
Inductive imported := IObj (o : nat) | IModule (n : string).
Definition import_from (mods : pmods) (mx : string * string) : res imported :=
  let (m, x) := mx in
  match dget m mods with
  | None => Raise (LibExn "ModuleNotFoundError")
  | Some md => match dget x md with
               | Some (Some o) => Ok (IObj o)
               | _ => if dmem (m ++ "." ++ x)%string mods then Ok (IModule (m ++ "." ++ x)%string) else Raise (LibExn "ImportError")
               end
  end.
