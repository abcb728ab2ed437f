(** Model of the search for the file of a module without importing it: imports/logic/load/ext_importlib.py, with what it uses of
    Python's import system: [_find_spec] of importlib._bootstrap, BuiltinImporter, PathFinder, FileFinder and _NamespacePath.

    Simplifications: sys.meta_path holds Python's own finders; frozen modules are in sys.modules; entries of sys.path are directories.
    Names of modules come from import statements, whose dots in front are lost when they are read (C47); so a name never starts with a
    dot, [resolve_name] (ext_importlib.py:34) is not called and [package] has no effect. *)
From Verif Require Export SectionPath_Model FuncArgs_Model.
Local Open Scope string_scope.
Local Open Scope list_scope.

(** What FileFinder finds in a directory under a name: nothing, a directory without __init__ file, a module file or a package, the
    latter two with the suffix of the file. A package goes before a module, a module before a mere directory. *)
Inductive there : Type := Nothing | Directory | Module (suffix : string) | Package (suffix : string).

(** A ModuleSpec: the file if it has a location, and submodule_search_locations, which is None unless it is a package. *)
Record spec : Type := Spec { s_file : option string; s_locations : option (list string) }.
(** a package without __init__ file (a namespace package) *)
Definition namespace (s : spec) : bool := match s_file s, s_locations s with None, Some _ => true | _, _ => false end.

(** An entry of sys.modules: None, a module whose __spec__ is None or missing (such as __main__), or a module with its spec.
    Simplification: the __path__ of a module is what its spec says. *)
Inductive minfo : Type := MNone | MNoSpec | MSpec (s : spec).

Definition in_dir (d x : string) : string := (d ++ "/" ++ x)%string.

Section Find.
Variable builtin : string -> bool.                  (* sys.builtin_module_names *)
Variable listing : string -> string -> there.       (* by directory and name *)
Variable sys_path : list string.
Variable mods : dict minfo.                         (* sys.modules *)

(** PathFinder._get_spec: the first module or package counts; directories are collected *)
Fixpoint path_entries (x : string) (dirs portions : list string) : option spec :=
  match dirs with
  | [] => match portions with [] => None | _ => Some (Spec None (Some portions)) end
  | d :: rest => match listing d x with
                 | Nothing => path_entries x rest portions
                 | Directory => path_entries x rest (portions ++ [in_dir d x])
                 | Module suffix => Some (Spec (Some (in_dir d x ++ suffix)%string) None)
                 | Package suffix => Some (Spec (Some (in_dir (in_dir d x) "__init__" ++ suffix)%string) (Some [in_dir d x]))
                 end
  end.

(** The parts of a name, the last one first. *)
Definition full_name (rparts : list string) : string := join "." (rev rparts).

(** _NamespacePath.__init__: it looks at the path of the parent in sys.modules *)
Definition namespace_path (up : list string) (s : spec) : res (option spec) :=
  match up with
  | [] => Ok (Some s)
  | _ => match dget (full_name up) mods with
         | None => Raise KeyError
         | Some (MSpec p) => match s_locations p with Some _ => Ok (Some s) | None => Raise AttributeError end
         | Some _ => Raise AttributeError
         end
  end.

(** _find_spec of importlib._bootstrap: BuiltinImporter compares the full name if there is no path; PathFinder takes sys.path then;
    FileFinder looks for the last part of the name. *)
Definition bootstrap_find (x : string) (up : list string) (path : option (list string)) : res (option spec) :=
  let dirs := match path with None => sys_path | Some l => l end in
  if match path with None => builtin (full_name (x :: up)) | Some _ => false end then Ok (Some (Spec None None))
  else match path_entries x dirs [] with
       | None => Ok None
       | Some s => if namespace s then namespace_path up s else Ok (Some s)
       end.

(** find_spec, ext_importlib.py:14-54. [None.submodule_search_locations] raises AttributeError. *)
Fixpoint find_rev (rparts : list string) : res (option spec) :=
  match rparts with
  | [] => Ok None                                    (* not reached: a name has a part *)
  | x :: up =>
      match dget (full_name rparts) mods with
      | Some MNone => Ok None
      | Some MNoSpec => Raise ValueError
      | Some (MSpec s) => Ok (Some s)
      | None => match up with
                | [] => bootstrap_find x [] None
                | _ => match find_rev up with
                       | Raise e => Raise e
                       | Ok None => Raise AttributeError
                       | Ok (Some p) => bootstrap_find x up (s_locations p)
                       end
                end
      end
  end.
Definition find_spec (parts : list string) : res (option spec) := find_rev (rev parts).

(** get_filepath_from_module_str, ext_importlib.py:7-12 *)
Definition get_filepath (name : string) : res string :=
  match find_spec (split dot name) with
  | Raise e => Raise e
  | Ok None => Raise AttributeError
  | Ok (Some s) => match s_file s with Some f => Ok f | None => Raise ValueError end
  end.

(** What the library reads of a module (args.py:42-52; [file_of] of [extract_args]). [read]: reading and parsing a file. *)
Definition lib_file_of (read : string -> res source) (name : string) : res source :=
  match get_filepath name with Raise e => Raise e | Ok f => read f end.

End Find.
