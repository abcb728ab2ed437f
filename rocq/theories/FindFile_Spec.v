(** Statements about the search for the file of a module: what Python's import does. *)
From Verif Require Export FindFile_Model FuncArgs_Spec.
Local Open Scope string_scope.
Local Open Scope list_scope.

Section Spec.
Variable builtin : string -> bool.
Variable listing : string -> string -> there.
Variable sys_path : list string.
Variable mods : dict minfo.

Definition solid (d x : string) : Prop := match listing d x with Module _ | Package _ => True | _ => False end.

(** what is found under a name in the directories of a path: the first module or package in them, or else all directories of this
    name together *)
Inductive first_found (x : string) (dirs : list string) : spec -> Prop :=
| found_module pre d post suffix : dirs = pre ++ d :: post -> (forall d', In d' pre -> ~ solid d' x) -> listing d x = Module suffix ->
    first_found x dirs (Spec (Some (d ++ "/" ++ x ++ suffix)%string) None)
| found_package pre d post suffix : dirs = pre ++ d :: post -> (forall d', In d' pre -> ~ solid d' x) -> listing d x = Package suffix ->
    first_found x dirs (Spec (Some (d ++ "/" ++ x ++ "/__init__" ++ suffix)%string) (Some [(d ++ "/" ++ x)%string]))
| found_directories : (forall d, In d dirs -> ~ solid d x) -> (exists d, In d dirs /\ listing d x = Directory) ->
    first_found x dirs (Spec None (Some (map (fun d => d ++ "/" ++ x)%string
      (filter (fun d => match listing d x with Directory => true | _ => false end) dirs)))).

(** [import a.b.c]: the module has been imported before, or it is builtin or found in sys.path, or found in the path of the
    package above it, which is imported first. The modules are taken not to change sys.modules, sys.path or the path of a package when
    they are executed. *)
Inductive importable : list string -> spec -> Prop :=
| imp_loaded parts s : parts <> [] -> dget (join "." parts) mods = Some (MSpec s) -> importable parts s
| imp_builtin x : dget x mods = None -> builtin x = true -> importable [x] (Spec None None)
| imp_top x s : dget x mods = None -> builtin x = false -> first_found x sys_path s -> importable [x] s
| imp_below up x p dirs s : up <> [] -> dget (join "." (up ++ [x])) mods = None -> importable up p -> s_locations p = Some dirs ->
    first_found x dirs s -> importable (up ++ [x]) s.

Definition unloaded (parts : list string) : Prop := dget (join "." parts) mods = None.
(** on the way to the module there is a package without __init__ file in a package, and neither has been imported (nor anything
    further down) *)
Definition nested_namespace (parts : list string) : Prop := exists up x rest s,
  parts = up ++ x :: rest /\ up <> [] /\ unloaded up /\ importable (up ++ [x]) s /\ namespace s = true /\
  forall mid post, rest = mid ++ post -> unloaded (up ++ x :: mid).

(** a module that is no package is on the way *)
Definition through_module (parts : list string) : Prop := exists up x rest p,
  parts = up ++ x :: rest /\ importable up p /\ s_locations p = None /\ unloaded (up ++ [x]).

(** Python's reading of a module *)
Definition py_source (read : string -> res source) (name : string) (src : source) : Prop := exists s f,
  importable (split dot name) s /\ s_file s = Some f /\ read f = Ok src /\ ~ nested_namespace (split "." name).
End Spec.

(* ------------------------------------------------------------------ *)
(** * An example *)

(** /app has the package pkg with the module inner, the module tool, the module flat and the directory data, in which there is
    the directory deep with the module low, and the module top; sys is builtin, __main__ has no spec *)
Definition ff_listing (d x : string) : there :=
  if String.eqb d "/app" then
    if String.eqb x "pkg" then Package ".py" else if String.eqb x "tool" then Module ".py" else if String.eqb x "flat" then Module ".py"
    else if String.eqb x "data" then Directory else Nothing
  else if String.eqb d "/app/pkg" then if String.eqb x "inner" then Module ".py" else if String.eqb x "files" then Directory else Nothing
  else if String.eqb d "/app/data" then if String.eqb x "deep" then Directory else if String.eqb x "top" then Module ".py" else Nothing
  else if String.eqb d "/app/data/deep" then if String.eqb x "low" then Module ".py" else Nothing
  else if String.eqb d "/app/pkg/files" then if String.eqb x "low" then Module ".py" else Nothing
  else if String.eqb d "/lib" then if String.eqb x "tool" then Module ".py" else Nothing
  else Nothing.
Definition ff_builtin (x : string) : bool := String.eqb x "sys".
Definition ff_path : list string := ["/app"; "/lib"].
Definition ff_mods : dict minfo := [("__main__", MNoSpec)].
Definition ff_get := get_filepath ff_builtin ff_listing ff_path.

(** what is in the files of the example *)
Definition ff_source (defs : list stmt) (imports : list imp) : source := Source defs imports [].
Definition ff_read (f : string) : res source :=
  if String.eqb f "/app/pkg/__init__.py" then Ok (ff_source [] [ObjImp ["run"] "pkg.inner" [("run", "go")]])
  else if String.eqb f "/app/pkg/inner.py" then Ok (ff_source [SDef "run" (one_arg (a_ "x"))] [])
  else if String.eqb f "/app/tool.py" then Ok (ff_source [SDef "run" (one_arg (a_ "other"))] [])
  else Raise SyntaxError.
Definition ff_lib : string -> res source := lib_file_of ff_builtin ff_listing ff_path ff_mods ff_read.
