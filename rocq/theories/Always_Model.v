(** Model of what config files always get: the strings always_import_strs and always_assign_strs of a class dict
    (pyfileconf/data/models/file.py:26-53 with parsers/imp.py:36-67, parsers/assign.py:33-45, assignments/models/statement.py:133-143,
    imports/models/statements/obj.py:40-51), the cleanup_kwargs of a DataPipeline (pyfileconf/pipelines/models/file.py:26-49), and the
    path a config is saved to (pyfileconf/basemodels/config.py:76-94). *)
From Verif Require Export FileStr_Model.
Local Open Scope string_scope.
Local Open Scope list_scope.

(* ------------------------------------------------------------------ *)
(** * Strings always imported and assigned *)

(** ObjectImportStatement.from_str, and ModuleImportStatement.from_str if the statement is of the other kind,
    data/models/file.py:40-43: the one import statement in the string, at any depth *)
Definition import_from_str (s : string) : res imp :=
  match parse s with
  | Raise e => Raise e
  | Ok st => match imports_of st with
             | Raise e => Raise e
             | Ok [] => Raise (LibExn "CouldNotExtractObjectImportFromAstException")
             | Ok [i] => Ok i
             | Ok (_ :: _ :: _) => Raise ValueError
             end
  end.

(** AssignmentStatement.from_str, statement.py:133-143: the one assignment in the string, at any depth *)
Definition assign_from_str (s : string) : res asgn :=
  match parse s with
  | Raise e => Raise e
  | Ok st => match assigns_of st with
             | Raise e => Raise e
             | Ok [] => Raise (LibExn "CouldNotExtractAssignmentFromAstException")
             | Ok [a] => Ok a
             | Ok (_ :: _ :: _) => Raise ValueError
             end
  end.

(** what the user may pass for the strings *)
Inductive strs : Type := NoStrs | ListOf (l : list string) | TupleOf (l : list string).

(** SpecificClassConfigFile.__init__, data/models/file.py:36-47: an empty list removes the class's own, another empty sequence does
    not equal it *)
Definition always_imports (s : strs) : res (list pimp) :=
  match s with
  | NoStrs | TupleOf [] => Ok [selector_import]
  | ListOf l | TupleOf l => match res_list import_from_str l with
                            | Ok is => Ok (map (fun i => (i, false)) is)
                            | Raise e => Raise e
                            end
  end.
(** data/models/file.py:49-53. [inl]: the class's own *)
Definition always_assigns (s : strs) : res (unit + list asgn) :=
  match s with
  | NoStrs | TupleOf [] => Ok (inl tt)
  | ListOf l | TupleOf l => match res_list assign_from_str l with Ok al => Ok (inr al) | Raise e => Raise e end
  end.

Section Astor.
(** what astor prints for the value and for the annotation of an assignment. Simplification: strings without value ([x: int]) are
    printed like others. *)
Variable print_value : option (list tok) -> list string.
Variable print_ann : list tok -> string.

(** The assignments from strings prefer no position, so they are turned into defaults and annotations, basemodels/file.py:95-99
    with assignments/models/container.py:20-28: later values and annotations of a name replace earlier ones, separately. *)
Definition add_assign (d : dict value) (a : asgn) : dict value :=
  match a_target a with
  | TgName x => dset x (Value (match a_ann a with
                               | Some t => Some (print_ann t)
                               | None => match dget x d with Some v => v_ann v | None => None end
                               end) (print_value (a_value a))) d
  | _ => d
  end.
Fixpoint end_values (d : dict value) (al : list asgn) : res (dict value) :=
  match al with
  | [] => Ok d
  | a :: r => match default_of a with Raise e => Raise e | Ok _ => end_values (add_assign d a) r end
  end.

(** the item of a class with these strings *)
Definition item_of_strs (imports : list imp) (defaults : dict value) (si sa : strs) : res item :=
  match always_imports si with
  | Raise e => Raise e
  | Ok pis =>
      match always_assigns sa with
      | Raise e => Raise e
      | Ok (inl _) => Ok (Item (map (fun i => (i, false)) imports) defaults pis [selector_assign] [])
      | Ok (inr al) => match end_values [] al with
                       | Raise e => Raise e
                       | Ok d => Ok (Item (map (fun i => (i, false)) imports) defaults pis [] d)
                       end
      end
  end.

(** SpecificClassCollection._output_config_file, data/models/collection.py:55-104, with strings. The existing file is read first. *)
Definition scaffold_strs (imports : list imp) (defaults : dict value) (si sa : strs) (key_attr : string) (name_value : value) (content : option string) : res string :=
  match match content with Some t => match load_file t with Raise e => Some e | Ok _ => None end | None => None end with
  | Some e => Raise e
  | None => match item_of_strs imports defaults si sa with
            | Raise e => Raise e
            | Ok it => scaffold_class it key_attr name_value content
            end
  end.
End Astor.

(* ------------------------------------------------------------------ *)
(** * DataPipeline *)

Definition cleanup : string := "cleanup_kwargs".
(** the source of the value is [None], pipelines/models/file.py:49 *)
Definition is_none (v : value) : bool := match v_src v with [l] => String.eqb l "None" | _ => false end.
(** FunctionConfigFile.save, pipelines/models/file.py:36-49, and always_assign_with_names_dict (26-30) with basemodels/file.py:82-104:
    a cleanup_kwargs that is None goes to the end as [dict()], with its annotation; a missing one is added. Simplification: a file
    that declares the name without value is not considered. *)
Definition with_cleanup (name : string) (config : dict value) : dict value :=
  if String.eqb name "DataPipeline"
  then match dget cleanup config with
       | Some v => if is_none v then ddel cleanup config ++ [(cleanup, Value (v_ann v) ["dict()"])] else config
       | None => config ++ [(cleanup, Value None ["dict()"])]
       end
  else config.

(** PipelineCollection._output_config_file, pipelines/models/collection.py:43-63, of an item whose object is called [name]
    (views/object.py:93-94) *)
Definition scaffold_named (astor : string -> option (list tok) -> value) (name : string) (it : item) (content : option string) : res string :=
  match content with
  | None => Ok (save_text it (with_cleanup name (i_defaults it)) not_existing)
  | Some t =>
      match load_file t with
      | Raise e => Raise e
      | Ok f => Ok (save_text it (with_cleanup name (dupdate (i_defaults it) (map (fun q => (fst q, astor (fst q) (snd q))) (l_config f)))) f)
      end
  end.

(* ------------------------------------------------------------------ *)
(** * Where a config is saved *)

(** A config file object: the path its interface reads and writes, and the content it has read, if any (file.py:33-51,
    lazy/base/loader.py:18-35). Setting [filepath] on the object does not change the interface. *)
Record cfile : Type := CFile { cf_path : string; cf_known : option (option string) }.

(** ConfigBase.to_file, basemodels/config.py:76-94: [save] gives the text for what the interface has read *)
Definition to_file (save : option string -> res string) (file : option cfile) (path : string) (disk : dict string) : res (dict string) :=
  let f := match file with None => CFile path None | Some f => f end in
  let known := match cf_known f with
               | Some k => if dmem path disk then dget (cf_path f) disk else k
               | None => dget (cf_path f) disk
               end in
  match save known with
  | Raise e => Raise e
  | Ok t => Ok (dset (cf_path f) t disk)
  end.
