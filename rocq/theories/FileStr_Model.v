(** Model of writing config files: pyfileconf/io/file/write/base.py, pyfileconf/io/file/interfaces/config.py,
    pyfileconf/io/file/load/lazy/config.py, pyfileconf/config/logic/load.py, pyfileconf/basemodels/file.py,
    pyfileconf/pipelines/models/{file,collection}.py, pyfileconf/data/models/{file,collection}.py. *)
From Verif Require Export PySource_Model.
Local Open Scope string_scope.
Local Open Scope list_scope.

(* ------------------------------------------------------------------ *)
(** * Splitting the lines of a file *)

(** _is_whitespace_line, config/logic/load.py:63-64 *)
Definition is_whitespace_line (l : string) : bool := all_chars is_space l.

(** _split_lines_into_import_and_assignment, config/logic/load.py:9-43, without the stripping at the end of the import section,
    which is not used afterwards *)
Fixpoint split_lines (lines : list string) : list string * list string :=
  match lines with
  | [] => ([], [])
  | l :: rest =>
      if contains l "import" || is_whitespace_line l
      then let (i, a) := split_lines rest in (l :: i, a)
      else ([], lines)
  end.

(* ------------------------------------------------------------------ *)
(** * Loading the existing file *)

Definition varname (a : asgn) : option string := match a_target a with TgName x => Some x | _ => None end.

(** AssignmentStatementContainer.contains_varname, assignments/models/container.py:17-18. The varname of another target than a
    name is its source with a newline at the end (statement.py:18), which no name equals. *)
Definition contains_varname (al : list asgn) (x : string) : bool :=
  existsb (fun a => match varname a with Some y => String.eqb y x | None => false end) al.

(** AssignmentStatement.to_default_dict_and_annotation_dict, statement.py:86-109, the defaults *)
Definition default_of (a : asgn) : res (dict (option (list tok))) :=
  match a_target a, a_ann a with
  | TgName x, _ => Ok [(x, a_value a)]
  | TgAttr, None => Ok []
  | TgAttr, Some _ => Raise AttributeError
  | TgOther, _ => Raise (LibExn "NotImplementedError")
  end.

(** to_default_dict_and_annotation_dict of the container, assignments/models/container.py:20-28 *)
Fixpoint default_dict (acc : dict (option (list tok))) (al : list asgn) : res (dict (option (list tok))) :=
  match al with
  | [] => Ok acc
  | a :: r => match default_of a with Ok d => default_dict (dupdate acc d) r | Raise e => Raise e end
  end.

(** What a ConfigFileInterface knows after load, io/file/load/lazy/{config.py:11-22, base/impassign.py:11-21} *)
Record loaded : Type := Loaded { l_imports : list imp; l_assigns : list asgn; l_body : list string; l_config : dict (option (list tok)) }.

Definition load_file (t : string) : res loaded :=
  match parse t with
  | Raise e => Raise e
  | Ok st =>
      match imports_of st with
      | Raise e => Raise e
      | Ok is => match assigns_of st with
                 | Raise e => Raise e
                 | Ok al => match default_dict [] al with
                            | Raise e => Raise e
                            | Ok d => Ok (Loaded is al (snd (split_lines (lines_of t))) d)
                            end
                 end
      end
  end.

(** without a file, base/impassign.py:19-21 and base/loader.py:18-22 *)
Definition not_existing : loaded := Loaded [] [] [] [].

(* ------------------------------------------------------------------ *)
(** * Writing *)

(** A value of a config that may get written: the source astor prints for it, and for its annotation. The first line follows
    [x = ], further lines stand for themselves. *)
Record value : Type := Value { v_ann : option string; v_src : list string }.

Definition assign_lines (x : string) (v : value) : list string :=
  let lhs := match v_ann v with None => x | Some a => (x ++ ": " ++ a)%string end in
  match v_src v with
  | [] => [(lhs ++ " = ")%string]
  | s :: rest => (lhs ++ " = " ++ s)%string :: rest
  end.

(** every line with a newline at its end *)
Definition unlines (l : list string) : string := fold_right (fun x s => (x ++ nl ++ s)%string) "" l.

(** [str] of an assignment: made from a value by astor, or the text it was created from (statement.py:28-35) *)
Inductive wassign : Type := WValue (x : string) (v : value) | WText (x : string) (text : string).
Definition wname (w : wassign) : string := match w with WValue x _ | WText x _ => x end.
Definition print_wassign (w : wassign) : string :=
  match w with WValue x v => unlines (assign_lines x v) | WText _ t => t end.
Definition print_wassigns (l : list wassign) : string := fold_right (fun w s => (print_wassign w ++ s)%string) "" l.

(** FileStr._combine_imports_get_new_assignments, write/base.py:57-77. [begin]/[other]: the assignments of the config that
    prefer the beginning, and the rest. Since the names of either are distinct, append_if_missing appends. *)
Definition combine_imports (existing : list imp) (new : list pimp) : list imp :=
  map fst (fold_left add_if_missing new (map (fun i => (i, false)) existing)).
Definition new_assigns (existing : list asgn) (l : list wassign) : list wassign :=
  filter (fun w => negb (contains_varname existing (wname w))) l.

(** FileStr._create_str, write/base.py:27-55 *)
Definition file_str (f : loaded) (imports : list pimp) (begin other : list wassign) : string :=
  let items := [ (print_imports (combine_imports (l_imports f) imports) ++ nl)%string;
                 print_wassigns (new_assigns (l_assigns f) begin);
                 join nl (l_body f);
                 print_wassigns (new_assigns (l_assigns f) other) ] in
  join nl (filter (fun s => negb (String.eqb s "")) items).

(* ------------------------------------------------------------------ *)
(** * Scaffolding a config file *)

(** What a collection knows about an item before it looks at the file: the imports and the defaults (with annotations) taken
    from the signature, and what the config file class adds always. [i_begin]: always_assigns that prefer the beginning, given by
    name and text; [i_end]: the others, which get turned into values (basemodels/file.py:95-104). *)
Record item : Type := Item {
  i_imports : list pimp; i_defaults : dict value;
  i_always_imports : list pimp; i_begin : list (string * string); i_end : dict value }.

Section Scaffold.
(** What astor prints for a value read from the existing file, and its annotation. It is never written. *)
Variable astor : string -> option (list tok) -> value.

(** a name that has no annotation gets that of a string always assigned, even if its value stays, basemodels/file.py:101, 104 *)
Definition annotate (always : dict value) (q : string * value) : string * value :=
  (fst q, match v_ann (snd q), dget (fst q) always with
          | None, Some w => Value (v_ann w) (v_src (snd q))
          | _, _ => snd q
          end).

(** ConfigFileBase._add_always_imports_and_assigns_to_config, basemodels/file.py:75-104, then ConfigFileInterface.save,
    interfaces/config.py:10-19, with ConfigBase.as_imports_and_assignments, basemodels/config.py:109-112: the text written *)
Definition save_text (it : item) (config : dict value) (f : loaded) : string :=
  let imports := fold_left add_if_missing (i_always_imports it) (i_imports it) in
  let config := dupdate (map (annotate (i_end it)) config) (dfilter (fun x => negb (dmem x config)) (i_end it)) in
  file_str f imports (map (fun q => WText (fst q) (snd q)) (i_begin it)) (map (fun q => WValue (fst q) (snd q)) config).

(** PipelineCollection._output_config_file, pipelines/models/collection.py:43-63, and ConfigBase.to_file,
    basemodels/config.py:76-94. The content of the file before, if it exists, gives the content after it. The config is that of
    the signature, overridden by the file's. *)
Definition scaffold (it : item) (content : option string) : res string :=
  match content with
  | None => Ok (save_text it (i_defaults it) not_existing)
  | Some t =>
      match load_file t with
      | Raise e => Raise e
      | Ok f => Ok (save_text it (dupdate (i_defaults it) (map (fun q => (fst q, astor (fst q) (snd q))) (l_config f))) f)
      end
  end.
End Scaffold.

(** SpecificClassCollection._output_config_file, data/models/collection.py:55-104: the config is that of the signature, with the
    item's name for [key_attr]; the imports are those of the file followed by those of the signature. *)
Definition scaffold_class (it : item) (key_attr : string) (name_value : value) (content : option string) : res string :=
  let defaults := dset key_attr name_value (i_defaults it) in
  match content with
  | None => Ok (save_text it defaults not_existing)
  | Some t =>
      match load_file t with
      | Raise e => Raise e
      | Ok f => Ok (save_text (Item (map (fun i => (i, false)) (l_imports f) ++ i_imports it) defaults (i_always_imports it)
                                 (i_begin it) (i_end it)) defaults f)
      end
  end.

(** FunctionConfigFile, pipelines/models/file.py:15-23, and SpecificClassConfigFile, data/models/file.py:16-24: the Selector *)
Definition selector_import : pimp := (ObjImp ["Selector"] "pyfileconf" [], true).
Definition selector_assign : string * string := ("s", "s = Selector()").

(** the item of a pipeline function: the arguments of its signature and the imports they need *)
Definition function_item (imports : list imp) (defaults : dict value) : item :=
  Item (map (fun i => (i, false)) imports) defaults [selector_import] [selector_assign] [].

(** SpecificClassConfigFile with always_import_strs and always_assign_strs, data/models/file.py:26-53; both without preferred
    position. [None]: no strings, which keeps the class's own; an empty list removes it (Always_Model). *)
Definition class_item (imports : list imp) (defaults : dict value) (always_imports : option (list imp)) (always_assigns : option (dict value)) : item :=
  Item (map (fun i => (i, false)) imports) defaults
    (match always_imports with None => [selector_import] | Some l => map (fun i => (i, false)) l end)
    (match always_assigns with None => [selector_assign] | Some _ => [] end)
    (match always_assigns with None => [] | Some d => d end).
