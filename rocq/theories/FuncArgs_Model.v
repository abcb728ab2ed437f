(** Model of how signatures are read, at run time with inspect (pyfileconf/imports/logic/load/{func,klass}.py,
    pyfileconf/data/logic/convert.py, pyfileconf/pipelines/models/config.py) and from the source
    (pyfileconf/io/func/load/{config,args,extractimp}.py, pyfileconf/io/file/load/parsers/{funcdef,extname}.py). *)
From Verif Require Export FileStr_Model.
Local Open Scope string_scope.
Local Open Scope list_scope.

(* ------------------------------------------------------------------ *)
(** * Signatures at run time *)

(** The signature of a function. Parameters that can be given by position only, those that can also be given by name, the
    defaults of the last of both, whether there is [*args], the parameters after it or after [*] with their defaults, whether
    there is [**kwargs]. *)
Record sig (V : Type) : Type := Sig {
  s_posonly : list string; s_args : list string; s_defaults : list V; s_varargs : bool;
  s_kwonly : list (string * option V); s_varkw : bool }.
Arguments Sig {V}. Arguments s_posonly {V}. Arguments s_args {V}. Arguments s_defaults {V}. Arguments s_varargs {V}.
Arguments s_kwonly {V}. Arguments s_varkw {V}.

(** inspect.getfullargspec: parameters given by position only are among the others; None stands for no defaults *)
Record argspec (V : Type) : Type := ArgSpec {
  g_args : list string; g_defaults : option (list V); g_kwonly : list string; g_kwdefaults : option (dict V) }.
Arguments ArgSpec {V}. Arguments g_args {V}. Arguments g_defaults {V}. Arguments g_kwonly {V}. Arguments g_kwdefaults {V}.
Definition or_none {A} (l : list A) : option (list A) := match l with [] => None | _ => Some l end.
Definition getfullargspec {V} (s : sig V) : argspec V :=
  ArgSpec (s_posonly s ++ s_args s) (or_none (s_defaults s)) (map fst (s_kwonly s))
    (or_none (flat_map (fun q => match snd q with Some v => [(fst q, v)] | None => [] end) (s_kwonly s))).

Definition assertion_error : exn := LibExn "AssertionError".

Section Inspect.
Context {V : Type}.
Variable none : V.

(** _get_list_of_arg_section, func.py:42-46 *)
Definition section_list {A} (o : option (list A)) : list A := match o with Some l => l | None => [] end.

(** function_args_as_dict, func.py:5-28. [is_method]: inspect.ismethod. A product of a list with a negative number is empty in
    Python, as with the subtraction used here. *)
Definition function_args_as_dict (is_method : bool) (s : sig V) : res (dict V) :=
  let spec := getfullargspec s in
  match (if is_method then match g_args spec with [] => Raise IndexError | _ :: l => Ok l end else Ok (g_args spec)) with
  | Raise e => Raise e
  | Ok args =>
      let defaults := section_list (g_defaults spec) in
      let all_defaults := repeat none (length args - length defaults) ++ defaults in
      if Nat.eqb (length all_defaults) (length args)
      then Ok (dupdate (dupdate [] (combine args all_defaults))
                 (match g_kwdefaults spec with
                  | None => []
                  | Some kd => map (fun k => (k, match dget k kd with Some v => v | None => none end)) (g_kwonly spec)
                  end))
      else Raise assertion_error
  end.

(** class_function_args_as_dict, klass.py:6-21; [s] is the signature of the function __init__ *)
Definition class_function_args_as_dict (s : sig V) : res (dict V) :=
  match function_args_as_dict false s with
  | Ok d => Ok (dfilter (fun k => negb (String.eqb k "self")) d)
  | Raise e => Raise e
  end.

(** FunctionConfig.for_function, pipelines/models/config.py:24-36. For a class getfullargspec gives the signature of __init__
    with its first parameter. Simplification: classes without __new__ and without a metaclass of their own. *)
Definition kwargs_for (c : dict V) (s : sig V) : res (dict V) :=
  match function_args_as_dict false s with
  | Ok d => Ok (dfilter (fun k => dmem k d) c)
  | Raise e => Raise e
  end.

(** apply_config_to_obj, config/logic/apply.py:14-21, up to the call of __init__ or _pyfileconf_update_ *)
Definition relevant_for_obj (c : dict V) (s : sig V) : res (dict V) :=
  match function_args_as_dict true s with
  | Ok d => Ok (dfilter (fun k => dmem k d) c)
  | Raise e => Raise e
  end.

(** convert_to_empty_obj_if_necessary, data/logic/convert.py:8-20, for a string: the arguments for the class *)
Definition empty_obj_args (key_attr : string) (name : V) (s : sig V) : res (dict V) :=
  match class_function_args_as_dict s with
  | Ok d => Ok (dset key_attr name d)
  | Raise e => Raise e
  end.
End Inspect.

(* ------------------------------------------------------------------ *)
(** * Signatures in the source *)

(** An expression, as far as it matters here: a name, an attribute of an expression, a subscript, a tuple, list or set, a
    string, and any other node with its parts. *)
Inductive expr : Type :=
| Name (n : string)
| Attr (e : expr) (a : string)
| Sub (e i : expr)
| Elts (l : list expr)
| Str (s : string)
| Other (label : string) (l : list expr).
Definition ast_none : expr := Other "None" [].

(** ast.arguments. Every keyword-only parameter comes with its default or None. *)
Record arg : Type := Arg { arg_name : string; arg_ann : option expr }.
Record arguments : Type := Args {
  a_posonly : list arg; a_args : list arg; a_defaults : list expr; a_vararg : bool;
  a_kwonly : list (arg * option expr); a_kwarg : bool }.

(** _strip_ast_quotes_if_necessary, io/func/load/config.py:63-68 *)
Definition strip_quotes (e : expr) : expr := match e with Str s => Name s | _ => e end.

Definition annotations_of (l : list arg) : dict expr :=
  flat_map (fun a => match arg_ann a with Some e => [(arg_name a, strip_quotes e)] | None => [] end) l.

(** function_args_as_arg_and_annotation_dict, io/func/load/config.py:24-46. A missing default of a keyword-only parameter is
    Python's None, that of another parameter is the expression None. *)
Definition args_dicts (a : arguments) : res (dict (option expr) * dict expr) :=
  let all_defaults := repeat ast_none (length (a_args a) - length (a_defaults a)) ++ a_defaults a in
  if Nat.eqb (length all_defaults) (length (a_args a))
  then Ok (dupdate (dupdate [] (combine (map arg_name (a_args a)) (map Some all_defaults)))
             (map (fun q => (arg_name (fst q), snd q)) (a_kwonly a)),
           dupdate (dupdate [] (annotations_of (a_args a))) (annotations_of (map fst (a_kwonly a))))
  else Raise assertion_error.

(** NameExtractor, extname.py:5-11: the names in an expression *)
Fixpoint expr_names (e : expr) : list string :=
  match e with
  | Name n => [n]
  | Attr e _ => expr_names e
  | Sub e i => expr_names e ++ expr_names i
  | Elts l => flat_map expr_names l
  | Str _ => []
  | Other _ l => flat_map expr_names l
  end.

(** [for x in l: names.extend(f(x))] *)
Fixpoint extend_all {A B} (f : A -> res (list B)) (l : list A) : res (list B) :=
  match l with
  | [] => Ok []
  | a :: l' => match f a with
               | Raise e => Raise e
               | Ok bs => match extend_all f l' with Raise e => Raise e | Ok cs => Ok (bs ++ cs) end
               end
  end.

(** _extract_str_names_from_ambiguous_annotation, extractimp.py:77-105. The index of a subscript stands for itself (ast.Index up
    to Python 3.8). *)
Fixpoint annotation_names (e : expr) : res (list string) :=
  match e with
  | Name n => Ok [n]
  | Elts l => (fix go l := match l with
                           | [] => Ok []
                           | x :: l' => match annotation_names x with
                                        | Raise e => Raise e
                                        | Ok bs => match go l' with Raise e => Raise e | Ok cs => Ok (bs ++ cs) end
                                        end
                           end) l
  | Sub e i => match annotation_names e with
               | Raise e => Raise e
               | Ok bs => match annotation_names i with Raise e => Raise e | Ok cs => Ok (bs ++ cs) end
               end
  | Attr (Name n) _ => Ok [n]
  | Attr _ _ => Raise AttributeError
  | Str s => Ok [s]
  | Other _ _ => Raise (LibExn "NotImplementedError")
  end.

Section Extract.
(** the order in which a set gives its elements; [is_builtin_type]: _is_str_matching_builtin_type, logic/inspect.py:35-44 *)
Variable set_list : list string -> list string.
Variable is_builtin_type : string -> bool.

(** _unique_external_names_from_assignment_dict, extractimp.py:58-64, with extract_unique_external_names_from_assign_value,
    extname.py:50-58. Visiting Python's None raises AttributeError. *)
Definition default_names (d : dict (option expr)) : res (list string) :=
  match extend_all (fun q => match snd q with Some e => Ok (set_list (expr_names e)) | None => Raise AttributeError end) d with
  | Ok l => Ok (set_list l)
  | Raise e => Raise e
  end.

(** _unique_external_names_from_annotation_dict, extractimp.py:66-68 *)
Definition external_annotations (d : dict expr) : res (list string) :=
  match extend_all (fun q => annotation_names (snd q)) d with
  | Ok l => Ok (filter (fun n => negb (is_builtin_type n)) (set_list l))
  | Raise e => Raise e
  end.

(** _unique_external_names_from_default_dict_and_annotation_dict, extractimp.py:45-50 *)
Definition external_names (d : dict (option expr)) (ann : dict expr) : res (list string) :=
  match default_names d with
  | Raise e => Raise e
  | Ok l1 => match external_annotations ann with Raise e => Raise e | Ok l2 => Ok (set_list (l1 ++ l2)) end
  end.

(** extract_import_statements_from_function_args_imports_and_assigns, extractimp.py:11-43, without the warning, which is not
    reached if there is something to warn of *)
Definition arg_imports (a : arguments) (imports : list imp) (assigns : list asgn) (module : string) : res (list imp) :=
  match args_dicts a with
  | Raise e => Raise e
  | Ok (d, ann) =>
      match external_names d ann with
      | Raise e => Raise e
      | Ok names =>
          match extend_all (fun n => match get_import_for_name n imports with Ok j => Ok [j] | Raise e => Raise e end) names with
          | Raise e => Raise e
          | Ok found => Ok (map (fun n => ObjImp [n] module []) (filter (contains_varname assigns) names) ++ found)
          end
      end
  end.

(* ------------------------------------------------------------------ *)
(** * Finding the definition *)

(** A statement of a module: the definition of a function (what is inside is not looked at) or of a class; any other statement
    with the statements in it. An async function is such another statement. *)
Inductive stmt : Type := SDef (n : string) (a : arguments) | SClass (n : string) (body : list stmt) | SBlock (body : list stmt).

(** FunctionDefinitionOrClassInitByNameExtractor, funcdef.py:30-77 *)
Fixpoint defs_in (name : string) (s : stmt) : list (string * arguments) :=
  match s with
  | SDef n a => if String.eqb n name then [(n, a)] else []
  | SClass n body => if String.eqb n name then flat_map (defs_in "__init__") body else []
  | SBlock body => flat_map (defs_in name) body
  end.
Definition find_def (name : string) (m : list stmt) : res (option (string * arguments)) :=
  match flat_map (defs_in name) m with
  | [] => Ok None
  | [d] => Ok (Some d)
  | _ => Raise ValueError
  end.

(** What the library reads of the file of a module, ImportAssignmentLazyLoader *)
Record source : Type := Source { src_body : list stmt; src_imports : list imp; src_assigns : list asgn }.

Definition without_first (a : arguments) : res arguments :=
  match a_args a with
  | [] => Raise IndexError
  | _ :: l => Ok (Args (a_posonly a) l (a_defaults a) (a_vararg a) (a_kwonly a) (a_kwarg a))
  end.

(** the renames and the module of a statement that imports one thing; [imp.module] *)
Definition imp_renames (i : imp) : list (string * string) := match i with ModImp _ r | ObjImp _ _ r => r end.
Definition imp_module (i : imp) : res string :=
  match i with
  | ObjImp _ m _ => Ok m
  | ModImp [m] _ => Ok m
  | ModImp _ _ => Raise ValueError
  end.

(** extract_function_args_and_arg_imports_from_import, io/func/load/args.py:35-97. [file_of] gives the file of a module or the
    exception raised while looking for it or reading it. Simplification: import_section_path_str is None, as for all items of
    the collections. Imports that lead in a circle make Python raise RecursionError; so does a lack of fuel here. *)
Fixpoint extract_args (fuel : nat) (file_of : string -> res source) (name : string) (i : imp) : res (arguments * list imp) :=
  match fuel with
  | O => Raise RecursionError
  | S fuel =>
      match imp_module i with
      | Raise e => Raise e
      | Ok m =>
          match file_of m with
          | Raise e => Raise e
          | Ok f =>
              let name := if smem name (map snd (imp_renames i)) then reverse_name (imp_renames i) name else name in
              match find_def name (src_body f) with
              | Raise e => Raise e
              | Ok (Some (n, a)) =>
                  match (if String.eqb n "__init__" then without_first a else Ok a) with
                  | Raise e => Raise e
                  | Ok a => match arg_imports a (src_imports f) (src_assigns f) m with
                            | Raise e => Raise e
                            | Ok l => Ok (a, l)
                            end
                  end
              | Ok None =>
                  match get_import_for_name name (src_imports f) with
                  | Raise e => Raise e
                  | Ok j => extract_args fuel file_of name j
                  end
              end
          end
      end
  end.

(** ObjectView.name, views/object.py:79-85 with extract_external_name_from_assign_value, extname.py:14-47; None if there is no
    name at all. Simplification: not for DataPipeline. *)
Definition view_name (e : expr) : res (option string) :=
  match expr_names e with
  | [] => Ok None
  | [n] => Ok (Some n)
  | _ => Raise ValueError
  end.

(** ObjectView.from_ast_and_imports and default_config, views/object.py:54-63, 87-88, with extract_config,
    io/func/load/config.py:8-20: defaults, annotations and imports of an item of the pipeline dict *)
Definition default_config (fuel : nat) (file_of : string -> res source) (dict_imports : list imp) (item : expr)
  : res (dict (option expr) * dict expr * list imp) :=
  match view_name item with
  | Raise e => Raise e
  | Ok None => Raise (LibExn "NoImportStatementException")
  | Ok (Some n) =>
      match get_import_for_name n dict_imports with
      | Raise e => Raise e
      | Ok i => match extract_args fuel file_of n i with
                | Raise e => Raise e
                | Ok (a, l) => match args_dicts a with
                               | Raise e => Raise e
                               | Ok (d, ann) => Ok (d, ann, l)
                               end
                end
      end
  end.
End Extract.
