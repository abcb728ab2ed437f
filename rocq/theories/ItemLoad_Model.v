(** Model of the items of the pipeline dict: pyfileconf/views/object.py, io/file/load/parsers/kwargs.py, the execution of import
    statements (imports/models/statements/{obj,module}.py) and names of items (logic/get.py:42-62).

    The class SimplePropertyCacheMixin is not part of the repository: an attribute that is missing is taken to be set by the function
    given and then read (as in C44). *)
From Verif Require Export FuncArgs_Model.
Local Open Scope string_scope.
Local Open Scope list_scope.

(** A keyword in a call is the node [keyword arg v] among the parts of the call. *)
Definition keyword (arg : string) (v : expr) : expr := Other ("keyword " ++ arg)%string [v].

(** KeywordByNameExtractor, kwargs.py:19-27, for an attribute called [key]: the values in the order in which they are set; what is in
    other keywords is not visited *)
Fixpoint keyword_values (key : string) (e : expr) : list expr :=
  match e with
  | Name _ | Str _ => []
  | Attr e _ => keyword_values key e
  | Sub e i => keyword_values key e ++ keyword_values key i
  | Elts l => flat_map (keyword_values key) l
  | Other label l =>
      if startswith label "keyword "
      then if String.eqb label ("keyword " ++ key)%string then l ++ flat_map (keyword_values key) l else []
      else flat_map (keyword_values key) l
  end.
(** extract_keywords_from_ast_by_name, kwargs.py:30-33, and [[key]]: the last value stays in the dict *)
Definition keyword_value (key : string) (e : expr) : res expr :=
  match rev (keyword_values key e) with [] => Raise KeyError | v :: _ => Ok v end.

(** [.s] of a node. Simplification: constants other than strings have no [s] (since Python 3.8 they have). *)
Definition str_of (e : expr) : res string := match e with Str s => Ok s | _ => Raise AttributeError end.

(* ------------------------------------------------------------------ *)
(** * Names *)

(** What the view keeps: [_name] and, for DataPipeline, [_output_name] *)
Definition names_cache : Type := option (option string * option string).

(** _set_name, views/object.py:79-85 *)
Definition set_name (e : expr) : res (option string * option string) :=
  match view_name e with
  | Raise x => Raise x
  | Ok n =>
      if match n with Some n => String.eqb n "DataPipeline" | None => false end
      then match keyword_value "name" e with
           | Raise x => Raise x
           | Ok v => match str_of v with Raise x => Raise x | Ok s => Ok (n, Some s) end
           end
      else Ok (n, None)
  end.

(** name, views/object.py:43-45 *)
Definition get_name (e : expr) (c : names_cache) : res (option string) * names_cache :=
  match c with
  | Some (n, _) => (Ok n, c)
  | None => match set_name e with
            | Raise x => (Raise x, None)
            | Ok (n, o) => (Ok n, Some (n, o))
            end
  end.
(** output_name, views/object.py:47-52 *)
Definition output_name (e : expr) (c : names_cache) : res (option string) * names_cache :=
  match c with
  | Some (_, Some o) => (Ok (Some o), c)
  | _ => get_name e c
  end.

(** _get_public_name_or_special_name, logic/get.py:42-48, for an ObjectView, which has no [__name__]. hasattr reads the attribute. *)
Definition public_name (accept_output : bool) (e : expr) (c : names_cache) : res (option string) * names_cache :=
  let by_name c := match get_name e c with
                   | (Ok _, c1) => get_name e c1
                   | (Raise AttributeError, c1) => (Raise ValueError, c1)
                   | (Raise x, c1) => (Raise x, c1)
                   end in
  if accept_output
  then match output_name e c with
       | (Ok _, c1) => output_name e c1
       | (Raise AttributeError, c1) => by_name c1
       | (Raise x, c1) => (Raise x, c1)
       end
  else by_name c.

(** the names under which a view is kept in its collection (pipelines/models/collection.py:15), that of its config file (53, 57) and
    that of the path under which it is run with its section (runner.py:158, 270), after each other *)
Definition collection_key (e : expr) (c : names_cache) := public_name true e c.
Definition file_name (e : expr) (c : names_cache) := output_name e c.
Definition run_name (e : expr) (c : names_cache) := public_name false e c.

(* ------------------------------------------------------------------ *)
(** * Objects *)

Section Load.
Context {obj : Type}.
Variable import_module : string -> res obj.     (* importlib.import_module *)
Variable getattr : obj -> string -> res obj.

Fixpoint collect {A B} (f : A -> res B) (l : list A) : res (list B) :=
  match l with
  | [] => Ok []
  | a :: l' => match f a with
               | Raise e => Raise e
               | Ok b => match collect f l' with Raise e => Raise e | Ok bs => Ok (b :: bs) end
               end
  end.

(** execute, obj.py:75-77 and module.py:72-73, without section path *)
Definition execute (i : imp) : res (list obj) :=
  match i with
  | ObjImp os m _ => match import_module m with Raise e => Raise e | Ok M => collect (getattr M) os end
  | ModImp ms _ => collect import_module ms
  end.

(** from_ast_and_imports, views/object.py:54-63 with get_import_for_ast_obj, container.py:88-95 *)
Definition make_view (dict_imports : list imp) (item : expr) : res (option imp) :=
  match view_name item with
  | Raise e => Raise e
  | Ok None => Ok None
  | Ok (Some n) => match get_import_for_name n dict_imports with Raise e => Raise e | Ok i => Ok (Some i) end
  end.

(** load, views/object.py:24-29 with _execute_import_get_obj_from_result, 91-103. [i]: the import statement, [name]: the name of the
    view. Reading the name of a view without import is not reached. *)
Definition load (i : option imp) (name : res (option string)) : res obj :=
  match i with
  | None => Raise AttributeError
  | Some i =>
      match name with
      | Raise e => Raise e
      | Ok n =>
          match execute i with
          | Raise e => Raise e
          | Ok [] => Raise IndexError
          | Ok (o :: _) => match i with
                           | ObjImp _ _ _ => Ok o
                           | ModImp _ _ => match n with Some n => getattr o n | None => Raise TypeError end
                           end
          end
      end
  end.
(** A new view of an item of the pipeline dict and its [load] *)
Definition load_item (dict_imports : list imp) (item : expr) : res obj :=
  match make_view dict_imports item with
  | Raise e => Raise e
  | Ok i => load i (fst (get_name item None))
  end.
End Load.

(** _set_module, views/object.py:65-77, and [module]. Without import statement ValueError is raised after the attribute has been set;
    so reading it again gives None. *)
Definition set_module (i : option imp) : res string * option (option string) :=
  match i with
  | None => (Raise ValueError, Some None)
  | Some (ObjImp _ m _) => (Ok m, Some (Some m))
  | Some (ModImp ms _) => match ms with m :: _ => (Ok m, Some (Some m)) | [] => (Raise IndexError, None) end
  end.
Definition get_module (i : option imp) (c : option (option string)) : res (option string) * option (option string) :=
  match c with
  | Some m => (Ok m, c)
  | None => match set_module i with
            | (Ok m, c1) => (Ok (Some m), c1)
            | (Raise e, c1) => (Raise e, c1)
            end
  end.
