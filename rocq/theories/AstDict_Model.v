(** Model of dicts in the source: io/file/load/parsers/fromdict.py, io/file/load/parsers/kwargs.py and the dict calls made by
    data/models/astitems.py. *)
From Verif Require Export Py_Dict Py_Exn.
Local Open Scope string_scope.
Local Open Scope list_scope.

(** A node of a syntax tree, as far as it matters here: a dict display, a call, any other node with its parts. The keys of a display
    are strings, other nodes, or missing ([**d]). A keyword without name is [**d].
    Simplification: constants other than strings have no attribute [s] (as in [ItemLoad]). *)
Inductive node : Type :=
| NDict (items : list (key * node))
| NCall (func : node) (args : list node) (keywords : list (option string * node))
| NNode (label : string) (parts : list node)
with key : Type := KStr (s : string) | KNode (n : node) | KSpread.

(** the key under which a keyword is kept; None is written as [**], which is no name *)
Definition kw_key (k : option string) : string := match k with Some s => s | None => "**" end.

(** KeywordExtractor, kwargs.py:3-10: every keyword at any depth, in the order of the visit: a keyword before those in its value, the
    keys of a display before its values *)
Fixpoint keywords_in (n : node) : list (string * node) :=
  match n with
  | NDict items =>
      flat_map (fun q => match fst q with KNode k => keywords_in k | _ => [] end) items ++ flat_map (fun q => keywords_in (snd q)) items
  | NCall f args kws =>
      keywords_in f ++ flat_map keywords_in args ++ flat_map (fun q => (kw_key (fst q), snd q) :: keywords_in (snd q)) kws
  | NNode _ l => flat_map keywords_in l
  end.
(** extract_keywords_from_ast, kwargs.py:13-16 *)
Definition extract_keywords (n : node) : dict node := fold_left (fun d q => dset (fst q) (snd q) d) (keywords_in n) [].

(** KeywordByNameExtractor, kwargs.py:19-27: keywords with another name are not visited *)
Fixpoint keywords_called (name : string) (n : node) : list node :=
  match n with
  | NDict items =>
      flat_map (fun q => match fst q with KNode k => keywords_called name k | _ => [] end) items ++ flat_map (fun q => keywords_called name (snd q)) items
  | NCall f args kws =>
      keywords_called name f ++ flat_map (keywords_called name) args ++
      flat_map (fun q => match fst q with
                         | Some a => if String.eqb a name then snd q :: keywords_called name (snd q) else []
                         | None => []
                         end) kws
  | NNode _ l => flat_map (keywords_called name) l
  end.
(** extract_keywords_from_ast_by_name, kwargs.py:30-33 *)
Definition extract_called (name : string) (n : node) : dict node := fold_left (fun d v => dset name v d) (keywords_called name n) [].

(** _extract_dict_from_ast_dict, fromdict.py:14-21 *)
Fixpoint display_dict (d : dict node) (items : list (key * node)) : res (dict node) :=
  match items with
  | [] => Ok d
  | (KStr s, v) :: rest => display_dict (dset s v d) rest
  | _ :: _ => Raise AttributeError
  end.
(** extract_dict_from_ast_dict_or_dict_constructor, fromdict.py:6-12, 23-26 *)
Definition extract_dict (n : node) : res (dict node) :=
  match n with
  | NDict items => display_dict [] items
  | NCall _ _ _ => Ok (extract_keywords n)
  | NNode _ _ => Raise ValueError
  end.

(** ast_dict_constructor and ast_dict_constructor_with_kwargs_from_dict, astitems.py:4-8, 13-23 *)
Definition dict_call (d : dict node) : node := NCall (NNode "Name dict" []) [] (map (fun q => (Some (fst q), snd q)) d).
