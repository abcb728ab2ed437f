(** Model of reading a dict file (pipeline_dict.py or <class>_dict.py) whatever it contains, from the syntax tree on: the
    assignment is found by its name (pyfileconf/io/file/load/parsers/assign.py:9-76, lazy/pipelineast.py, dataast.py,
    lazy/base/impassign.py), and the dicts and lists in it are converted (parsers/collections.py, lazy/pipeline.py, datadict.py).
    PipeDict_Model reads texts, but only simple ones.

    Simplifications: a constant other than a string as key of a dict raises TypeError here; Python gets as far as joining the key
    to a path (basemodels/collection.py:107, 144), where it raises TypeError. *)
From Verif Require Export PipeDict_Model.
Local Open Scope string_scope.
Local Open Scope list_scope.

(* ------------------------------------------------------------------ *)
(** * Syntax *)

(** keys in a dict display; [KStars]: [**value] *)
Inductive dkey : Type := KStr (s : string) | KConst (src : string) | KExpr (src : string) | KStars.
(** expressions. [XNode]: any other node, with the expressions in it in the order of ast.iter_fields, which NodeVisitor uses *)
Inductive ex : Type :=
| XName (x : string)
| XStr (s : string)
| XDict (l : list (dkey * ex))
| XList (l : list ex)
| XNode (label : string) (l : list ex).

(** Statements. Of the targets only names are kept ([None]: an attribute, an element, a tuple). [SImp]: an import, with the exception
    that from_ast_import or from_ast_import_from raises. [SBlock]: a statement with others in it. *)
Inductive stm : Type :=
| SAsg (ts : list (option string)) (e : ex)
| SAnn (t : option string) (ann : ex) (e : option ex)
| SImp (bad : option exn)
| SBlock (label : string) (body : list stm)
| SElse (label : string).

(** the statements in the order a NodeVisitor comes to them *)
Fixpoint flat (s : stm) : list stm :=
  match s with SBlock _ body => flat_map flat body | _ => [s] end.

(* ------------------------------------------------------------------ *)
(** * Finding the assignment *)

Definition not_implemented : exn := LibExn "NotImplementedError".

Fixpoint first_bad {A} (f : A -> option exn) (l : list A) : res unit :=
  match l with [] => Ok tt | a :: r => match f a with Some e => Raise e | None => first_bad f r end end.
(** ImportAssignmentLazyLoader.register, impassign.py:11-21: all imports are extracted, then all assignments (parsers/imp.py:16-34,
    statement.py:59-84) *)
Definition bad_import (s : stm) : option exn := match s with SImp b => b | _ => None end.
Definition bad_assign (s : stm) : option exn := match s with SAsg [_] _ => None | SAsg _ _ => Some not_implemented | _ => None end.
Definition register (p : list stm) : res unit :=
  match first_bad bad_import p with Raise e => Raise e | Ok _ => first_bad bad_assign p end.

(** [[target.id for target in node.targets]], assign.py:52: only a name has an id *)
Fixpoint ids (ts : list (option string)) : res (list string) :=
  match ts with
  | [] => Ok []
  | None :: _ => Raise AttributeError
  | Some x :: r => match ids r with Ok l => Ok (x :: l) | Raise e => Raise e end
  end.
(** AssignmentByVarnameExtractor, assign.py:45-65: annotation and value of what is found *)
Fixpoint by_name (name : string) (p : list stm) : res (list (option ex * option ex)) :=
  match p with
  | [] => Ok []
  | SAsg ts e :: r =>
      match ids ts with
      | Raise x => Raise x
      | Ok l => match (if mem name l then match ts with [_] => Ok [(None, Some e)] | _ => Raise not_implemented end else Ok []) with
                | Raise x => Raise x
                | Ok found => match by_name name r with Ok more => Ok (found ++ more) | Raise x => Raise x end
                end
      end
  | SAnn t ann e :: r =>
      match t with
      | None => Raise AttributeError
      | Some x => match by_name name r with
                  | Ok more => Ok ((if String.eqb x name then [(Some ann, e)] else []) ++ more)
                  | Raise x => Raise x
                  end
      end
  | _ :: r => by_name name r
  end.

(* ------------------------------------------------------------------ *)
(** * Converting *)

(** what becomes of an expression; everything else stays a node *)
Inductive cv : Type := CDict (l : list (string * cv)) | CList (l : list cv) | CStr (s : string) | CNode (e : ex).

(** [key.s], collections.py:68-69 *)
Definition key_s (k : dkey) : res string :=
  match k with KStr s => Ok s | KConst _ => Raise TypeError | KExpr _ | KStars => Raise AttributeError end.

(** _ast_dict_to_dict, _ast_list_to_list and _convert_to_str_if_ast_str_and_desired, collections.py:56-97. [conv]:
    convert_str_values *)
Fixpoint convert (conv : bool) (e : ex) : res cv :=
  match e with
  | XDict l =>
      match (fix go (l : list (dkey * ex)) (acc : dict cv) : res (dict cv) :=
               match l with
               | [] => Ok acc
               | (k, x) :: r => match key_s k with
                                | Raise e => Raise e
                                | Ok s => match convert conv x with Raise e => Raise e | Ok v => go r (dset s v acc) end
                                end
               end) l [] with
      | Ok d => Ok (CDict d)
      | Raise e => Raise e
      end
  | XList l =>
      match (fix go (l : list ex) : res (list cv) :=
               match l with
               | [] => Ok []
               | x :: r => match convert conv x with
                           | Raise e => Raise e
                           | Ok v => match go r with Ok vs => Ok (v :: vs) | Raise e => Raise e end
                           end
               end) l with
      | Ok vs => Ok (CList vs)
      | Raise e => Raise e
      end
  | XStr s => Ok (if conv then CStr s else CNode e)
  | _ => Ok (CNode e)
  end.

(** AstDictListConverter, collections.py:9-24: what is found below a node, in dicts and lists no further *)
Fixpoint collections (conv : bool) (e : ex) : res (list cv) :=
  match e with
  | XDict _ | XList _ => match convert conv e with Ok v => Ok [v] | Raise x => Raise x end
  | XNode _ l => (fix go (l : list ex) : res (list cv) :=
                    match l with
                    | [] => Ok []
                    | x :: r => match collections conv x with
                                | Raise e => Raise e
                                | Ok vs => match go r with Ok ws => Ok (vs ++ ws) | Raise e => Raise e end
                                end
                    end) l
  | _ => Ok []
  end.

(** extract_collection_from_ast (collections.py:43-53) of AssignmentStatement.to_ast (statement.py:111-123): the fields of an
    annotated assignment are target, annotation, value *)
Definition extract (conv : bool) (ann e : option ex) : res (option cv) :=
  match collections conv (XNode "" (match ann with Some a => [a] | None => [] end ++ match e with Some x => [x] | None => [] end)) with
  | Raise x => Raise x
  | Ok [] => Ok None
  | Ok [v] => Ok (Some v)
  | Ok _ => Raise ValueError
  end.

(** PipelineDictLoader.load (lazy/pipeline.py, pipelineast.py) and SpecificClassDictLoader.load (datadict.py, dataast.py) of a file that
    exists. [general]: the former, which treats a missing assignment as an empty dict. *)
Definition load_file (general : bool) (p : list stm) : res (option cv) :=
  let l := flat_map flat p in
  match register l with
  | Raise e => Raise e
  | Ok _ => match by_name (if general then "pipeline_dict" else "class_dict") l with
            | Raise e => Raise e
            | Ok [] => if general then Ok (Some (CDict [])) else Raise AttributeError
            | Ok [(ann, e)] => extract (negb general) ann e
            | Ok _ => Raise ValueError
            end
  end.

(* ------------------------------------------------------------------ *)
(** * The tree made from it *)

Section Tree.
Variable src : ex -> string.
(** in the terms of PipeDict_Model *)
Fixpoint to_pd (v : cv) : pd :=
  match v with
  | CDict l => PDict (map (fun q => (fst q, to_pd (snd q))) l)
  | CList l => PList (map to_pd l)
  | CStr s => PStr s
  | CNode (XName x) => PName x
  | CNode e => POther (src e)
  end.
(** [dict_.items()] in Collection.from_dict (collection.py:105): neither a list nor None has items *)
Definition dict_of_file (general : bool) (p : list stm) : res (dict pd) :=
  match load_file general p with
  | Raise e => Raise e
  | Ok (Some (CDict l)) => Ok (map (fun q => (fst q, to_pd (snd q))) l)
  | Ok _ => Raise AttributeError
  end.
Definition tree_of_file (view : pd -> res (string * thing)) (general : bool) (name : string) (p : list stm) : res coll :=
  match dict_of_file general p with Ok d => from_dict view name d | Raise e => Raise e end.
End Tree.
