(** Model of executing a config file: pyfileconf/io/file/load/active/{userdef,loader}.py, pyfileconf/config/models/file.py:14-27,
    with the statements of Python a config file may consist of.

    Expressions are known by their tokens. What they evaluate to, what imports give and what functions and classes are is left
    open. Simplification: objects are values here, so changing an object in place has no effect on the names of the module;
    expressions bind no names (no [:=], no [globals()]). Annotations are evaluated where they stand, as Python does before
    3.14. *)
From Verif Require Export FileStr_Model Py_Val.
Local Open Scope string_scope.
Local Open Scope list_scope.

(** what a name of a module may be bound to *)
Inductive mval : Type := MModule (m : string) | MVal (v : pyval).

Inductive tgt : Type := GName (x : string) | GAttr (e : list tok) (a : string) | GItem (e i : list tok) | GTuple (l : list tgt).

(** A statement. [PFrom dots m al]: [from ..m import a as b, c]; [from . import a] has no [m]. [PAug x op]: [x += 1], the operator
    with its operand as tokens. [PTry]: with one clause [except Exception]. *)
Inductive pstmt : Type :=
| PImport (al : list alias)
| PFrom (dots : nat) (m : option string) (al : list alias)
| PAssign (ts : list tgt) (e : list tok)
| PAnn (t : tgt) (ann : list tok) (e : option (list tok))
| PAug (x : string) (op : list tok)
| PDel (x : string)
| PExpr (e : list tok)
| PDef (f : string) (body : list pstmt)
| PClass (c : string) (body : list pstmt)
| PIf (e : list tok) (a b : list pstmt)
| PFor (t : tgt) (e : list tok) (body : list pstmt)
| PTry (a b : list pstmt).

(* ------------------------------------------------------------------ *)
(** * What the visitors see *)

Definition target_kind (t : tgt) : target :=
  match t with GName x => TgName x | GAttr _ _ => TgAttr | _ => TgOther end.

(** The nodes that AssignmentExtractor and ImportExtractor come across, parsers/{assign.py:9-31, imp.py:16-34}: they enter all
    blocks, also those of functions and classes. *)
Fixpoint nodes (s : pstmt) : list stmt :=
  match s with
  | PImport al => [SImport (of_import al)]
  | PFrom _ m al => [match of_import_from m al with Ok i => SImport i | Raise e => SBadImport e end]
  | PAssign [t] e => [SAssign (Asgn (target_kind t) None (Some e))]
  | PAssign _ _ => [SMultiAssign]
  | PAnn t ann e => [SAssign (Asgn (target_kind t) (Some ann) e)]
  | PAug _ _ | PDel _ | PExpr _ => [SOther]
  | PDef _ body | PClass _ body | PFor _ _ body => SOther :: flat_map nodes body
  | PIf _ a b | PTry a b => SOther :: flat_map nodes a ++ flat_map nodes b
  end.

(* ------------------------------------------------------------------ *)
(** * Executing *)

(** the names bound so far, and the exception if there was one *)
Definition outcome : Type := dict mval * option exn.

Definition seq {A} (f : A -> dict mval -> outcome) : list A -> dict mval -> outcome :=
  fix go (l : list A) (ns : dict mval) : outcome :=
    match l with
    | [] => (ns, None)
    | a :: l' => match f a ns with (ns', None) => go l' ns' | r => r end
    end.

Definition name_error : exn := LibExn "NameError".
(** [except Exception] *)
Definition caught (e : exn) : bool := match e with KeyboardInterrupt | SystemExit => false | _ => true end.

(** What is left open: evaluating an expression, importing a module (with what goes wrong), an object or all objects from one,
    the elements of a value, storing to an attribute or an element, the truth of a value, what an augmented assignment gives,
    functions and classes. *)
Record python : Type := Python {
  py_eval : dict mval -> list tok -> res mval;
  py_import : string -> option exn;
  py_from : nat -> option string -> string -> res mval;
  py_star : nat -> option string -> res (dict mval);
  py_iter : mval -> res (list mval);
  py_store : dict mval -> tgt -> mval -> option exn;
  py_truth : mval -> res bool;
  py_aug : dict mval -> mval -> list tok -> res mval;
  py_def : dict mval -> string -> list pstmt -> res mval;
  py_class : dict mval -> string -> list pstmt -> res mval }.

Section Exec.
Variable py : python.

Definition bind_name (x : string) (r : res mval) (ns : dict mval) : outcome :=
  match r with Ok v => (dset x v ns, None) | Raise e => (ns, Some e) end.

Fixpoint assign (t : tgt) (v : mval) (ns : dict mval) : outcome :=
  match t with
  | GName x => (dset x v ns, None)
  | GAttr _ _ | GItem _ _ => (ns, py_store py ns t v)
  | GTuple l =>
      match py_iter py v with
      | Raise e => (ns, Some e)
      | Ok vs =>
          if Nat.eqb (List.length vs) (List.length l)
          then (fix go (l : list tgt) (vs : list mval) (ns : dict mval) : outcome :=
                  match l, vs with
                  | t' :: l', v' :: vs' => match assign t' v' ns with (ns', None) => go l' vs' ns' | r => r end
                  | _, _ => (ns, None)
                  end) l vs ns
          else (ns, Some ValueError)
      end
  end.

(** [import a.b] binds the package a, [import a.b as c] the module a.b *)
Definition import_alias (a : alias) (ns : dict mval) : outcome :=
  match py_import py (fst a) with
  | Some e => (ns, Some e)
  | None => match snd a with
            | Some n => (dset n (MModule (fst a)) ns, None)
            | None => let top := hd "" (split "." (fst a)) in (dset top (MModule top) ns, None)
            end
  end.
Definition from_alias (dots : nat) (m : option string) (a : alias) (ns : dict mval) : outcome :=
  if String.eqb (fst a) "*"
  then match py_star py dots m with Ok d => (dupdate ns d, None) | Raise e => (ns, Some e) end
  else bind_name (match snd a with Some n => n | None => fst a end) (py_from py dots m (fst a)) ns.

Fixpoint run (s : pstmt) (ns : dict mval) : outcome :=
  match s with
  | PImport al => seq import_alias al ns
  | PFrom dots m al => seq (from_alias dots m) al ns
  | PAssign ts e => match py_eval py ns e with Ok v => seq (fun t => assign t v) ts ns | Raise e => (ns, Some e) end
  | PAnn t ann None => match py_eval py ns ann with Ok _ => (ns, None) | Raise e => (ns, Some e) end
  | PAnn t ann (Some e) =>
      match py_eval py ns e with
      | Raise e => (ns, Some e)
      | Ok v => match assign t v ns with
                | (ns', None) => match py_eval py ns' ann with Ok _ => (ns', None) | Raise e => (ns', Some e) end
                | r => r
                end
      end
  | PAug x op => match dget x ns with Some v => bind_name x (py_aug py ns v op) ns | None => (ns, Some name_error) end
  | PDel x => if dmem x ns then (ddel x ns, None) else (ns, Some name_error)
  | PExpr e => match py_eval py ns e with Ok _ => (ns, None) | Raise e => (ns, Some e) end
  | PDef f body => bind_name f (py_def py ns f body) ns
  | PClass c body => bind_name c (py_class py ns c body) ns
  | PIf e a b =>
      match py_eval py ns e with
      | Raise e => (ns, Some e)
      | Ok v => match py_truth py v with
                | Raise e => (ns, Some e)
                | Ok true => seq run a ns
                | Ok false => seq run b ns
                end
      end
  | PFor t e body =>
      match py_eval py ns e with
      | Raise e => (ns, Some e)
      | Ok v => match py_iter py v with
                | Raise e => (ns, Some e)
                | Ok vs => seq (fun v ns => match assign t v ns with (ns', None) => seq run body ns' | r => r end) vs ns
                end
      end
  | PTry a b =>
      match seq run a ns with
      | (ns', Some e) => if caught e then seq run b ns' else (ns', Some e)
      | r => r
      end
  end.

(** _get_user_defined_dict_from_module, userdef.py:24-31 *)
Definition user_dict (ns : dict mval) : dict pyval :=
  fold_left (fun d q => if startswith (fst q) "__" then d
                        else match snd q with MModule _ => d | MVal v => dupdate d [(fst q, v)] end) ns [].

(** the names a module has before its code is executed *)
Variable initial : dict mval.

(** get_user_defined_dict_from_filepath, userdef.py:10-22,34-52, as it is used: without a module name, so that sys.modules is left
    alone, and without removing imports. The name of a config file ends in .py, so that there is a loader. *)
Definition user_defined_dict (content : option (list pstmt)) : res (dict pyval) :=
  match content with
  | None => Raise OSError
  | Some p => match seq run p initial with (ns, None) => Ok (user_dict ns) | (_, Some e) => Raise e end
  end.

(** ActiveConfigFileLoader.load, active/loader.py:9-18, with ImportAssignmentLazyLoader.register, lazy/base/impassign.py:11-21: the
    imports and assignments are taken from the syntax tree, then the file is executed. The result of
    ActiveFunctionConfigFile.load, config/models/file.py:14-27, has these values and imports. *)
Definition register (content : option (list pstmt)) : res (list imp * list asgn) :=
  match content with
  | None => Ok ([], [])
  | Some p => match imports_of (flat_map nodes p) with
              | Raise e => Raise e
              | Ok is => match assigns_of (flat_map nodes p) with Raise e => Raise e | Ok al => Ok (is, al) end
              end
  end.
Definition active_load (content : option (list pstmt)) : res (dict pyval) :=
  match register content with Raise e => Raise e | Ok _ => user_defined_dict content end.

(** ConfigFileLoader.load, lazy/config.py:11-22, on a file that exists: the settings as scaffolding sees them *)
Definition lazy_load (p : list pstmt) : res (dict (option (list tok))) :=
  match register (Some p) with Raise e => Raise e | Ok (_, al) => default_dict [] al end.
End Exec.

(* ------------------------------------------------------------------ *)
(** * The program in a text *)

(** The statement of a logical line of a plain file: an import, or an assignment to a name. *)
Definition plain_line (ts : list tok) : option pstmt :=
  match find_op ";" 0 ts, ts with
  | None, TWord w :: rest =>
      if String.eqb w "import" then
        match opt_list module_alias (split_commas rest) with Some al => Some (PImport al) | None => None end
      else if String.eqb w "from" then
        let rest' := skip_dots rest in
        let dots := List.length rest - List.length rest' in
        match (match dotted rest' with
               | Some (m, r) => Some (Some m, r)
               | None => if Nat.ltb 0 dots then Some (None, rest') else None
               end) with
        | Some (module, t :: names) =>
            if is_word "import" t
            then match object_aliases names with Some al => Some (PFrom dots module al) | None => None end
            else None
        | _ => None
        end
      else if existsb (String.eqb w) keywords then None
      else match plain_stmt ts with
           | Ok (SAssign (Asgn (TgName x) None (Some e))) => Some (PAssign [GName x] e)
           | Ok (SAssign (Asgn (TgName x) (Some ann) e)) => Some (PAnn (GName x) ann e)
           | _ => None
           end
  | _, _ => None
  end.

(** The program of a plain file; blank lines and comments are no statements. *)
Definition is_blank (ts : list tok) : bool := match ts with [] => true | _ => false end.
Definition program_lines (lines : list string) : option (list pstmt) :=
  match logical None lines with
  | Some ls => opt_list plain_line (filter (fun ts => negb (is_blank ts)) ls)
  | None => None
  end.
Definition program (t : string) : option (list pstmt) := program_lines (lines_of t).
