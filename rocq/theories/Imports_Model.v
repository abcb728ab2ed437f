(** Model of import statements as the library represents them: pyfileconf/imports/models/statements/*.py. *)
From Verif Require Export Py_Dict Py_Exn.
Local Open Scope string_scope.
Local Open Scope list_scope.

(** An alias of an import statement, as Python's ast gives it: the name, and the name after [as] if there is one. *)
Definition alias : Type := string * option string.

(** ModuleImportStatement, module.py:15-29, and ObjectImportStatement, obj.py:14-29. Renames (rename.py:12-39) are pairs of the
    imported name and the new name. Simplifications: the [comment] of a statement is left out, since no statement the library
    makes has one; [prefer_beginning] is kept next to a statement where it matters ([pimp]). *)
Inductive imp : Type :=
| ModImp (modules : list string) (renames : list (string * string))
| ObjImp (objs : list string) (module : string) (renames : list (string * string)).

(** a statement together with its prefer_beginning (mixins/orderpref.py) *)
Definition pimp : Type := imp * bool.

(** RenameStatementCollection.from_ast_import, rename.py:75-85 *)
Definition renames_of (al : list alias) : list (string * string) :=
  flat_map (fun a => match snd a with Some n => [(fst a, n)] | None => [] end) al.

(** ModuleImportStatement.from_ast_import, module.py:54-67 *)
Definition of_import (al : list alias) : imp := ModImp (map fst al) (renames_of al).

(** ObjectImportStatement.from_ast_import_from, obj.py:53-70. [module] is None for [from . import x]; the number of dots in
    front (ast's level) is not looked at. *)
Definition of_import_from (module : option string) (al : list alias) : res imp :=
  match module with
  | None => Raise (LibExn "CouldNotExtractObjectImportFromAstException")
  | Some m => Ok (ObjImp (map fst al) m (renames_of al))
  end.

(** RenameStatementCollection.item_map, rename.py:63-65: of several renames of a name the last one counts. *)
Definition item_map (r : list (string * string)) : dict string :=
  fold_left (fun d q => dset (fst q) (snd q) d) r [].

(** ImportStatement._renamed, importbase.py:16-32 *)
Definition renamed (items : list string) (r : list (string * string)) : list string :=
  map (fun x => match dget x (item_map r) with Some n => (x ++ " as " ++ n)%string | None => x end) items.

(** ModuleImportStatement.__str__ and ObjectImportStatement.__str__, module.py:31-38, obj.py:31-38 *)
Definition print_imp (i : imp) : string :=
  match i with
  | ModImp ms r => ("import " ++ join ", " (renamed ms r))%string
  | ObjImp os m r => ("from " ++ m ++ " import " ++ join ", " (renamed os r))%string
  end.

(** ImportStatementContainer.__str__, container.py:57-58 *)
Definition print_imports (l : list imp) : string := join nl (map print_imp l).

Definition smem (x : string) (l : list string) : bool := existsb (String.eqb x) l.
Definition rmem (q : string * string) (l : list (string * string)) : bool :=
  existsb (fun p => String.eqb (fst q) (fst p) && String.eqb (snd q) (snd p)) l.

(** The item is a subset of the statement, container.py:41-52 *)
Definition within (item i : imp) : bool :=
  match item, i with
  | ModImp ms r, ModImp ms' r' => forallb (fun m => smem m ms') ms && forallb (fun q => rmem q r') r
  | ObjImp os m r, ObjImp os' m' r' =>
      String.eqb m' m && forallb (fun o => smem o os') os && forallb (fun q => rmem q r') r
  | _, _ => false
  end.

(** ImportStatementContainer.__contains__, container.py:24-55. The equality tested first holds only between statements with one
    and the same collection of renames, which are subsets of each other, so it adds nothing. Assumption: the equality itself (class
    EqOnAttrsMixin of the package mixins, which is not part of the repository) does not raise. *)
Definition contained (item : imp) (l : list imp) : bool := existsb (within item) l.

(** Container.add_if_missing, basemodels/container.py:40-54 *)
Definition add_if_missing (l : list pimp) (p : pimp) : list pimp :=
  if contained (fst p) (map fst l) then l else if snd p then p :: l else l ++ [p].

(** obj_name_is_imported, container.py:60-86 *)
Definition obj_name_is_imported (name : string) (l : list imp) : bool :=
  let parts := split "." name in
  let obj := last parts "" in
  let module := match parts with [_] => None | _ => Some (join "." (removelast parts)) end in
  existsb (fun i => match i with
                    | ModImp ms r => match module with
                                     | None => false
                                     | Some m => smem m ms || smem m (map snd r)
                                     end
                    | ObjImp os _ r => smem obj os || smem obj (map snd r)
                    end) l.

(** the part of a statement that get_import_for_module_or_obj_name returns; [reverse_name_map], rename.py:67-69: of several
    renames to the same name the last one counts *)
Definition reverse_name (r : list (string * string)) (n : string) : string :=
  match dget n (fold_left (fun d q => dset (snd q) (fst q) d) r []) with Some x => x | None => "" end.
Definition import_of (name : string) (i : imp) : option imp :=
  match i with
  | ModImp ms r =>
      if smem name ms then Some (ModImp [name] [])
      else if smem name (map snd r)
           then let rs := filter (fun q => String.eqb (snd q) name) r in Some (ModImp [reverse_name rs name] rs)
           else None
  | ObjImp os m r =>
      if smem name os then Some (ObjImp [name] m [])
      else if smem name (map snd r)
           then let rs := filter (fun q => String.eqb (snd q) name) r in Some (ObjImp [reverse_name rs name] m rs)
           else None
  end.

(** get_import_for_module_or_obj_name, container.py:97-140 *)
Fixpoint get_import_for_name (name : string) (l : list imp) : res imp :=
  match l with
  | [] => Raise (LibExn "NoImportMatchingNameException")
  | i :: rest => match import_of name i with Some j => Ok j | None => get_import_for_name name rest end
  end.

(** imported_names, container.py:142-155, before duplicates are removed *)
Definition imported_names (l : list imp) : list string :=
  flat_map (fun i => match i with
                     | ModImp ms r => ms ++ map snd r
                     | ObjImp os m r => os ++ map snd r ++ [m]
                     end) l.
