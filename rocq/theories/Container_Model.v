(** Model of the containers for statements (pyfileconf/basemodels/container.py), equality of assignments
    (assignments/models/statement.py:37-57), collections of renames (imports/models/statements/rename.py:36-73), what a container of
    imports lists (imports/models/statements/container.py:158-178) and the preferred positions (mixins/orderpref.py,
    logic/userinput.py). *)
From Coq Require Export ZArith.
From Verif Require Export Imports_Model.
Local Open Scope string_scope.
Local Open Scope list_scope.

(* ------------------------------------------------------------------ *)
(** * Containers *)
Section Container.
Context {A : Type}.
(** [==] of items. Simplification: it does not raise. *)
Variable same : A -> A -> bool.

(** Container.__contains__, container.py:15-16 *)
Definition has (l : list A) (x : A) : bool := existsb (same x) l.
(** list.insert: a negative index counts from the end, and indices are kept within the list *)
Definition insert_at (i : Z) (x : A) (l : list A) : list A :=
  let n := Z.of_nat (List.length l) in
  let k := Z.to_nat (Z.min n (if Z.ltb i 0 then Z.max 0 (i + n) else i)) in
  firstn k l ++ x :: skipn k l.
(** append_if_missing and insert_if_missing, container.py:56-62 *)
Definition append_if_missing (l : list A) (x : A) : list A := if has l x then l else l ++ [x].
Definition insert_if_missing (i : Z) (l : list A) (x : A) : list A := if has l x then l else insert_at i x l.
(** add_if_missing, container.py:40-54; [begin] is the item's prefer_beginning, False if it has none *)
Definition add_missing (begin : A -> bool) (l : list A) (x : A) : list A :=
  if begin x then insert_if_missing 0 l x else append_if_missing l x.
End Container.

(** Container.__add__, container.py:21-26: a class [sub] of the right operand must be the left one's or derived from it *)
Definition add_containers {A} (derived : string -> string -> bool) (a b : string * list A) : res (string * list A) :=
  if derived (fst b) (fst a) then Ok (fst a, snd a ++ snd b) else Raise TypeError.

(* ------------------------------------------------------------------ *)
(** * Assignments *)

(** AssignmentStatement, statement.py:15-26: the target, the source of the value and of the annotation, prefer_beginning *)
Record assignment : Type := Assignment { as_name : string; as_value : string; as_ann : option string; as_begin : bool }.
(** what it may be compared with: another one, an assignment of a syntax tree (its targets, value, annotation), anything else *)
Inductive comparand : Type := CAssign (a : assignment) | CAst (targets : list string) (value : string) (ann : option string) | CThing.
(** AssignmentStatement.__eq__, statement.py:37-57, with from_ast_assign (59-84). An annotated assignment has one target. *)
Definition assign_eq (a : assignment) (o : comparand) : res bool :=
  match o with
  | CThing => Ok false
  | CAssign b => Ok (String.eqb (as_name a) (as_name b) && String.eqb (as_value a) (as_value b))
  | CAst [t] v _ => Ok (String.eqb (as_name a) t && String.eqb (as_value a) v)
  | CAst [] _ _ => Raise IndexError
  | CAst (_ :: _ :: _) _ _ => Raise (LibExn "NotImplementedError")
  end.
Definition assign_same (a b : assignment) : bool := match assign_eq a (CAssign b) with Ok r => r | Raise _ => false end.
(** AssignmentStatementContainer.contains_varname, assignments/models/container.py:17-18 *)
Definition contains_varname (l : list assignment) (x : string) : bool := existsb (fun a => String.eqb (as_name a) x) l.

(* ------------------------------------------------------------------ *)
(** * Renames *)

(** RenameStatementCollection.__contains__, rename.py:42-47: for a rename, or for a name *)
Definition has_rename (r : list (string * string)) (q : string * string) : bool := rmem q r.
Definition has_renamed (r : list (string * string)) (n : string) : bool := smem n (map fst r).
(** item_map (63-65), __getitem__ (49-50), new_names and orig_names (56-61), reverse_name_map and name_map (67-73) *)
Definition rename_map (r : list (string * string)) : dict (string * string) := dict_of (map (fun q => (fst q, q)) r).
Definition get_rename (r : list (string * string)) (n : string) : res (string * string) :=
  match dget n (rename_map r) with Some q => Ok q | None => Raise KeyError end.
Definition new_names_of (r : list (string * string)) : list string := map snd r.
Definition orig_names_of (r : list (string * string)) : list string := map fst r.
Definition name_map (r : list (string * string)) : dict string := dict_of r.
Definition reverse_map (r : list (string * string)) : dict string := dict_of (map (fun q => (snd q, fst q)) r).

(** ImportStatementContainer.modules and objs, container.py:158-178 *)
Definition modules_of (l : list imp) : list string := flat_map (fun i => match i with ObjImp _ m _ => [m] | ModImp ms _ => ms end) l.
Definition objs_of (l : list imp) : list string := flat_map (fun i => match i with ObjImp os _ _ => os | ModImp _ _ => [] end) l.

(* ------------------------------------------------------------------ *)
(** * Positions *)

(** str.strip and str.lower, for characters below 128 *)
Fixpoint lstrip (s : string) : string := match s with String c r => if is_space c then lstrip r else s | "" => "" end.
Fixpoint rstrip (s : string) : string :=
  match s with
  | "" => ""
  | String c r => match rstrip r with "" => if is_space c then "" else String c "" | t => String c t end
  end.
Definition lower_char (c : ascii) : ascii :=
  let n := nat_of_ascii c in if Nat.leb 65 n && Nat.leb n 90 then ascii_of_nat (n + 32) else c.
Fixpoint lower (s : string) : string := match s with String c r => String (lower_char c) (lower r) | "" => "" end.
(** _is_begin_str, logic/userinput.py:1-7 *)
Definition is_begin_str (s : option string) : bool :=
  match s with
  | None => false
  | Some s => smem (lower (rstrip (lstrip s))) ["b"; "begin"; "beginning"; "start"; "s"]
  end.
(** OrderPreferenceMixin.preferred_position, orderpref.py:5-11: what is read after setting it *)
Definition preferred_position (s : option string) : string := if is_begin_str s then "begin" else "end".
