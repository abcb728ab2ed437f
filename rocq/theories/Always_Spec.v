(** Statements about what config files always get. *)
From Verif Require Export Always_Model FileStr_Spec PySource_Spec.
Local Open Scope string_scope.
Local Open Scope list_scope.

(** the statement is an assignment, with one or more targets *)
Definition assigns (s : stmt) : bool := match s with SAssign _ | SMultiAssign => true | _ => false end.
Definition imports_something (s : stmt) : bool := match s with SImport _ | SBadImport _ => true | _ => false end.

(** [x] is the only one in the list with the property *)
Definition only_one {A} (p : A -> bool) (x : A) (l : list A) : Prop :=
  exists l1 l2, l = l1 ++ x :: l2 /\ p x = true /\ forall y, In y (l1 ++ l2) -> p y = false.

(** the names assigned, in the order they are first assigned *)
Definition names_of (al : list asgn) : list string := flat_map (fun a => match varname a with Some x => [x] | None => [] end) al.
(** the last one that assigns [x], and the last one that annotates it *)
Definition last_for (x : string) (al : list asgn) : option asgn :=
  find (fun a => match varname a with Some y => String.eqb y x | None => false end) (rev al).
Definition last_ann (x : string) (al : list asgn) : option (list tok) :=
  match last_for x (filter (fun a => match a_ann a with Some _ => true | None => false end) al) with Some a => a_ann a | None => None end.

(** the item with what a DataPipeline gets among its values *)
Definition cleaned (name : string) (it : item) : item :=
  Item (i_imports it) (with_cleanup name (i_defaults it)) (i_always_imports it) (i_begin it) (i_end it).

(** one of the imports has all names and renames of [i] *)
Definition covered (i : imp) (l : list imp) : Prop :=
  exists j, In j l /\ module_of i = module_of j /\ incl (originals i) (originals j) /\
    incl (match i with ModImp _ r | ObjImp _ _ r => r end) (match j with ModImp _ r | ObjImp _ _ r => r end).

(** For examples *)
Definition pv (v : option (list tok)) : list string := ["VALUE"].
Definition pa (t : list tok) : string := "ANN".
Definition ex_defaults : dict value := [("x", Value None ["1"])].
Definition pipe_defaults : dict value := [("data", Value None ["None"]); ("cleanup_kwargs", Value (Some "dict") ["None"]); ("name", Value None ["None"])].

(** the names of a list, each where it first stands *)
Definition firsts (l : list string) : list string := fold_left (fun acc x => if existsb (String.eqb x) acc then acc else acc ++ [x]) l [].

Definition text (l : list string) : string := join nl l.
