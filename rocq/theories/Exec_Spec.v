(** Specification vocabulary for executing config files. *)
From Verif Require Export Exec_Model PySource_Spec FileStr_Spec.
Local Open Scope string_scope.
Local Open Scope list_scope.

Fixpoint target_names (t : tgt) : list string :=
  match t with GName x => [x] | GTuple l => flat_map target_names l | _ => [] end.

(** the name an alias binds *)
Definition import_name (a : alias) : string := match snd a with Some n => n | None => hd "" (split "." (fst a)) end.
Definition from_name (a : alias) : string := match snd a with Some n => n | None => fst a end.

(** Executing the statement as part of a module may bind or unbind the name in the module. The bodies of functions and classes
    have names of their own; a star may bring any name. *)
Inductive touches : pstmt -> string -> Prop :=
| t_import al a : In a al -> touches (PImport al) (import_name a)
| t_from dots m al a : In a al -> touches (PFrom dots m al) (from_name a)
| t_star dots m al a x : In a al -> fst a = "*" -> touches (PFrom dots m al) x
| t_assign ts e t x : In t ts -> In x (target_names t) -> touches (PAssign ts e) x
| t_ann t ann e x : In x (target_names t) -> touches (PAnn t ann (Some e)) x
| t_aug x op : touches (PAug x op) x
| t_del x : touches (PDel x) x
| t_def f body : touches (PDef f body) f
| t_class c body : touches (PClass c body) c
| t_if_then e a b s x : In s a -> touches s x -> touches (PIf e a b) x
| t_if_else e a b s x : In s b -> touches s x -> touches (PIf e a b) x
| t_for_target t e body x : In x (target_names t) -> touches (PFor t e body) x
| t_for_body t e body s x : In s body -> touches s x -> touches (PFor t e body) x
| t_try a b s x : In s a -> touches s x -> touches (PTry a b) x
| t_except a b s x : In s b -> touches s x -> touches (PTry a b) x.

(** a statement of the program or inside of one of its statements *)
Inductive part_of (s : pstmt) : pstmt -> Prop :=
| part_self : part_of s s
| part_def f body s' : In s' body -> part_of s s' -> part_of s (PDef f body)
| part_class c body s' : In s' body -> part_of s s' -> part_of s (PClass c body)
| part_then e a b s' : In s' a -> part_of s s' -> part_of s (PIf e a b)
| part_else e a b s' : In s' b -> part_of s s' -> part_of s (PIf e a b)
| part_for t e body s' : In s' body -> part_of s s' -> part_of s (PFor t e body)
| part_try a b s' : In s' a -> part_of s s' -> part_of s (PTry a b)
| part_except a b s' : In s' b -> part_of s s' -> part_of s (PTry a b).
Definition within (s : pstmt) (p : list pstmt) : Prop := exists s', In s' p /\ part_of s s'.

(** The module has only names with two underscores before its code is executed. *)
Definition fresh (initial : dict mval) : Prop := dwf initial /\ forall k, In k (dkeys initial) -> startswith k "__" = true.

(** the setting a name of the module becomes *)
Definition setting_of (q : string * mval) : list (string * pyval) :=
  if startswith (fst q) "__" then [] else match snd q with MModule _ => [] | MVal v => [(fst q, v)] end.

(** Simple statements: imports without a star, assignments to one name. *)
Definition simple_stmt (s : pstmt) : Prop :=
  match s with
  | PImport _ => True
  | PFrom _ _ al => forall a, In a al -> fst a <> "*"
  | PAssign [GName _] _ => True
  | PAnn (GName _) _ _ => True
  | _ => False
  end.
(** the expression the statement assigns to the name *)
Definition assigns (s : pstmt) (x : string) (e : list tok) : Prop :=
  s = PAssign [GName x] e \/ exists ann, s = PAnn (GName x) ann (Some e).
(** the statement imports something under the name *)
Definition imports (s : pstmt) (x : string) : Prop :=
  (exists al a, s = PImport al /\ In a al /\ import_name a = x) \/
  (exists dots m al a, s = PFrom dots m al /\ In a al /\ from_name a = x).

(** the statements read in a file, as statements to execute *)
Definition imp_stmt (i : imp) : pstmt :=
  match i with ModImp _ _ => PImport (aliases_of i) | ObjImp _ m _ => PFrom 0 (Some m) (aliases_of i) end.
Definition asg_stmt (a : asgn) : pstmt :=
  match a with
  | Asgn (TgName x) None (Some e) => PAssign [GName x] e
  | Asgn (TgName x) (Some ann) e => PAnn (GName x) ann e
  | _ => PExpr []
  end.

(** what an import statement binds the name to *)
Definition gives (py : python) (s : pstmt) (x : string) (w : mval) : Prop :=
  (exists al a, s = PImport al /\ In a al /\ import_name a = x /\ w = MModule (match snd a with Some _ => fst a | None => import_name a end)) \/
  (exists dots m al a, s = PFrom dots m al /\ In a al /\ from_name a = x /\ py_from py dots m (fst a) = Ok w).
(** No name is imported with two meanings. *)
Definition one_meaning (py : python) (p : list pstmt) : Prop :=
  forall s s' x w w', In s p -> In s' p -> gives py s x w -> gives py s' x w' -> w = w'.
(** no statement imports the same thing under two names *)
Definition plain_aliases (s : pstmt) : Prop := match s with PImport al | PFrom _ _ al => one_way al | _ => True end.

(** [uses e] are all names the value of the expression depends on. *)
Definition local (py : python) (uses : list tok -> list string) : Prop :=
  forall e ns ns', (forall x, In x (uses e) -> dget x ns = dget x ns') -> py_eval py ns e = py_eval py ns' e.
Definition needs (uses : list tok -> list string) (s : pstmt) : list string :=
  match s with
  | PAssign _ e => uses e
  | PAnn _ ann (Some e) => uses e ++ uses ann
  | PAnn _ ann None => uses ann
  | _ => []
  end.
(** No statement uses one of the names before the program itself binds it. *)
Fixpoint clear_of (uses : list tok -> list string) (X : string -> Prop) (p : list pstmt) : Prop :=
  match p with
  | [] => True
  | s :: p' => (forall x, In x (needs uses s) -> ~ X x) /\ clear_of uses (fun x => X x /\ ~ touches s x) p'
  end.

(** the names bound before the first line of the old file when it is written for the item *)
Definition put_before (it : item) (f : loaded) (x : string) : Prop :=
  (exists i, In i (combine_imports (l_imports f) (item_imports it)) /\ touches (imp_stmt i) x) \/
  (x = "s" /\ missing_begin it (l_assigns f) <> []).

(** the program of a file written for an item for the first time, with the assignments read in the lines of its values *)
Definition new_program (it : item) (es : list asgn) : list pstmt :=
  map imp_stmt (combine_imports [] (item_imports it)) ++ map asg_stmt (map (fun _ => selector_asgn) (i_begin it)) ++ map asg_stmt es.

(** Executing the text of a plain file; what other files give is left open. *)
Definition exec_text (py : python) (initial : dict mval) (other : list string -> string -> res (dict pyval)) (rel : list string) (t : string) : res (dict pyval) :=
  match program t with Some p => active_load py initial (Some p) | None => other rel t end.
