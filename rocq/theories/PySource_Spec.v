(** Specification vocabulary for C43-C48: names, aliases and what an import statement says. *)
From Verif Require Import PySource_Model.
Local Open Scope string_scope.
Local Open Scope list_scope.

(** [a.b.c], every part a name *)
Definition dotted_name (n : string) : Prop := forallb is_name (split "." n) = true.

Definition name_alias (a : alias) : Prop := match snd a with Some n => is_name n = true | None => True end.

(** what can stand in [import ...] and in [from m import ...] *)
Definition module_aliases_ok (al : list alias) : Prop := al <> [] /\ Forall (fun a => dotted_name (fst a) /\ name_alias a) al.
Definition object_aliases_ok (al : list alias) : Prop :=
  al = [("*", None)] \/ al <> [] /\ Forall (fun a => is_name (fst a) = true /\ name_alias a) al.

(** the source of an alias and of the statements *)
Definition print_alias (a : alias) : string :=
  match snd a with Some n => (fst a ++ " as " ++ n)%string | None => fst a end.
Definition import_text (al : list alias) : string := ("import " ++ join ", " (map print_alias al))%string.
Definition from_text (dots : nat) (m : string) (al : list alias) : string :=
  ("from " ++ string_of_list_ascii (repeat "."%char dots) ++ m ++ " import " ++ join ", " (map print_alias al))%string.

(** the alias under which the last alias of the same name that has an [as] puts it *)
Definition last_as (al : list alias) (x : string) : option string :=
  fold_left (fun acc a => if String.eqb x (fst a) then match snd a with Some n => Some n | None => acc end else acc) al None.
Definition settled (al : list alias) : list alias := map (fun a => (fst a, last_as al (fst a))) al.

(** no name is imported in two ways by the statement *)
Definition one_way (al : list alias) : Prop := forall x o1 o2, In (x, o1) al -> In (x, o2) al -> o1 = o2.

(** the aliases a statement stands for when printed *)
Definition aliases_of (i : imp) : list alias :=
  match i with
  | ModImp ms r => map (fun x => (x, dget x (item_map r))) ms
  | ObjImp os _ r => map (fun x => (x, dget x (item_map r))) os
  end.
Definition normal (i : imp) : imp :=
  match i with
  | ModImp _ _ => ModImp (map fst (aliases_of i)) (renames_of (aliases_of i))
  | ObjImp _ m _ => ObjImp (map fst (aliases_of i)) m (renames_of (aliases_of i))
  end.

(** statements a reader of Python source can have made *)
Definition imp_ok (i : imp) : Prop :=
  match i with
  | ModImp _ _ => module_aliases_ok (aliases_of i)
  | ObjImp _ m _ => dotted_name m /\ object_aliases_ok (aliases_of i)
  end.

(** [i] is the statement with the aliases [al] *)
Definition says (i : imp) (al : list alias) : Prop :=
  i = of_import al \/ exists m, i = ObjImp (map fst al) m (renames_of al).

(** What executing a statement binds: names, and the module or the attribute of a module they get bound to. [import a.b] binds
    the package a. The names a star stands for are not known. *)
Definition binding : Type := string * (string * option string).
Definition alias_bindings (m : option string) (a : alias) : list binding :=
  match m, snd a with
  | None, Some n => [(n, (fst a, None))]
  | None, None => let top := hd "" (split "." (fst a)) in [(top, (top, None))]
  | Some m, Some n => [(n, (m, Some (fst a)))]
  | Some m, None => if String.eqb (fst a) "*" then [] else [(fst a, (m, Some (fst a)))]
  end.
Definition module_of (i : imp) : option string := match i with ModImp _ _ => None | ObjImp _ m _ => Some m end.
Definition bindings (i : imp) : list binding := flat_map (alias_bindings (module_of i)) (aliases_of i).

(** The names standing in a statement: original names and names after [as]. *)
Definition originals (i : imp) : list string := match i with ModImp ms _ => ms | ObjImp os _ _ => os end.
Definition new_names (i : imp) : list string := match i with ModImp _ r | ObjImp _ _ r => map snd r end.
Definition mentions (i : imp) (n : string) : Prop := In n (originals i) \/ In n (new_names i).

(** what Python finds for a name after executing the statements: the last binding *)
Definition bound_to (l : list imp) (n : string) : option (string * option string) :=
  fold_left (fun acc (b : binding) => if String.eqb (fst b) n then Some (snd b) else acc) (flat_map bindings l) None.

(** every name a statement puts behind an [as] is not looked up or imported without it *)
Definition hides (i : imp) (n : string) : Prop := In n (originals i) /\ ~ In (n, None) (aliases_of i).

(** How deep in brackets the end of a list of tokens is; closing brackets without opening ones do not count. *)
Definition depth (ts : list tok) : nat :=
  fold_left (fun d t => match t with
                        | TOp c => if existsb (Ascii.eqb c) ["("; "["; "{"]%char then S d else if existsb (Ascii.eqb c) [")"; "]"; "}"]%char then pred d else d
                        | _ => d
                        end) ts 0.
(** An equals sign between these tokens is an assignment: it is outside of brackets and no part of a longer operator. *)
Definition assigns_between (before after : list tok) : Prop :=
  depth before = 0 /\
  (forall b c, before = b ++ [TOp c] -> ~ In c ["="; "!"; "<"; ">"; "+"; "-"; "*"; "/"; "%"; "&"; "|"; "^"; "@"; ":"]%char) /\
  (forall a, after <> TOp "=" :: a).
