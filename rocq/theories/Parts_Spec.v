(** Statements about runs of sections and lists as runs of their functions, one after the other (C98). *)
From Verif Require Export OneArg_Spec Run_Spec.
From Coq Require Import ZArith.
Local Open Scope string_scope.
Local Open Scope list_scope.

(** The single runs that a path stands for: an item is run itself; of a section, the functions in it, through all subsections. *)
Inductive stands_for (its : items) : string -> list string -> Prop :=
| for_itself p : is_thing its p -> stands_for its p [p]
| for_its_functions p c : get_func_or_collection its p = Ok (false, FColl c) -> names_ok c -> ~ In SFail (section_plan p c) ->
    stands_for its p (item_paths p c).

(** the same values in the same order, or the same exception *)
Definition values_in (l : list result) : list pyval := flat_map flatten l.
Definition same_outcome (o : res (list result)) (o' : res (list result)) : Prop :=
  match o, o' with Ok l, Ok l' => values_in l = values_in l' | Raise e, Raise e' => e = e' | _, _ => False end.

(** the first few of a list *)
Definition beginning {A} (l l' : list A) : Prop := exists rest, l' = l ++ rest.

Definition asked_for (a : run_arg) : list string := match a with AStr p => [p] | AList l => l end.
Definition run_each (l : list string) : list rop := map (fun q => RRun Plain (AStr q)) l.
Definition get_each (l : list string) : list rop := map RGet l.

(** A history in which runs and gets of sections and lists are replaced by those of their functions; of each path all functions
    up to one that raises. *)
Inductive unfolds (its : items) : list rop -> list rop -> Prop :=
| un_nil : unfolds its [] []
| un_keep op l l' : unfolds its l l' -> unfolds its (op :: l) (op :: l')
| un_run set a pss qss l l' : Forall2 (stands_for its) (asked_for a) pss -> Forall2 beginning qss pss -> unfolds its l l' ->
    unfolds its (RRun set a :: l) (run_each (concat qss) ++ l')
| un_get p ps qs l l' : stands_for its p ps -> beginning qs ps -> unfolds its l l' ->
    unfolds its (RGet p :: l) (get_each qs ++ l').

(** the operations of C96, and runs and gets of sections and lists whose functions are the item or have nothing to do with it *)
Definition permitted_parts (its : items) (base path k : string) (op : rop) : Prop :=
  let fine ps := forall q, In q ps -> q = path \/ apart base (path_parts path) (path_parts q) in
  permitted base path k op \/
  match op with
  | RRun _ a => exists pss, Forall2 (stands_for its) (asked_for a) pss /\ fine (concat pss)
  | RGet p => exists ps, stands_for its p ps /\ fine ps
  | _ => False
  end.

(** Example: a section with a function and a class. *)
Definition pt_items : items := Items [] (Coll "base" [EColl (Coll "sec" [EItem "g" (TFunc (Fn "g" ["x"])); EItem "f" (TClass (Fn "f" ["x"; "y"]))])]).
Definition pt_ops : list rop :=
  [RRun Plain (AStr "sec"); RUpdate None (Some "sec") true [("y", VInt 5)]; RRun ForceContinue (AList ["sec"; "h"]);
   RUpdate None (Some "sec.f") true [("y", VInt 8)]; RGet "sec"; RRun AutoPdb (AList ["h"; "sec"; "sec.f"])].
