(** Statements about what the operations on other items do to an item: nothing (C92). *)
From Verif Require Export Runner_Model ConfigTree_Spec Runner_Spec.
From Coq Require Import ZArith.
Local Open Scope string_scope.
Local Open Scope list_scope.

(** The section path [q] has nothing to do with the item at [p]: it is neither the item's path nor that of a section around
    it, and it is not the second name [r.x] that the config of a section [r] called [x] around the item has ([base] is the name
    of the folder of all configs). Paths below the item are fine: nothing is there. *)
Definition apart (base : string) (p q : list string) : Prop :=
  (forall t, p <> q ++ t) /\ (forall r t, p = r ++ t -> q <> r ++ [last r base]).

(** operations that have nothing to do with the item at [p] *)
Definition foreign (base : string) (p : list string) (op : rop) : Prop :=
  let ok q := apart base p (path_parts q) in
  match op with
  | RGet q | RRefresh q | RUpdate _ (Some q) _ _ | RReset (Some q) false | RRun _ (AStr q) => ok q
  | RRun _ (AList l) => forall q, In q l -> ok q
  | RUpdate _ None _ _ | RReset None _ | RReset (Some _) true => False
  end.

(** operations on the item itself, on the configs of the sections around it and on the local config. Not among them: what
    goes through a whole section (run, get, reset of a section around the item) and lists of runs with the item in them. *)
Definition own_op (path : string) (op : rop) : Prop :=
  match op with
  | RGet q | RRun _ (AStr q) | RReset (Some q) false => q = path
  | RUpdate _ (Some q) _ _ | RRefresh q => exists t, path_parts path = path_parts q ++ t
  | RUpdate _ None _ _ | RReset None _ => True
  | RRun _ (AList _) | RReset (Some _) true => False
  end.

(** two histories with the same operations on the item, and any others in between *)
Inductive same_own (base path : string) : list rop -> list rop -> Prop :=
| so_nil : same_own base path [] []
| so_own op l l' : own_op path op -> same_own base path l l' -> same_own base path (op :: l) (op :: l')
| so_left op l l' : foreign base (path_parts path) op -> same_own base path l l' -> same_own base path (op :: l) l'
| so_right op l l' : foreign base (path_parts path) op -> same_own base path l l' -> same_own base path l (op :: l').

(** the same function with the same arguments bound to it, or instances of the same class to which the same was done *)
Definition alike (o o' : lobj) : Prop :=
  match o, o' with
  | LPartial _ f b kw, LPartial _ f' b' kw' => f = f' /\ b = b' /\ kw = kw'
  | LInst _ k calls, LInst _ k' calls' => k = k' /\ calls = calls'
  | _, _ => False
  end.
Definition alike_opt (o o' : option lobj) : Prop :=
  match o, o' with Some x, Some y => alike x y | None, None => True | _, _ => False end.

(** the item is a function, a class or an instance *)
Definition is_thing (its : items) (path : string) : Prop :=
  exists b t, get_func_or_collection its path = Ok (b, FThing t).

(** The next run of the item: it calls the same, or fails in the same way before anything is called. The results are the same
    too if the user's code does not remember what was called before. *)
Definition blind (u : user) (path : string) : Prop :=
  forall h h' o o', alike o o' -> u_call u h path o = u_call u h' path o'.
Definition runs_alike (its : items) (u : user) (path : string) (s t : rs) : Prop :=
  forall set, let run := pm_run its u set (AStr path) in
  exists l l', r_calls (fst (run s)) = r_calls s ++ l /\ r_calls (fst (run t)) = r_calls t ++ l' /\
    Forall2 (fun c c' => fst c = path /\ fst c' = path /\ alike (snd c) (snd c')) l l' /\
    (l = [] \/ blind u path -> snd (run s) = snd (run t)).

(** Example: a section with a config of its own and two items, one of which fails when it is called. *)
Definition is_disk : dir :=
  Dir [("h.py", Ok [("x", VInt 1)])]
      [("sec", Dir [("section.py", Ok [("y", VInt 1)]); ("f.py", Ok [("x", VInt 1); ("y", VInt 0)]); ("g.py", Ok [("x", VInt 2)])] [])].
Definition is_items : items :=
  Items [] (Coll "base" [EColl (Coll "sec" [EItem "g" (TFunc (Fn "g" ["x"])); EItem "f" (TFunc (Fn "f" ["x"; "y"]))]); EItem "h" (TFunc (Fn "h" ["x"]))]).
Definition is_user : user :=
  User (fun calls path o => if String.eqb path "sec.g" then Raise (UserExn 1) else Ok (VInt (Z.of_nat (List.length calls)))) (fun _ _ => None) (fun _ => []) [].
Definition is_start : rs :=
  match runner_load "base" is_disk 0 with Ok s => s | Raise _ => RS (CMS (Sec "" None [] []) empty_config (Dir [] []) []) [] 0 [] end.
Definition is_busy : list rop :=
  [RRun Plain (AStr "h"); RUpdate None (Some "sec.g") true [("x", VInt 7)]; RUpdate None (Some "sec") true [("y", VInt 5)];
   RRun ForceContinue (AList ["sec.g"; "h"]); RGet "sec.f"; RReset (Some "sec.g") false; RRefresh "h";
   RUpdate (Some [("x", VInt 3)]) (Some "sec.f") true []; RUpdate None (Some "h") true [("x", VInt 9)]].
Definition is_idle : list rop :=
  [RUpdate None (Some "sec") true [("y", VInt 5)]; RGet "sec.f"; RUpdate (Some [("x", VInt 3)]) (Some "sec.f") true []].
(** the same without the failure *)
Definition is_user' : user := User (fun calls path o => Ok (VInt (Z.of_nat (List.length calls)))) (fun _ _ => None) (fun _ => []) [].
