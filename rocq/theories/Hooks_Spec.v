(** What is done and what is not when a hook raises (C107), said without the functions of the model: as relations between the state
    before, what happens, and the state after. *)
From Verif Require Export Hooks_Model.
Local Open Scope string_scope.
Local Open Scope list_scope.

(** the exceptions with which a user leaves the program or the debugger *)
Definition leaves (e : exn) : Prop := e = KeyboardInterrupt \/ e = SystemExit \/ e = LibExn "BdbQuit".

Section S.
Context {W : Type}.

(** all hooks return; [l]: what those that return something return *)
Inductive answers {A} : list (M W (option A)) -> W -> list A -> W -> Prop :=
| an_nil s : answers [] s [] s
| an_none h hs s s1 l s2 : h s = (s1, Ok None) -> answers hs s1 l s2 -> answers (h :: hs) s l s2
| an_some h hs s s1 a l s2 : h s = (s1, Ok (Some a)) -> answers hs s1 l s2 -> answers (h :: hs) s (a :: l) s2.
(** a hook raises; those before it have been called, those after it are not *)
Definition raised {A} (hs : list (M W (option A))) (s : W) (e : exn) (s' : W) : Prop :=
  exists h1 h h2 l s1, hs = h1 ++ h :: h2 /\ answers h1 s l s1 /\ h s1 = (s', Raise e).

(** programs for a list, all of which return *)
Inductive done {B C} (f : B -> M W C) : list B -> W -> list C -> W -> Prop :=
| dn_nil s : done f [] s [] s
| dn_cons x xs s s1 c cs s2 : f x s = (s1, Ok c) -> done f xs s1 cs s2 -> done f (x :: xs) s (c :: cs) s2.
(** one of them raises *)
Definition broke {B C} (f : B -> M W C) (l : list B) (s : W) (e : exn) (s' : W) : Prop :=
  exists l1 x l2 cs s1, l = l1 ++ x :: l2 /\ done f l1 s cs s1 /\ f x s1 = (s', Raise e).

(* ------------------------------------------------------------------ *)
(** * Runs *)

(** hooks that change the cases: each gets what the one before it left *)
Inductive modified {case} : list (list case -> M W (list case)) -> list case -> W -> list case -> W -> Prop :=
| mo_nil cs s : modified [] cs s cs s
| mo_cons h hs cs s cs1 s1 cs2 s2 : h cs s = (s1, Ok cs1) -> modified hs cs1 s1 cs2 s2 -> modified (h :: hs) cs s cs2 s2.
(** a case that is run: filled with the defaults, updated for by the hooks, run, and noted as the last one *)
Definition case_ran {case defaults} (update_for_case : list (case -> M W (option unit))) (fill : defaults -> case -> res case) (run_all : M W result)
    (set_last : case -> M W unit) (d : defaults) (c : case) (s : W) (r : result) (s' : W) : Prop :=
  exists filled l s1 s2, fill d c = Ok filled /\ answers (map (fun h => h filled) update_for_case) s l s1 /\
    run_all s1 = (s2, Ok r) /\ set_last filled s2 = (s', Ok tt).
(** an iteration: each case that is to be run is run, the others are passed over; results are kept under the case as it was given *)
Inductive iterated {case} (should_run : case -> M W bool) (ran : case -> W -> result -> W -> Prop) : list case -> W -> list (case * result) -> W -> Prop :=
| it_nil s : iterated should_run ran [] s [] s
| it_not c cs s s1 l s2 : should_run c s = (s1, Ok false) -> iterated should_run ran cs s1 l s2 -> iterated should_run ran (c :: cs) s l s2
| it_run c cs s s1 r s2 l s3 : should_run c s = (s1, Ok true) -> ran c s1 r s2 -> iterated should_run ran cs s2 l s3 ->
    iterated should_run ran (c :: cs) s ((c, r) :: l) s3.

Section R.
Variable one : string -> M W result.
Variable post_run : list (result -> M W (option result)).
Definition given (a : run_arg) : list string := match a with AStr p => [p] | AList l => l end.

(** one item, and the hooks after it *)
Inductive one_run (p : string) (s : W) : res result -> W -> Prop :=
| or_item e s1 : one p s = (s1, Raise e) -> one_run p s (Raise e) s1
| or_hook r s1 e s2 : one p s = (s1, Ok r) -> raised (map (fun h => h r) post_run) s1 e s2 -> one_run p s (Raise e) s2
| or_same r s1 s2 : one p s = (s1, Ok r) -> answers (map (fun h => h r) post_run) s1 [] s2 -> one_run p s (Ok r) s2
| or_more r s1 x xs s2 : one p s = (s1, Ok r) -> answers (map (fun h => h r) post_run) s1 (x :: xs) s2 ->
    one_run p s (Ok (RList (r :: x :: xs))) s2.
(** several items, and the hooks after all of them *)
Inductive many_run (ps : list string) (s : W) : res result -> W -> Prop :=
| mr_item e s1 : broke one ps s e s1 -> many_run ps s (Raise e) s1
| mr_hook rs s1 e s2 : done one ps s rs s1 -> raised (map (fun h => h (RList rs)) post_run) s1 e s2 -> many_run ps s (Raise e) s2
| mr_done rs s1 xs s2 : done one ps s rs s1 -> answers (map (fun h => h (RList rs)) post_run) s1 xs s2 ->
    many_run ps s (Ok (RList (rs ++ xs))) s2.
(** one path is run as such, however it was given *)
Definition run_of (ps : list string) (s : W) (r : res result) (s' : W) : Prop :=
  match ps with [p] => one_run p s r s' | _ => many_run ps s r s' end.

(** with force_continue: each item is run with the hooks after it; an exception is reported, whether it is raised by the item or by a hook *)
Inductive forced : list string -> W -> list result -> list (string * exn) -> W -> Prop :=
| fo_nil s : forced [] s [] [] s
| fo_ok p ps s r s1 rs es s2 : one_run p s (Ok r) s1 -> forced ps s1 rs es s2 -> forced (p :: ps) s (r :: rs) es s2
| fo_failed p ps s e s1 rs es s2 : one_run p s (Raise e) s1 -> ~ leaves e -> forced ps s1 rs es s2 ->
    forced (p :: ps) s rs ((p, e) :: es) s2.
Definition forced_left (ps : list string) (s : W) (s' : W) : Prop :=
  exists ps1 p ps2 rs es s1 e, ps = ps1 ++ p :: ps2 /\ forced ps1 s rs es s1 /\ one_run p s1 (Raise e) s' /\ leaves e.
Definition forced_result (ps : list string) (rs : list result) : result :=
  match ps, rs with [_], [r] => r | _, _ => RList rs end.
End R.
End S.

(* ------------------------------------------------------------------ *)
(** * Examples: the state is the list of what was done *)

Definition log : Type := list string.
Definition say {A} (x : string) (a : A) : M log A := fun s => (s ++ [x], Ok a).
Definition say_raise {A} (x : string) (e : exn) : M log A := fun s => (s ++ [x], Raise e).
Definition hx_item (p : string) : M log result := say p (RVal (VStr p)).
Definition hx_debug : M log unit := say "debug" tt.
(** a hook after a run that raises for the result of f *)
Definition hx_picky (r : result) : M log (option result) :=
  match r with RVal (VStr p) => if String.eqb p "f" then say_raise "hook" (UserExn 1) else say "hook" None | _ => say "hook" None end.

(** an update of an item the hook before it has looked at, or not *)
Definition hx_step (x : string) : M log unit := if String.eqb x "bad" then say_raise x KeyError else say x tt.
Definition hx_do (x : updates) : M log unit := say "update" tt.

(** b.y is a.x + 1 *)
Module HooksEx.
Import Deps_Model.
Definition file (i : string) : prog nat :=
  if String.eqb i "a" then Ret [("x", 1)] else if String.eqb i "b" then Read "a" "x" (fun v => Ret [("y", v + 1)]) else Fail KeyError.
Definition init (c : dict nat) : dict nat :=
  flat_map (fun k => match dget k c with Some v => [(k, v)] | None => [] end) ["x"; "y"].
Definition two : user nat := User nat Nat.eqb file (fun _ => []) (fun _ c => Ok (init c)) (fun _ _ c => Ok (init c)) (fun _ l => l).
Definition start : st nat := fst (load two 5 "b" (St [] [] [])).
End HooksEx.
