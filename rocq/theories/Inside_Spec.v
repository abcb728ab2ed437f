(** Statements about functions that use the manager while they run (C100). *)
From Verif Require Export Inside_Model Parts_Spec Iterate_Spec.
From Coq Require Import ZArith Permutation.
Local Open Scope string_scope.
Local Open Scope list_scope.

(** the items run for a path: those of C98, or none if there is nothing at the path that can be run *)
Inductive leads (its : items) : string -> list string -> Prop :=
| leads_to p ps : stands_for its p ps -> leads its p ps
| leads_nowhere p : ~ is_thing its p -> (forall c, get_func_or_collection its p <> Ok (false, FColl c)) -> leads its p [].
(** all sections contain functions and sections only, with proper names *)
Definition sections_run (its : items) : Prop :=
  forall p c, get_func_or_collection its p = Ok (false, FColl c) -> names_ok c /\ ~ In SFail (section_plan p c).

Definition functions_only (c : coll) : Prop := forall p, ~ In SFail (section_plan p c).

Definition changes (op : rop) : Prop := match op with RUpdate _ _ _ _ | RReset _ _ | RRefresh _ => True | _ => False end.
Definition run_alone (q : string) : rop := RRun Plain (AStr q).

(** What an operation amounts to: a list of operations with functions that do not use the manager. A run is the runs of its items, each
    followed by what the operations in its body amount to; an update, reset or refresh is followed by refreshes of the items that
    depend on the changed one. *)
Section Amounts.
Variable base : string.
Variable its : items.
Variable u : user.
Variable progs : list (string * lobj) -> string -> lobj -> prog.
Variable order : list string -> list string.
Definition next (d : nat) (top : option string) (op : rop) (s : ns) : ns := fst (in_op base its u progs order d top op s).
Definition said (d : nat) (top : option string) (op : rop) (s : ns) : res answer := snd (in_op base its u progs order d top op s).
Definition does (op : rop) (s : ns) : ns := NS (rop_run base its u (n_rs s) op) (n_deps s).
(** the hook for changed configs is called for [p] *)
Definition reports (op : rop) (s : ns) (p : string) : Prop :=
  exists evs ups, cs_trace (r_cms (n_rs (does op s))) = cs_trace (r_cms (n_rs s)) ++ evs ++ [EvPost p ups].
(** the items depending on [p], in some order *)
Definition depending (s : ns) (p : string) (qs : list string) : Prop :=
  Permutation qs (flat_map (fun d => if String.eqb (fst d) p then [snd d] else []) (n_deps s)).

Inductive amounts : nat -> option string -> ns -> rop -> list rop -> Prop :=
| am_get d top s p : amounts d top s (RGet p) [RGet p]
| am_alone d top s op : changes op -> (forall p, ~ reports op s p) -> amounts d top s op [op]
| am_change d top s op p qs rest l : changes op -> reports op s p -> depending s p (qs ++ rest) ->
    refreshed d top (does op s) qs l -> (forall a, said d top op s = Ok a -> rest = []) -> amounts d top s op (op :: l)
| am_run d top s set a pss qss l : Forall2 (leads its) (asked_for a) pss -> Forall2 beginning qss pss -> each d top s (concat qss) l ->
    (set = Plain -> forall r, said d top (RRun set a) s = Ok r -> qss = pss) -> amounts d top s (RRun set a) l
with each : nat -> option string -> ns -> list string -> list rop -> Prop :=
| ea_nil d top s : each d top s [] []
| ea_cons d top s q qs l l' : one d s q l -> each d top (next d top (run_alone q) s) qs l' -> each d top s (q :: qs) (l ++ l')
with one : nat -> ns -> string -> list rop -> Prop :=
| one_fails d s q : r_calls (n_rs (does (run_alone q) s)) = r_calls (n_rs s) -> one d s q [run_alone q]
| one_calls d s q o l : r_calls (n_rs (does (run_alone q) s)) = r_calls (n_rs s) ++ [(q, o)] ->
    script d q (does (run_alone q) s) (progs (r_calls (n_rs s)) q o) l -> one d s q (run_alone q :: l)
with script : nat -> string -> ns -> prog -> list rop -> Prop :=
| sc_done d f s r : script d f s (Done r) []
| sc_deep f s op k l : script 0 f s (k (Raise RecursionError)) l -> script 0 f s (Use op k) l
| sc_use d f s op k l l' : amounts d (Some f) s op l -> script (S d) f (next d (Some f) op s) (k (said d (Some f) op s)) l' ->
    script (S d) f s (Use op k) (l ++ l')
with refreshed : nat -> option string -> ns -> list string -> list rop -> Prop :=
| re_nil d top s : refreshed d top s [] []
| re_cons d top s q qs l l' : amounts d top s (RRefresh q) l -> refreshed (S d) top (next d top (RRefresh q) s) qs l' ->
    refreshed (S d) top s (q :: qs) (l ++ l').

Scheme amounts_ind2 := Minimality for amounts Sort Prop
with each_ind2 := Minimality for each Sort Prop
with one_ind2 := Minimality for one Sort Prop
with script_ind2 := Minimality for script Sort Prop
with refreshed_ind2 := Minimality for refreshed Sort Prop.
Combined Scheme amounts_all_ind from amounts_ind2, each_ind2, one_ind2, script_ind2, refreshed_ind2.

(** a history of operations by the user, where nothing is running *)
Inductive amount_all (d : nat) : ns -> list rop -> list rop -> Prop :=
| all_nil s : amount_all d s [] []
| all_cons s op ops l l' : amounts d None s op l -> amount_all d (next d None op s) ops l' -> amount_all d s (op :: ops) (l ++ l').
Definition history (d : nat) (ops : list rop) (s : ns) : ns := fold_left (fun s op => next d None op s) ops s.
End Amounts.

(** all operations a function may use are of a kind *)
Inductive only (P : rop -> Prop) : prog -> Prop :=
| only_done r : only P (Done r)
| only_use op k : P op -> (forall a, only P (k a)) -> only P (Use op k).

(** user functions that do not use the manager, and the answers of [Runner_Model] *)
Definition plainly (f : list (string * lobj) -> string -> lobj -> res pyval) : list (string * lobj) -> string -> lobj -> prog :=
  fun h q o => Done (f h q o).
Definition plain_answer (base : string) (its : items) (u : user) (op : rop) (s : rs) : res answer :=
  let none (r : res unit) := match r with Ok _ => Ok AnNone | Raise e => Raise e end in
  match op with
  | RGet p => match snd (runner_get its u p s) with Ok g => Ok (AnGot g) | Raise e => Raise e end
  | RRun set a => match snd (pm_run its u set a s) with Ok r => Ok (AnRun r) | Raise e => Raise e end
  | RUpdate d p b kw => none (snd (runner_update u d p b kw s))
  | RReset p ac => none (snd (runner_reset base u p ac s))
  | RRefresh p => none (snd (runner_refresh u p s))
  end.

(** Example: three functions; what they do is given by a table. *)
Definition id_disk : dir :=
  Dir [("g.py", Ok [("x", VInt 1); ("y", VInt 0)])]
      [("sec", Dir [("a.py", Ok [("x", VInt 1); ("y", VInt 0)]); ("b.py", Ok [("x", VInt 1); ("y", VInt 0)])] [])].
Definition id_items : items :=
  Items [] (Coll "base" [EItem "g" (TFunc (Fn "g" ["x"; "y"]));
                         EColl (Coll "sec" [EItem "a" (TFunc (Fn "a" ["x"; "y"])); EItem "b" (TFunc (Fn "b" ["x"; "y"]))])]).
Definition id_start : ns :=
  NS match runner_load "base" id_disk 0 with Ok s => s | Raise _ => RS (CMS (Sec "" None [] []) empty_config (Dir [] []) []) [] 0 [] end [].
Definition id_progs (table : dict prog) (h : list (string * lobj)) (q : string) (o : lobj) : prog :=
  match dget q table with Some p => p | None => Done (Ok VNone) end.
Definition and_then (op : rop) (p : prog) : prog := Use op (fun _ => p).
(** passing exceptions on *)
Definition or_fail (op : rop) (p : prog) : prog := Use op (fun a => match a with Ok _ => p | Raise e => Done (Raise e) end).
Definition finished : prog := Done (Ok VNone).
Definition set_y (q : string) (v : Z) : rop := RUpdate None (Some q) true [("y", VInt v)].
Definition try_y (q : string) (v : Z) : rop := RUpdate None (Some q) false [("y", VInt v)].
Definition id_then (d : nat) (table : dict prog) (ops : list rop) : ns :=
  history "base" id_items is_user (id_progs table) (fun l => l) d ops id_start.
Definition id_said (d : nat) (table : dict prog) (ops : list rop) (op : rop) : res answer :=
  said "base" id_items is_user (id_progs table) (fun l => l) d None op (id_then d table ops).
Definition id_calls (s : ns) : list (string * option pyval) := map (fun c => (fst c, dget "y" (arguments (snd c)))) (r_calls (n_rs s)).
