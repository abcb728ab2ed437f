(** Statements about the value that counts in a run: the one set last (C95). *)
From Verif Require Export Runner_Model ConfigTree_Spec Runner_Spec Isolation_Spec.
From Verif Require Import Iterate_Spec.
From Coq Require Import ZArith.
Local Open Scope string_scope.
Local Open Scope list_scope.

(** the item is a function, a class or an instance with the signature [x] *)
Definition item_of (its : items) (path : string) (x : callable) : Prop :=
  exists b t, get_func_or_collection its path = Ok (b, FThing t) /\ (t = TFunc x \/ t = TClass x \/ t = TInst x).

(** A config says nothing about the key: not in its values, not among the updates it remembers, not in its file. *)
Definition silent (k : string) (disk : dir) (c : config) : Prop :=
  dget k (c_vals c) = None /\ dget k (c_applied c) = None /\
  forall ref content, c_file c = Some ref -> read_file disk ref = Ok content -> dget k content = None.

(** none of the configs that override the item's does: the local config, those of the sections around it, the project's *)
Definition unset_around (k : string) (p : list string) (st : cms) : Prop :=
  silent k (cs_disk st) (cs_local st) /\
  forall q t c, p = q ++ t -> t <> [] -> current st (CSec q) = Some c -> silent k (cs_disk st) c.

(** what an update gives for the key: keywords come after the dictionary *)
Definition gives (k : string) (d : option (dict pyval)) (kw : dict pyval) : option pyval :=
  match dget k kw, d with
  | Some v, _ => Some v
  | None, Some e => dget k e
  | None, None => None
  end.

(** The operations of a history:
    - anything done to other items,
    - gets, runs, updates and resets of the item, where an update gives ordinary values for the key,
    - updates that leave the key alone for the configs around the item and the local config, and their refreshes and resets,
    - refreshes of the item, if all updates of the key are persistent ([kept]). *)
Definition allowed (kept : bool) (base path k : string) (op : rop) : Prop :=
  foreign base (path_parts path) op \/
  match op with
  | RGet q | RRun _ (AStr q) | RReset (Some q) false => q = path
  | RUpdate d (Some q) persist kw =>
      dwf kw /\ dwf (match d with Some e => e | None => [] end) /\
      (q = path /\ (forall v, gives k d kw = Some v -> plain v = true /\ (kept = true -> persist = true)) \/
       q <> path /\ (exists t, path_parts path = path_parts q ++ t) /\ gives k d kw = None)
  | RUpdate d None _ kw => dwf kw /\ dwf (match d with Some e => e | None => [] end) /\ gives k d kw = None
  | RReset None _ => True
  | RRefresh q => (exists t, path_parts path = path_parts q ++ t) /\ (q = path -> kept = true)
  | RRun _ (AList _) | RReset (Some _) true => False
  end.

(** the updates and resets of the item went through (for those that do not: C94) *)
Definition went_through (base : string) (its : items) (u : user) (path : string) (s : rs) (op : rop) : Prop :=
  match op with
  | RUpdate d (Some q) persist kw => q = path -> snd (runner_update u d (Some q) persist kw s) = Ok tt
  | RReset (Some q) ac => q = path -> snd (runner_reset base u (Some q) ac s) = Ok tt
  | _ => True
  end.
Fixpoint all_through (base : string) (its : items) (u : user) (path : string) (s : rs) (ops : list rop) : Prop :=
  match ops with
  | [] => True
  | op :: rest => went_through base its u path s op /\ all_through base its u path (rop_run base its u s op) rest
  end.

(** The value that was set last: by an update of the item, or the file's again after a reset. *)
Fixpoint last_set (path k : string) (file now : pyval) (ops : list rop) : pyval :=
  match ops with
  | [] => now
  | RUpdate d (Some q) _ kw :: rest =>
      last_set path k file (if String.eqb q path then match gives k d kw with Some v => v | None => now end else now) rest
  | RReset (Some q) _ :: rest => last_set path k file (if String.eqb q path then file else now) rest
  | _ :: rest => last_set path k file now rest
  end.

(** Example: the project of C92, the argument [x] of [sec.f] *)
Definition ls_ops : list rop :=
  [RRun Plain (AStr "sec.f"); RUpdate None (Some "sec.f") true [("x", VInt 2)]; RUpdate None (Some "sec.g") true [("x", VInt 7)];
   RUpdate None (Some "sec") true [("y", VInt 5)]; RRun ForceContinue (AList ["sec.g"; "h"]); RRefresh "sec.f";
   RUpdate (Some [("x", VInt 3)]) (Some "sec.f") true [("y", VInt 4)]; RGet "sec.f"; RRefresh "sec"; RUpdate None None true [("y", VInt 6)]].
Definition ls_then (ops : list rop) : rs := fold_left (rop_run "base" is_items is_user) ops is_start.
(** the argument [x] of the calls of [sec.f] *)
Definition ls_calls (s : rs) : list (option pyval) :=
  map (fun c => dget "x" (arguments (snd c))) (filter (fun c => String.eqb (fst c) "sec.f") (r_calls s)).
(** the same project where the file of [sec.f] does not mention [x] *)
Definition ls_disk : dir := Dir [] [("sec", Dir [("f.py", Ok [("y", VInt 0)])] [])].
Definition ls_start : rs :=
  match runner_load "base" ls_disk 0 with Ok s => s | Raise _ => is_start end.
