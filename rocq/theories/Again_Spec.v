(** Statements about doing an operation again, doing two updates at once, and undoing an update (C97). *)
From Verif Require Export Failed_Spec.
From Verif Require Import Iterate_Spec LastSet_Spec.
From Coq Require Import ZArith.
Local Open Scope string_scope.
Local Open Scope list_scope.

(** Nothing is different and no hook was called. *)
Definition nothing_happens (s s' : rs) : Prop := as_before s s' /\ cs_trace (r_cms s') = cs_trace (r_cms s).

(** everything an update asks for, and everything two updates ask for together *)
Definition asked (d : option (dict pyval)) (kw : dict pyval) : dict pyval := dupdate (opt_dict d) kw.
Definition asked_together (d : option (dict pyval)) (kw : dict pyval) (d' : option (dict pyval)) (kw' : dict pyval) : dict pyval :=
  dupdate (asked d kw) (asked d' kw').

(** the names are all in the config already, and all values can be compared *)
Definition all_known (c : config) (us : dict pyval) : Prop := forall k, dmem k us = true -> dmem k (c_vals c) = true.
Definition comparable (c : config) (us : dict pyval) : Prop := plain_dict (c_vals c) /\ plain_dict us.

(** equal contents: the same names, with values that Python considers equal *)
Definition equal_values (d d' : dict pyval) : Prop :=
  forall k, match dget k d, dget k d' with Some v, Some w => same_value v w | None, None => True | _, _ => False end.

(** the values that the names of an update had before *)
Definition old_values (c : config) (us old : dict pyval) : Prop :=
  dwf old /\ forall k, dget k old = if dmem k us then dget k (c_vals c) else None.

(** Examples: an array as value; the file sets [E]; two arguments. *)
Definition ag_start : rs := fl_start.
Definition ag_array : dict pyval := [("y", VInt 3); ("x", VArray 0)].
Definition ag_odd : dict pyval := [("x", VBadEq 0)].
Definition ag_diskE (x : Z) (e : pyval) : dir := Dir [("m.py", Ok [("x", VInt x); ("E", e)])] [].
Definition ag_startE : rs :=
  match runner_load "base" (ag_diskE 1 (VInt 5)) 0 with Ok s => s | Raise _ => fl_start end.
Definition ag_E : rs :=
  let s := fst (runner_get fl_items fl_kind "m" ag_startE) in
  RS (CMS (cs_root (r_cms s)) (cs_local (r_cms s)) (ag_diskE 2 VNone) (cs_trace (r_cms s))) (r_loaded s) (r_next s) (r_calls s).
Definition ag_x (s : rs) : option pyval := match current (r_cms s) (CItem ["m"]) with Some c => dget "x" (c_vals c) | None => None end.
Definition ag_new (s : rs) : option pyval := match current (r_cms s) (CItem ["m"]) with Some c => dget "new" (c_vals c) | None => None end.
Definition ag_up (persist : bool) (kw : dict pyval) (s : rs) : rs := fst (runner_update fl_kind None (Some "m") persist kw s).
