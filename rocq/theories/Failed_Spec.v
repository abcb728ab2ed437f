(** Statements about what an operation that raises leaves behind (C94). *)
From Verif Require Export Runner_Model ConfigTree_Spec Runner_Spec Isolation_Spec.
From Coq Require Import ZArith.
Local Open Scope string_scope.
Local Open Scope list_scope.

(** Nothing is different: every path leads to the same config object, these have the same contents (a config whose file had not
    been read yet may have been read), the files are the same, and the same objects are loaded and have been called. *)
Definition as_before (s s' : rs) : Prop :=
  (forall q, target (r_cms s') q = target (r_cms s) q) /\ (forall r, current (r_cms s') r = current (r_cms s) r) /\
  cs_disk (r_cms s') = cs_disk (r_cms s) /\ r_loaded s' = r_loaded s /\ r_calls s' = r_calls s.

(** At most the config [r] is different; nothing was called. *)
Definition only_config (r : cref) (s s' : rs) : Prop :=
  (forall q, target (r_cms s') q = target (r_cms s) q) /\ (forall r', r' <> r -> current (r_cms s') r' = current (r_cms s) r') /\
  cs_disk (r_cms s') = cs_disk (r_cms s) /\ r_calls s' = r_calls s.

(** the arguments a class is given when the values [vals] are configured *)
Definition passed (k : callable) (vals args : dict pyval) : Prop :=
  forall x, dget x args = if mem x (f_args k) then dget x vals else None.

(** the object after the values have been given to it: a function is bound to the new values of its arguments, an instance is
    initialised once more *)
Definition given_values (vals : dict pyval) (o o' : lobj) : Prop :=
  match o, o' with
  | LPartial id f b kw, LPartial id' f' b' kw' =>
      id' = id /\ f' = f /\ b' = b /\
      forall k, dget k kw' = match dget k kw, dget k vals with None, _ => None | Some old, None => Some old | Some _, Some v => Some v end
  | LInst id k calls, LInst id' k' calls' => id' = id /\ k' = k /\ exists args, passed k vals args /\ calls' = calls ++ [args]
  | _, _ => False
  end.

(** The object at the path is an instance whose initialisation with the values raises [e]. *)
Definition init_raises (u : user) (path : string) (s : rs) (vals : dict pyval) (e : exn) : Prop :=
  exists id k calls args, dget path (r_loaded s) = Some (LInst id k calls) /\ passed k vals args /\ u_init u k args = Some e.

(** values that are equal to themselves when compared *)
Definition self_equal (d : dict pyval) : Prop := forall k v, dget k d = Some v -> values_are_equal v v = Ok true.

(** Example: a class that does not accept 7 for its argument [x]. *)
Definition fl_disk : dir := Dir [("m.py", Ok [("x", VInt 1); ("y", VInt 2)])] [].
Definition fl_class : callable := Fn "M" ["x"; "y"].
Definition fl_items : items := Items [] (Coll "base" [EItem "m" (TClass fl_class)]).
Definition fl_user : user :=
  User (fun _ _ _ => Ok VNone) (fun _ args => match dget "x" args with Some (VInt 7) => Some (UserExn 1) | _ => None end) (fun _ => []) [].
Definition fl_kind : user := User (fun _ _ _ => Ok VNone) (fun _ _ => None) (fun _ => []) [].
Definition fl_start : rs :=
  match runner_load "base" fl_disk 0 with Ok s => s | Raise _ => RS (CMS (Sec "" None [] []) empty_config (Dir [] []) []) [] 0 [] end.
Definition fl_loaded : rs := fst (runner_get fl_items fl_user "m" fl_start).
Definition fl_failed : rs := fst (runner_update fl_user None (Some "m") true [("x", VInt 7)] fl_loaded).
Definition fl_again : rs := fst (runner_update fl_kind None (Some "m") true [("x", VInt 7)] fl_failed).

(** the file says 7 after the item has been loaded with 1 *)
Definition fl_disk7 : dir := Dir [("m.py", Ok [("x", VInt 7); ("y", VInt 2)])] [].
Definition fl_edited : rs := let s := fl_loaded in RS (CMS (cs_root (r_cms s)) (cs_local (r_cms s)) fl_disk7 (cs_trace (r_cms s))) (r_loaded s) (r_next s) (r_calls s).
Definition fl_start7 : rs :=
  match runner_load "base" fl_disk7 0 with Ok s => s | Raise _ => fl_start end.
(** code that fails when it is called *)
Definition fl_crash : user := User (fun _ _ _ => Raise (UserExn 2)) (fun _ _ => None) (fun _ => []) [].
