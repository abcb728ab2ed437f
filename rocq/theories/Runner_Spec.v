(** Specification vocabulary for C18-C25 and C27. *)
From Verif Require Import Runner_Model ConfigTree_Spec.
Local Open Scope list_scope.

(** public operations on a loaded manager *)
Inductive rop : Type :=
| RGet (path : string)
| RRun (set : setting) (a : run_arg)
| RUpdate (d : option (dict pyval)) (path : option string) (persist : bool) (kwargs : dict pyval)
| RReset (path : option string) (allow_create : bool)
| RRefresh (path : string).

Definition rop_run (base : string) (its : items) (u : user) (s : rs) (op : rop) : rs :=
  match op with
  | RGet path => fst (runner_get its u path s)
  | RRun set a => fst (pm_run its u set a s)
  | RUpdate d path persist kw => fst (runner_update u d path persist kw s)
  | RReset path ac => fst (runner_reset base u path ac s)
  | RRefresh path => fst (runner_refresh u path s)
  end.

(** One and the same Python object, possibly changed in between: a partial keeps its function and the set of
    its bound arguments; an instance keeps what was done to it. *)
Definition same_object (o o' : lobj) : Prop :=
  match o, o' with
  | LPartial i f b kw, LPartial i' f' b' kw' => i' = i /\ f' = f /\ b' = b /\ dkeys kw' = dkeys kw
  | LInst i k calls, LInst i' k' calls' => i' = i /\ k' = k /\ exists more, calls' = calls ++ more
  | _, _ => False
  end.

(** what the item at a path is *)
Definition is_func (its : items) (path : string) (f : callable) : Prop :=
  exists b, get_func_or_collection its path = Ok (b, FThing (TFunc f)).
Definition is_class (its : items) (path : string) (k : callable) : Prop :=
  exists b, get_func_or_collection its path = Ok (b, FThing (TClass k)).

(** identities are really identities: every loaded object has its own, and new ones are unused *)
Definition ids_ok (s : rs) : Prop :=
  (forall p o, dget p (r_loaded s) = Some o -> lobj_id o < r_next s) /\
  (forall p q o o', dget p (r_loaded s) = Some o -> dget q (r_loaded s) = Some o' -> lobj_id o = lobj_id o' -> p = q).

(** every dict in the state has distinct keys (an invariant of all operations, see ConfigWf_Proofs) *)
Definition rs_wf (s : rs) : Prop := cms_wf (r_cms s).

(** keyword arguments bound in a loaded function *)
Definition bound (o : lobj) : option (dict pyval) :=
  match o with LPartial _ _ _ kw => Some kw | LInst _ _ _ => None end.

(** the loaded function agrees with the item's stored config *)
Definition in_sync (s : rs) (path : string) (kw : dict pyval) : Prop :=
  forall own, own_values (r_cms s) (path_parts path) = Some own ->
  forall k v, dget k kw = Some v -> dget k own = Some v.
