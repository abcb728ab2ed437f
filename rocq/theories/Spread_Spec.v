(** What it means that hooks are told of a change as it spreads (C108). *)
From Verif Require Export Spread_Model.
Local Open Scope string_scope.
Local Open Scope list_scope.

Section S.
Context {V : Type}.

(** What is told in refreshing or updating an item without exception: nothing; that its config is about to change (its object is not
    loaded); or that it is about to change, then the user's hooks that it has changed, then what is told for dependents, in the end
    the installed hooks that it has changed. [F i j]: j depends on i; [N i]: the object of i is not loaded. *)
Inductive told (F : string -> string -> Prop) (N : string -> Prop) : string -> list (ev V) -> Prop :=
| told_nothing i : told F N i []
| told_before i v ups : N i -> told F N i [Ev Before i v ups]
| told_all i v ups v1 v2 ups1 k : told_deps F N i k ->
    told F N i (Ev Before i v ups :: Ev Users i v1 ups1 :: k ++ [Ev Installed i v2 ups1])
with told_deps (F : string -> string -> Prop) (N : string -> Prop) : string -> list (ev V) -> Prop :=
| td_nil i : told_deps F N i []
| td_cons i j k ks : F i j -> told F N j k -> told_deps F N i ks -> told_deps F N i (k ++ ks).

(** Dependents and loaded objects *)
Definition dep (s : st V) (i j : string) : Prop := In j (dependents i s).
Definition unloaded (s : st V) (i : string) : Prop := dget i (objs s) = None.

(** What hooks are told before a change is no lie: some value of the config is to be changed to a different one. *)
Definition would_change (u : user V) (e : ev V) : Prop :=
  exists v k x y, e_vals e = Some v /\ dget k v = Some x /\ In (k, y) (e_updates e) /\ u_eq u x y = false.
(** What hooks are told after a change: the config has the values of the updates, except where the sections give one *)
Definition has_changed (u : user V) (e : ev V) : Prop :=
  exists v, e_vals e = Some v /\ forall k x, dget k (e_updates e) = Some x -> dget k (dict_of (u_inherited u (e_item e))) = None -> dget k v = Some x.

(** From one state to the next the values of all configs are the same, except where hooks were told before *)
Definition announced (s : st V) (k : list (ev V)) (s' : st V) : Prop :=
  forall j c, dget j (cfgs s) = Some c -> exists c', dget j (cfgs s') = Some c' /\
    (vals c' = vals c \/ exists e, In e k /\ e_when e = Before /\ e_item e = j).
End S.

(** a.x is given, b.y = a.x + 1, c.z = b.y + 1; [w] is a value the section of c gives *)
Definition sp_file (i : string) : prog nat :=
  if String.eqb i "a" then Ret [("x", 1)]
  else if String.eqb i "b" then Read "a" "x" (fun v => Ret [("y", v + 1)])
  else if String.eqb i "c" then Read "b" "y" (fun v => Ret [("z", v + 1); ("w", 0)])
  else Fail KeyError.
Definition sp_init (c : dict nat) : dict nat :=
  flat_map (fun k => match dget k c with Some v => [(k, v)] | None => [] end) ["x"; "y"; "z"; "w"].
Definition sp_user : user nat :=
  User nat Nat.eqb sp_file (fun i => if String.eqb i "c" then [("w", 7)] else []) (fun _ c => Ok (sp_init c)) (fun _ _ c => Ok (sp_init c)) (fun _ l => l).
Definition sp_start : st nat := fst (load sp_user 6 "c" (St [] [] [])).
(** after x of a, or w of c, is updated *)
Definition sp_after (i : string) (d : list (string * nat)) (s : st nat) : st nat := fst (update sp_user 6 i d true s).
Definition sp_silent (l : list (ev nat)) (e : ev nat) : option exn := None.
(** a hook after changes that does not want b to change *)
Definition sp_not_b (l : list (ev nat)) (e : ev nat) : option exn :=
  match e_when e with Users => if String.eqb (e_item e) "b" then Some ValueError else None | _ => None end.
Definition sp_log (k : list (ev nat)) : list (when * string) := map (fun e => (e_when e, e_item e)) k.
