(** Vocabulary for resets (C110). *)
From Verif Require Export Undo_Model Deps_Spec Spread_Spec.
Local Open Scope string_scope.
Local Open Scope list_scope.

Section S.
Context {V : Type}.

(** The config of [i], if there is one, is as the file left it: no updates are remembered and there are no names but those of the file. *)
Definition untouched (keys : string -> string -> bool) (s : st V) (i : string) : Prop :=
  forall c, dget i (cfgs s) = Some c -> applied c = [] /\ forall k, keys i k = false -> dget k (vals c) = None.

(** Loads and refreshes of anything; updates of [i] that give values to names of its file, and resets of [i]. *)
Definition only_changes (keys : string -> string -> bool) (i : string) (t : step V) : Prop :=
  match t with
  | Op (Load _) => True
  | Op (Refresh _) => True
  | Op (Update j d persist) => j = i /\ persist = true /\ forall k v, In (k, v) d -> keys i k = true
  | Reset j => j = i
  end.

(** What is loaded in both states has the same values. *)
Definition same_world (s s' : st V) : Prop := forall x,
  (forall c c', dget x (cfgs s) = Some c -> dget x (cfgs s') = Some c' -> same_values (vals c) (vals c')) /\
  (forall o o', dget x (objs s) = Some o -> dget x (objs s') = Some o' -> o = o').

Definition persisted (t : step V) : Prop := match t with Op (Update _ _ p) => p = true | _ => True end.
End S.

(** a.x = 1, b.y = a.x + 1, c.z = b.y + 1, c.w = 0; no sections give values *)
Definition un_user : user nat := User nat Nat.eqb sp_file (fun _ => []) (fun _ c => Ok (sp_init c)) (fun _ _ c => Ok (sp_init c)) (fun _ l => l).
Definition un_rank (i : string) : nat := if String.eqb i "b" then 1 else if String.eqb i "c" then 2 else 0.
Definition un_keys (i k : string) : bool :=
  if String.eqb i "a" then String.eqb k "x"
  else if String.eqb i "b" then String.eqb k "y"
  else if String.eqb i "c" then orb (String.eqb k "z") (String.eqb k "w") else false.
Definition un_start : st nat := fst (load un_user 6 "c" empty_st).
Definition un_after (l : list (step nat)) : st nat := fst (steps_run un_user 6 l un_start).
Definition un_set (i k : string) (v : nat) : step nat := Op (Update i [(k, v)] true).
Definition un_obj (s : st nat) (i : string) : option (dict nat) := dget i (objs s).
