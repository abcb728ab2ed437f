(** Specification vocabulary for C07-C09. *)
From Verif Require Import Config_Model.
Local Open Scope list_scope.

(** [k] is stored and the update gives it a value that compares unequal *)
Definition really_changes (vals updates : dict pyval) : Prop :=
  exists k old new, dget k vals = Some old /\ dget k updates = Some new /\ values_are_equal old new = Ok false.

(** no comparison the update needs is without a truth value *)
Definition comparable (vals updates : dict pyval) : Prop :=
  forall k old new, dget k vals = Some old -> dget k updates = Some new ->
    exists b, values_are_equal old new = Ok b.

(** the keyword names that collide with parameters of the library's own functions *)
Definition no_clash (names : list string) (d : dict pyval) : Prop :=
  forall n, In n names -> dget n d = None.

(** Histories of one item: updates through the manager (persistent or transient), edits of the config
    file by the user, refreshes. *)
Inductive hop : Type :=
| HUpdate (d : option (dict pyval)) (persist : bool) (kwargs : dict pyval)
| HEdit (content : dict pyval)
| HRefresh.

(** one step on (config, file content); the flag says whether the library reported a change *)
Definition hstep (st : config * dict pyval) (o : hop) : (config * dict pyval) * bool :=
  let '(c, file) := st in
  match o with
  | HUpdate d p kw => match cfg_checked_update c d p kw with
                      | Ok (c', b) => ((c', file), b)
                      | Raise _ => ((c, file), false)
                      end
  | HEdit content => ((c, content), false)
  | HRefresh => match cfg_checked_refresh c file with
                | Ok (c', b, _) => ((c', file), b)
                | Raise _ => ((c, file), false)
                end
  end.

(** final state and the log of operations with their reported outcome, oldest first *)
Fixpoint hrun (st : config * dict pyval) (ops : list hop) : (config * dict pyval) * list (hop * bool) :=
  match ops with
  | [] => (st, [])
  | o :: rest => let '(st', b) := hstep st o in
                 let '(st'', log) := hrun st' rest in (st'', (o, b) :: log)
  end.

(** the value given to [k] by the newest persistent update in the log that was reported as a change *)
Fixpoint last_persisted (k : string) (log : list (hop * bool)) : option pyval :=
  match log with
  | [] => None
  | (o, b) :: rest =>
      match last_persisted k rest with
      | Some v => Some v
      | None => match o, b with
                | HUpdate d true kw, true =>
                    match dget k kw with
                    | Some v => Some v
                    | None => match d with Some d => dget k d | None => None end
                    end
                | _, _ => None
                end
      end
  end.

Definition hop_wf (o : hop) : Prop :=
  match o with
  | HUpdate d _ kw => dwf (opt_dict d) /\ dwf kw
  | HEdit content => dwf content
  | HRefresh => True
  end.
