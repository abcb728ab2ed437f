(** What is done after a run that failed, said of the settings one by one. *)
From Verif Require Export Debug_Model Run_Spec.

(** [debugs pdb p s s' o]: with the setting [p], in the state [s], debugging leads to [s'], with the outcome [o] *)
Inductive debugs (pdb : M rs unit) : pdb_arg -> rs -> rs -> res unit -> Prop :=
| D_pdb s s' o : pdb s = (s', o) -> debugs pdb (PBool true) s s' o
| D_function f s s' o : f s = (s', o) -> debugs pdb (PFun true f) s s' o
| D_no_function s : debugs pdb (POther true) s s (Raise TypeError).

(** a debugging function that only looks *)
Definition looks (f : M rs unit) : Prop := forall s, f s = (s, Ok tt).
