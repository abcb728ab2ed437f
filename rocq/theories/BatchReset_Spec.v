(** Statements about batches of resets, and about the parameters of an update given in a batch (C31). *)
From Verif Require Export Batch_Model Iterate_Model Iterate_Spec.
From Coq Require Import ZArith.
Local Open Scope string_scope.
Local Open Scope list_scope.

(** one call [manager.reset(path)] *)
Definition single_reset (U : world -> string -> user) (x : string * string) (w : world) : world * res unit :=
  match dget (fst x) w with
  | None => (w, Raise (LibExn "NoPipelineManagerForSectionPathException"))
  | Some p => let '(s, r) := runner_reset (pm_base p) (U w (fst x)) (Some (snd x)) false (pm_rs p) in
              (dset (fst x) (PMS (pm_base p) (pm_items p) (pm_setting p) s) w, r)
  end.

(** one after the other up to the first failure *)
Inductive resets_in_sequence (U : world -> string -> user) : list (string * string) -> world -> world -> res unit -> Prop :=
| rs_done w : resets_in_sequence U [] w w (Ok tt)
| rs_next x l w w1 w2 o : single_reset U x w = (w1, Ok tt) -> resets_in_sequence U l w1 w2 o -> resets_in_sequence U (x :: l) w w2 o
| rs_fail x l w w1 e : single_reset U x w = (w1, Raise e) -> resets_in_sequence U (x :: l) w w1 (Raise e).

(** the values that count as false *)
Definition false_value (v : pyval) : Prop := In v [VNone; VBool false; VInt 0; VStr ""; VList []].
