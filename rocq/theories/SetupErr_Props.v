(** C70, continued: which error a refused load raises. *)
From Verif Require Import SetupErr_Spec Setup_Proofs SetupLoad_Proofs SetupErr_Proofs SetupEx_Spec.
Local Open Scope string_scope.
Local Open Scope list_scope.

(** Either everything is acceptable or there is a fault, and there is only one. *)
Theorem C70_acceptable_or_fault : forall parse view inst f folder name cs, Forall (@dwf cval) cs ->
  (exists! i, acceptable parse view inst f folder name cs i) /\ (forall e, ~ fault parse view inst f folder name cs e) \/
  (forall i, ~ acceptable parse view inst f folder name cs i) /\ (exists! e, fault parse view inst f folder name cs e).
Proof.
  intros parse view inst f folder name cs W. destruct (checked parse view inst f folder name cs) as [i|e] eqn:C; [left|right].
  - split.
    + exists i. split; [now apply checked_iff|]. intros i' A. apply checked_iff in A; [congruence|exact W].
    + intros e F. apply fault_iff in F; [congruence|exact W].
  - split.
    + intros i A. apply checked_iff in A; [congruence|exact W].
    + exists e. split; [now apply fault_iff|]. intros e' F. apply fault_iff in F; [congruence|exact W].
Qed.
(** The fault is what is raised, before anything is written or changed. *)
Theorem C70_fault_raised : forall parse view inst cfg config_dir s next f p e, Forall (@dwf cval) (su_classes s) ->
  fault parse view inst f (su_folder s) (su_name s) (su_classes s) e ->
  pm_load parse view inst cfg config_dir s next f p = ([], p, Raise e).
Proof. intros parse view inst cfg config_dir s next f p e W F. apply fault_iff in F; [|exact W]. now rewrite load_checked, F. Qed.

(** The class dict is checked before the pipeline dict's items and the names, and its file before its keys. *)
Example C70_ex_faults :
  let faulty cs f e := fault ex_parse ex_view ex_inst f ["proj"] "proj" cs e in
  faulty [ex_class "m"] ex_disk AttributeError /\
  faulty [("more", CNone) :: ex_class "m"] ex_disk AttributeError /\
  faulty [("more", CNone) :: ex_class "m"] (ex_class_disk "m") TypeError /\
  faulty [ex_class "run"] (ex_class_disk "run") ValueError /\
  faulty [ex_class "m"; [("name", CStr "q")]] (ex_class_disk "m") ValueError /\
  faulty [] (fs_of [(["proj"; "pipeline_dict.py"], Dir)]) OSError.
Proof.
  cbv zeta.
  repeat split; apply fault_iff; try (vm_compute; reflexivity);
    repeat (apply Forall_cons; [repeat (apply NoDup_cons; [cbn; intuition discriminate|]); apply NoDup_nil|]); apply Forall_nil.
Qed.

Print Assumptions C70_acceptable_or_fault.
Print Assumptions C70_fault_raised.
