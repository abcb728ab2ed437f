(** C88, continued: which error is raised when no entry is made. *)
From Verif Require Import CreateErr_Spec Create_Proofs CreateErr_Proofs CreateEx_Spec.
Local Open Scope string_scope.
Local Open Scope list_scope.

(** Either the entry can be made or there is one fault. *)
Theorem C88_entry_or_fault : forall parse save f pl, pl_section pl <> [] ->
  (exists d d' text, entered parse save f pl d d' text) /\ (forall e, ~ entry_fault parse save f pl e) \/
  (forall d d' text, ~ entered parse save f pl d d' text) /\ (exists! e, entry_fault parse save f pl e).
Proof.
  intros parse save f pl S. assert (I := fun e => entry_fault_iff parse save f pl e S).
  destruct (add_spec parse save f pl) as [(e & E & N)|(l & d & d' & text & E & K & _)].
  - right. split; [exact N|]. exists e. split; [now apply I|]. intros e' F. apply I in F. congruence.
  - left. split; [eauto|]. intros e F. apply I in F. congruence.
Qed.
(** The fault is what is raised, and nothing is written or changed. *)
Theorem C88_entry_fault_raised : forall parse inst cfg config_dir save u shared s path func pl f p e,
  path <> [] -> placed s path func pl -> entry_fault parse save f pl e ->
  pm_create parse inst cfg config_dir save u shared s path func f p = ([], p, Raise e).
Proof. intros. now apply (create_fault parse inst cfg config_dir save u shared s path func pl). Qed.

Example C88_ex_faults : let pl path := general_place (ex_setup []) path "b" in
  entry_fault ex_parse cr_save ex_disk (pl ["run"; "deep"]) TypeError /\
  entry_fault ex_parse cr_save ex_disk (class_place (ex_setup []) ["m"; "s"; "k"]) AttributeError /\
  entry_fault ex_parse cr_save (fs_of []) (pl ["run"]) OSError /\
  (exists d d' text, entered ex_parse cr_save ex_disk (pl ["run"]) d d' text).
Proof.
  cbv zeta. split; [|split; [|split]]; try (apply entry_fault_iff; [discriminate|vm_compute; reflexivity]).
  do 3 eexists. split; [vm_compute; reflexivity|]. split; [vm_compute; reflexivity|]. split; [vm_compute; reflexivity|].
  split; [vm_compute; discriminate|left; vm_compute; discriminate].
Qed.

Print Assumptions C88_entry_or_fault.
Print Assumptions C88_entry_fault_raised.
