(** C53, continued: folders whose names start with an underscore or a dot. *)
From Verif Require Import Hidden_Spec Hidden_Proofs.
Local Open Scope string_scope.
Local Open Scope list_scope.

(** What lies in folders with such a name, at any depth, has no effect on loading: the tree is the same and so is the
    exception, if there is one. *)
Theorem C53_hidden_folders_do_not_matter : forall base d d', visible_part d = visible_part d' ->
  match cm_load base d with
  | Ok st => exists st', cm_load base d' = Ok st' /\ cs_root st' = cs_root st /\ cs_local st' = cs_local st
  | Raise e => cm_load base d' = Raise e
  end.
Proof.
  intros base d d' V. unfold cm_load, from_files_at. cbn [find_dir].
  rewrite (from_files_visible d), (from_files_visible d'), <- V.
  destruct (from_files _ [] (visible_part d)) as [s|e]; [|reflexivity].
  eexists. split; [reflexivity|]. now split.
Qed.

(** Loading runs every section.py in a folder with any other name, folder by folder: the first exception other than
    ValueError is what the load raises, and without one it succeeds. Items' own files are not run. *)
Theorem C53_load_outcome : forall base d,
  match section_errors d with
  | [] => exists st, cm_load base d = Ok st
  | e :: _ => cm_load base d = Raise e
  end.
Proof.
  intros base d. pose proof (from_files_outcome d (last [] base) []) as O.
  unfold cm_load, from_files_at. cbn [find_dir]. destruct (section_errors d) as [|e l]; cbn [outcome] in O.
  - destruct O as (s & ->). eexists. reflexivity.
  - now rewrite O.
Qed.

Example C53_ex_hidden :
  section_errors (hd_disk ".ipynb_checkpoints") = [] /\ section_errors (hd_disk "_old") = [] /\
  section_errors (hd_disk "old") = [SyntaxError] /\
  visible_part (hd_disk "_old") = visible_part (hd_disk ".ipynb_checkpoints").
Proof. vm_compute. auto. Qed.

Print Assumptions C53_hidden_folders_do_not_matter.
Print Assumptions C53_load_outcome.
