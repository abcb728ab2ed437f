From Verif Require Import RemovedFile_Spec.
Local Open Scope list_scope.

Lemma read_gone disk ref : gone disk ref -> read_file disk ref = Raise OSError.
Proof. unfold read_file. intros [->|(d & -> & ->)]; reflexivity. Qed.
