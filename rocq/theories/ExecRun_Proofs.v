(** From the signature of a new function to its arguments. *)
From Verif Require Import Setup_Spec Setup_Proofs SetupFiles_Proofs SetupLoad_Proofs Project_Proofs ConfigOps_Proofs Iterate_Proofs.
From Verif Require Import Exec_Model Exec_Spec Exec_Proofs ExecText_Proofs ExecSave_Proofs.
Local Open Scope string_scope.
Local Open Scope list_scope.

Lemma first_of_silent k l : (forall d, In d l -> dget k d = None) -> first_of k l = None.
Proof. induction l as [|d l IH]; intros H; [reflexivity|]. cbn. rewrite (H d (or_introl eq_refl)). apply IH. intros e He. apply H. now right. Qed.

Lemma setting_own exec f base folders n k text own : f (base ++ folders ++ [(n ++ ".py")%string]) = Some (File text) -> exec (folders ++ [(n ++ ".py")%string]) text = Ok own ->
  (forall rel, In rel (section_files folders) -> dget k (values_of exec f base rel) = None) ->
  setting exec f base folders n k = dget k own.
Proof.
  intros F E S. unfold setting, values_of at 1. rewrite F, E. destruct own as [|q own]; [reflexivity|]. rewrite first_of_app. rewrite first_of_silent; [cbn [first_of]; now destruct (dget k (q :: own))|].
  intros d Hd. apply in_map_iff in Hd as (rel & <- & Hr). now apply S.
Qed.

Lemma exec_text_wf py initial other : dwf initial -> (forall rel t v, other rel t = Ok v -> dwf v) -> forall rel t v, exec_text py initial other rel t = Ok v -> dwf v.
Proof.
  intros W O rel t v. unfold exec_text. destruct (program t) as [p|]; [|apply O]. intros L. destruct (active_load_inv py initial p v L) as (r & ns & _ & R & ->).
  apply user_dict_wf. exact (runs_wf' py _ _ _ W R).
Qed.
