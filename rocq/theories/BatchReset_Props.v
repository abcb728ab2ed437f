(** C31, continued: batches of resets, and the parameters of an update in a batch. *)
From Verif Require Import BatchReset_Spec BatchReset_Proofs Batch_Proofs Config_Proofs.
From Coq Require Import ZArith.
Local Open Scope string_scope.
Local Open Scope list_scope.

(** A batch of resets has exactly the effect and outcome of the single resets, which do not create anything, one after the other up
    to the first failure. *)
Theorem C31_reset_batch_is_the_sequence : forall U base strip qs xs w w' o,
  Forall2 (fun q x => addresses base strip q (fst x) (snd x) /\ has_char dot (fst x) = false) qs xs ->
  (batch_reset U base strip qs w = (w', o) <-> resets_in_sequence U xs w w' o).
Proof.
  intros U base strip qs xs w w' o H. assert (S := resets_sequence U base strip qs xs w H). split.
  - intro E. now rewrite E in S.
  - intro S'. destruct (resets_fun _ _ _ _ _ _ _ S' S) as [-> ->]. apply surjective_pairing.
Qed.

(** Whether an update in a batch is persisted is decided by the truth value of what it says. *)
Theorem C31_persist_by_truth : forall U base strip q d kw v (b : bool) w, free_kwargs kw -> (false_value v <-> b = false) ->
  batch_update U [] base strip [(q, Body d (("pyfileconf_persist", v) :: kw))] w =
  batch_update U [] base strip [(q, Body d (("pyfileconf_persist", VBool b) :: kw))] w.
Proof.
  intros U base strip q d kw v b w Hf Hv. apply step_body. intros u rel s.
  transitivity (runner_update u d (Some rel) b kw s).
  - apply (update_call_given u rel v (Single "" "" d b kw) s Hf).
    cbn [s_persist]. rewrite <- truthy_false in Hv. destruct (truthy v), b; intuition congruence.
  - symmetry. now apply (update_call_given u rel (VBool b) (Single "" "" d b kw) s Hf).
Qed.
Example C31_persist_example : false_value (VInt 0) /\ ~ false_value (VInt 1) /\ ~ false_value (VStr "no").
Proof. repeat split; [right; right; now left| |]; cbn; intuition discriminate. Qed.

(** A d_ that is None counts as none; another one that is no dict makes the update raise TypeError, and so does a value for self. *)
Theorem C31_d_none : forall U base strip q kw w, free_kwargs kw ->
  batch_update U [] base strip [(q, Body None (("d_", VNone) :: kw))] w = batch_update U [] base strip [(q, Body None kw)] w.
Proof.
  intros U base strip q kw w Hf. apply step_body. intros u rel s. unfold update_call, bind, lift, given_dict, given_kwargs, given_persist, dmem.
  cbn [b_d b_vals dget String.eqb Ascii.eqb Bool.eqb]. rewrite (Hf "d_") by (right; now left). reflexivity.
Qed.
Theorem C31_refused : forall U base strip q m p d kw w, addresses base strip q m p -> has_char dot m = false -> dmem m w = true ->
  dmem "self" kw = true \/ d = None /\ (exists v, dget "d_" kw = Some v /\ v <> VNone) ->
  exists w', batch_update U [] base strip [(q, Body d kw)] w = (w', Raise TypeError) /\ forall n, dget n w' = dget n w.
Proof.
  intros U base strip q m p d kw w Ha Hm Hw H. destruct (addresses_sp _ _ _ _ _ Ha Hm) as (sp & E1 & E2 & E3).
  unfold batch_update. cbn [concat app iterM]. unfold bind at 1. unfold batch_step, bind, lift. cbn [fst snd]. rewrite E1. unfold on_manager. rewrite E2.
  unfold dmem in Hw. destruct (dget m w) as [s|] eqn:Ed; [|discriminate].
  assert (R : update_call (U w m) (relative sp) (Body d kw) (pm_rs s) = (pm_rs s, Raise TypeError)).
  { unfold update_call, bind, lift, given_dict. cbn [b_d b_vals]. destruct H as [->|(-> & v & -> & N)]; [reflexivity|]. destruct (dmem "self" kw); [reflexivity|]. now destruct v. }
  rewrite R. eexists. split; [reflexivity|]. intro n. rewrite dget_dset. destruct (String.eqb_spec n m) as [->|N]; [|reflexivity]. rewrite Ed. now destruct s.
Qed.

Print Assumptions C31_reset_batch_is_the_sequence.
Print Assumptions C31_persist_by_truth.
Print Assumptions C31_d_none.
Print Assumptions C31_refused.
