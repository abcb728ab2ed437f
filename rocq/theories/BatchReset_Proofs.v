(** Proofs for the further theorems of C31. *)
From Verif Require Import BatchReset_Spec Batch_Proofs Config_Proofs.
From Coq Require Import ZArith.
Local Open Scope string_scope.
Local Open Scope list_scope.
Local Open Scope monad_scope.

Lemma resets_sequence U base strip qs xs : forall w,
  Forall2 (fun q x => addresses base strip q (fst x) (snd x) /\ has_char dot (fst x) = false) qs xs ->
  resets_in_sequence U xs w (fst (batch_reset U base strip qs w)) (snd (batch_reset U base strip qs w)).
Proof.
  intros w H. revert w. unfold batch_reset. set (step := fun q : sp_like => _). induction H as [|q x qs xs (Ha & Hm) H IH]; intro w; [constructor|].
  cbn [iterM]. destruct (addresses_sp _ _ _ _ _ Ha Hm) as (sp & E1 & E2 & E3).
  assert (E : step q w = single_reset U x w).
  { unfold step, bind, lift. rewrite E1. unfold on_manager, single_reset. rewrite E2, E3. now destruct (dget (fst x) w). }
  unfold bind. rewrite E. destruct (single_reset U x w) as [w1 [[]|e]] eqn:Es.
  - eapply rs_next; [exact Es|apply IH].
  - now apply rs_fail.
Qed.
Lemma resets_fun U l w w1 o1 w2 o2 : resets_in_sequence U l w w1 o1 -> resets_in_sequence U l w w2 o2 -> w1 = w2 /\ o1 = o2.
Proof.
  intros H1. revert w2 o2. induction H1 as [|x l w w1 w2 o E H IH|x l w w1 e E]; intros w3 o3 H3; inversion H3; subst.
  - auto.
  - rewrite E in *. match goal with H : (_, _) = (_, _) |- _ => injection H as <- end. now apply IH.
  - congruence.
  - congruence.
  - rewrite E in *. match goal with H : (_, _) = (_, _) |- _ => injection H as <- <- end. auto.
Qed.

Lemma truthy_false v : truthy v = false <-> false_value v.
Proof.
  unfold false_value. destruct v as [|b|z|t|l| | | | | | ]; cbn [truthy In]; try (split; [discriminate|intuition discriminate]).
  - intuition.
  - destruct b; intuition congruence.
  - destruct (Z.eqb_spec z 0) as [->|N]; cbn; [intuition|]. split; [discriminate|]. intuition congruence.
  - destruct (String.eqb_spec t "") as [->|N]; cbn; [intuition|]. split; [discriminate|]. intuition congruence.
  - destruct l; intuition congruence.
Qed.

(** an update in a batch that gives the parameters of update explicitly *)
Lemma update_call_given u rel v x s : free_kwargs (s_kw x) -> truthy v = s_persist x ->
  update_call u rel (Body (s_d x) (("pyfileconf_persist", v) :: s_kw x)) s = runner_update u (s_d x) (Some rel) (s_persist x) (s_kw x) s.
Proof.
  intros Hf Hv. rewrite <- (update_call_single u rel x s Hf). unfold update_call, as_body, bind, lift, given_dict, given_kwargs, given_persist, dmem.
  cbn [b_d b_vals dget String.eqb Ascii.eqb Bool.eqb]. change (dfilter ?f ((?k, ?a) :: ?l)) with (dfilter f l). now rewrite Hv.
Qed.
Lemma step_body U base strip q b b' w : (forall u rel s, update_call u rel b s = update_call u rel b' s) ->
  batch_update U [] base strip [(q, b)] w = batch_update U [] base strip [(q, b')] w.
Proof.
  intro H. unfold batch_update. cbn [concat app iterM]. unfold batch_step, bind, lift. cbn [fst snd].
  destruct (from_ambiguous q strip base); [|reflexivity]. unfold on_manager. destruct (dget _ w); [|reflexivity]. now rewrite H.
Qed.
