(** C57: which debugger is used, and what becomes of a run that fails. *)
From Verif Require Import Debug_Spec Run_Props Runner_Example.
Local Open Scope string_scope.
Local Open Scope list_scope.

(** Without auto_pdb, a run is a plain or a forced one. *)
Theorem C57_setting_off : forall its u pdb p force a s, pdb_truth p = false ->
  run_depending its u pdb p force a s = pm_run its u (if force then ForceContinue else Plain) a s.
Proof. intros its u pdb p force a s H. unfold run_depending. rewrite H. destruct force; reflexivity. Qed.

(** With it, force_continue is ignored, a run that does not raise is the plain run, an interrupt ends the program, and any other
    exception is followed by debugging where the run stopped, whose own exceptions are passed on; otherwise the run gives None. *)
Theorem C57_setting_on : forall its u pdb p force a s s1 r, pdb_truth p = true -> pm_run its u Plain a s = (s1, r) ->
  match r with
  | Ok x => run_depending its u pdb p force a s = (s1, Ok x)
  | Raise e => if interrupt e then run_depending its u pdb p force a s = (s1, Raise SystemExit)
               else exists s2 o, debugs pdb p s1 s2 o /\
                 run_depending its u pdb p force a s = (s2, match o with Ok _ => Ok (RVal VNone) | Raise e' => Raise e' end)
  end.
Proof.
  intros its u pdb p force a s s1 r H R. unfold pm_run in R. unfold run_depending. rewrite H. unfold run_with_auto_pdb, bind, try_run. rewrite R.
  destruct r as [x|e]; [reflexivity|]. change (interrupt e) with (user_interrupt e). destruct (user_interrupt e); [reflexivity|].
  destruct p as [b|t f|t]; cbn in H; subst; cbn.
  - destruct (pdb s1) as [s2 o] eqn:E. exists s2, o. split; [now constructor|]. destruct o; reflexivity.
  - destruct (f s1) as [s2 o] eqn:E. exists s2, o. split; [now constructor|]. destruct o; reflexivity.
  - exists s1, (Raise TypeError). split; [constructor|reflexivity].
Qed.
(** The function that debugs, for any setting: False does nothing, True means the built-in debugger. *)
Theorem C57_debugging_function : forall pdb s, post_mortem_or_passed pdb (PBool false) s = (s, Ok tt) /\ post_mortem_or_passed pdb (PBool true) s = pdb s /\
  (forall t f, post_mortem_or_passed pdb (PFun t f) s = f s) /\ (forall t, post_mortem_or_passed pdb (POther t) s = (s, Raise TypeError)).
Proof. intros pdb s. repeat split. Qed.
Theorem C57_debugging_is_determined : forall pdb p s s1 o1 s2 o2, debugs pdb p s s1 o1 -> debugs pdb p s s2 o2 -> s1 = s2 /\ o1 = o2.
Proof. intros pdb p s s1 o1 s2 o2 A B. inversion A; subst; inversion B; subst; split; congruence. Qed.

(** If the debugger, built in or passed, only looks, then a run is the one described by C57_auto_pdb, whichever it is. *)
Theorem C57_which_debugger_does_not_matter : forall its u pdb p force a s, pdb_truth p = true -> looks pdb ->
  (forall t f, p = PFun t f -> looks f) -> (forall t, p <> POther t) -> run_depending its u pdb p force a s = pm_run its u AutoPdb a s.
Proof.
  intros its u pdb p force a s H L F O. destruct (pm_run its u Plain a s) as [s1 r] eqn:R. rewrite (C57_auto_pdb _ _ _ _ _ _ R).
  pose proof (C57_setting_on its u pdb p force a s s1 r H R) as K. destruct r as [x|e]; [exact K|]. destruct (interrupt e); [exact K|].
  destruct K as (s2 & o & D & K). rewrite K. inversion D; subst.
  - rewrite L in H0. now injection H0 as <- <-.
  - rewrite (F _ _ eq_refl) in H0. now injection H0 as <- <-.
  - now exfalso; apply (O true).
Qed.

(** A passed function that raises, or a setting like 1 that is no function, makes the run raise another exception than its own. *)
Theorem C57_auto_pdb_always_gives_none_refuted :
  snd (pm_run ex_items ex_user Plain (AStr "e") ex_rs) = Raise (UserExn 1) /\
  snd (run_depending ex_items ex_user (ret tt) (PFun true (raise KeyError)) true (AStr "e") ex_rs) = Raise KeyError /\
  snd (run_depending ex_items ex_user (ret tt) (POther true) false (AStr "e") ex_rs) = Raise TypeError.
Proof. repeat split; vm_compute; reflexivity. Qed.
Example C57_debugger_example :
  snd (run_depending ex_items ex_user (ret tt) (PBool true) true (AStr "e") ex_rs) = Ok (RVal VNone) /\
  snd (run_depending ex_items ex_user (ret tt) (PFun true (ret tt)) true (AStr "e") ex_rs) = Ok (RVal VNone) /\
  snd (run_depending ex_items ex_user (ret tt) (PFun false (ret tt)) true (AStr "e") ex_rs) = Ok (RList []) /\ looks (ret tt).
Proof. repeat split. Qed.

Print Assumptions C57_setting_off.
Print Assumptions C57_setting_on.
Print Assumptions C57_debugging_is_determined.
Print Assumptions C57_which_debugger_does_not_matter.
Print Assumptions C57_auto_pdb_always_gives_none_refuted.
Print Assumptions C57_debugging_function.
