(** C108: what hooks are told while a change spreads. *)
From Verif Require Import Spread_Spec Deps_Spec Spread_Proofs.
Local Open Scope string_scope.
Local Open Scope list_scope.

(** Hooks that do not raise change nothing: state and exception are those of C38. *)
Theorem C108_quiet_hooks_change_nothing : forall V (u : user V) objects n o s l,
  (forall l e, objects l e = None) ->
  exists k, op_run_h u objects n o (s, l) = ((fst (op_run u n o s), l ++ k), snd (op_run u n o s)).
Proof. intros V u objects n o s l H. now apply sim_op. Qed.

(** Loads tell hooks nothing. *)
Theorem C108_loads_tell_nothing : forall V (u : user V) objects n i s l,
  op_run_h u objects n (Load i) (s, l) = ((fst (load u n i s), l), snd (load u n i s)).
Proof. intros V u objects n i s l. cbn [op_run_h]. unfold on_st. cbn [fst snd]. now destruct (load u n i s). Qed.

(** What is told in an update or a refresh that ends well: each change is told before, then to the user's hooks, then the changes of
    the dependents are told, in the end it is told to the installed hooks; only where the object is not loaded nothing is told after. *)
Theorem C108_order_of_telling : forall V (u : user V) objects n i d persist s l s' l',
  set_order u ->
  (update_h u objects n i d persist (s, l) = ((s', l'), Ok tt) \/ refresh_h u objects n i (s, l) = ((s', l'), Ok tt)) ->
  exists k, l' = l ++ k /\ told (dep s') (unloaded s) i k.
Proof.
  intros V u objects n i d persist s l s' l' Ho [E|E].
  - eapply (update_tells u objects (unloaded s) Ho) in E; [|intros j D; exact D]. destruct E as (k & E & _ & T). eauto.
  - eapply (refresh_tells u objects (unloaded s) Ho) in E; [|intros j D; exact D]. destruct E as (k & E & _ & T). eauto.
Qed.

(** Exactly what is told of the updated config itself. *)
Theorem C108_telling_of_an_update : forall V (u : user V) objects n i d persist s l s' l' c,
  set_order u -> dget i (cfgs s) = Some c -> update_h u objects n i d persist (s, l) = ((s', l'), Ok tt) ->
  if would_update u (vals c) (dict_of d) then
    match dget i (objs s) with
    | None => l' = l ++ [Ev Before i (Some (vals c)) (dict_of d)]
    | Some _ => exists k v, told_deps (dep s') (unloaded s) i k /\
        l' = l ++ Ev Before i (Some (vals c)) (dict_of d) :: Ev Users i (Some (dupdate (vals c) (dict_of d))) (dict_of d) ::
          k ++ [Ev Installed i v (dict_of d)]
    end
  else l' = l.
Proof. intros V u objects n i d persist s l s' l' c Ho Ec E. eapply (update_exact u objects (unloaded s) Ho) in E; [exact E | exact Ec | intros j D; exact D]. Qed.

(** What is told holds, whether or not the operation ends well: before, some value is to be changed to a different one; after, the
    config has the values of the updates, except those that the sections give. *)
Theorem C108_what_is_told_holds : forall V (u : user V) objects n o s l,
  exists k, snd (fst (op_run_h u objects n o (s, l))) = l ++ k /\
    (forall e, In e k -> e_when e = Before -> would_change u e) /\ (forall e, In e k -> e_when e = Users -> has_changed u e).
Proof.
  intros V u objects n o s l. destruct (op_true u objects n o s l) as (k & E & H). exists k. split; [exact E|].
  rewrite Forall_forall in H. split; intros e I W; specialize (H e I); unfold true_event in H; now rewrite W in H.
Qed.

(** A hook that raises ends the whole operation: nothing more is told and the caller gets its exception. *)
Theorem C108_raising_ends_telling : forall V (u : user V) objects n o s l,
  exists k, snd (fst (op_run_h u objects n o (s, l))) = l ++ k /\
    forall p e q y, k = p ++ e :: q -> objects (l ++ p) e = Some y -> q = [] /\ snd (op_run_h u objects n o (s, l)) = Raise y.
Proof.
  intros V u objects n o s l. destruct (op_stops u objects n o s l) as (k & E & H). exists k. split; [exact E|].
  intros p e q y Ek O. destruct (H p e q y Ek O) as [-> X]. split; [reflexivity|].
  destruct (snd (op_run_h u objects n o (s, l))) as [x|y']; cbn in X; congruence.
Qed.

(** Where sections give no values, no config changes without the hooks being told before. *)
Theorem C108_changes_are_announced : forall V (u : user V) objects n o s,
  (forall i, u_inherited u i = []) ->
  announced s (snd (fst (op_run_h u objects n o (s, [])))) (fst (fst (op_run_h u objects n o (s, [])))).
Proof.
  intros V u objects n o s H. destruct (op_announced u objects n o s [] H) as (k & E & X). rewrite E. exact X.
Qed.

(** Refuted: with values of sections too. A load takes them into a config and tells no hook. *)
Theorem C108_all_changes_announced_refuted : exists (u : user nat) n o s,
  ~ announced s (snd (fst (op_run_h u sp_silent n o (s, [])))) (fst (fst (op_run_h u sp_silent n o (s, [])))).
Proof.
  exists sp_user, 6, (Load "c"), (sp_after "c" [("w", 1)] (St [] [] [])). intros H.
  destruct (H "c" (Conf [("z", 3); ("w", 1)] [("w", 1)])) as (c' & E & X); [vm_compute; reflexivity|].
  destruct X as [X | (e & I & _)]; [|vm_compute in I; exact I]. revert E X. vm_compute. intros [= <-]. discriminate.
Qed.

(** Refuted: post_config_changed is "called just after a config changes". It is not, if the object of the item is not loaded. *)
Theorem C108_told_after_each_change_refuted : exists (u : user nat) n i d persist s,
  snd (update_h u sp_silent n i d persist (s, [])) = Ok tt /\
  (exists c c', dget i (cfgs s) = Some c /\ dget i (cfgs (fst (fst (update_h u sp_silent n i d persist (s, []))))) = Some c' /\ vals c' <> vals c) /\
  forall e, In e (snd (fst (update_h u sp_silent n i d persist (s, [])))) -> e_when e = Before.
Proof.
  exists sp_user, 6, "a", [("x", 9)], true, (sp_after "a" [("x", 5)] (St [] [] [])). split; [vm_compute; reflexivity|]. split.
  - eexists. eexists. split; [vm_compute; reflexivity|]. split; [vm_compute; reflexivity|]. discriminate.
  - vm_compute. now intros e [<- | []].
Qed.

(** Refuted: after the change the config has the values of the updates. A value of the section has won meanwhile over an update. *)
Theorem C108_updates_hold_after_refuted : exists (u : user nat) n i d persist s e v k x,
  snd (update_h u sp_silent n i d persist (s, [])) = Ok tt /\ In e (snd (fst (update_h u sp_silent n i d persist (s, [])))) /\
  e_when e = Users /\ e_vals e = Some v /\ dget k (e_updates e) = Some x /\ dget k v <> Some x.
Proof.
  exists sp_user, 6, "a", [("x", 5)], true, (sp_after "c" [("w", 9)] sp_start).
  exists (Ev Users "c" (Some [("z", 7); ("w", 7)]) [("z", 7); ("w", 9)]). eexists. exists "w", 9.
  split; [vm_compute; reflexivity|]. split; [vm_compute; tauto|]. repeat split; discriminate.
Qed.

(** Refuted: all hooks are told of the change of a config before those of its dependents. *)
Theorem C108_parents_first_refuted : exists (u : user nat) n i d persist s p q r v1 v2 d1 d2 j,
  snd (fst (update_h u sp_silent n i d persist (s, []))) = p ++ Ev Installed j v1 d1 :: q ++ Ev Installed i v2 d2 :: r /\
  dep s i j /\ ~ dep s j i.
Proof.
  exists sp_user, 6, "a", [("x", 5)], true, sp_start.
  set (l := snd (fst (update_h sp_user sp_silent 6 "a" [("x", 5)] true (sp_start, [])))).
  exists (firstn 7 l), [], []. eexists. eexists. eexists. eexists. exists "b". subst l. split; [vm_compute; reflexivity|].
  split; vm_compute; [tauto | intuition discriminate].
Qed.

(** A chain of dependents. *)
Example C108_ex_chain :
  sp_log (snd (fst (update_h sp_user sp_silent 6 "a" [("x", 5)] true (sp_start, [])))) =
    [(Before, "a"); (Users, "a"); (Before, "b"); (Users, "b"); (Before, "c"); (Users, "c"); (Installed, "c"); (Installed, "b"); (Installed, "a")]
  /\ snd (update_h sp_user sp_silent 6 "a" [("x", 5)] true (sp_start, [])) = Ok tt.
Proof. split; vm_compute; reflexivity. Qed.
(** The same value again: nothing is told. *)
Example C108_ex_same : snd (fst (update_h sp_user sp_silent 6 "a" [("x", 1)] true (sp_start, []))) = [].
Proof. vm_compute. reflexivity. Qed.
(** A hook that raises for b: c is told nothing, b's config is changed, c's is not. *)
Example C108_ex_objection :
  let r := update_h sp_user sp_not_b 6 "a" [("x", 5)] true (sp_start, []) in
  sp_log (snd (fst r)) = [(Before, "a"); (Users, "a"); (Before, "b"); (Users, "b")] /\ snd r = Raise ValueError /\
  option_map vals (dget "b" (cfgs (fst (fst r)))) = Some [("y", 6)] /\
  option_map vals (dget "c" (cfgs (fst (fst r)))) = Some [("z", 3); ("w", 7)].
Proof. vm_compute. repeat split. Qed.
Example C108_ex_order : set_order sp_user.
Proof. intros s l. apply Permutation.Permutation_refl. Qed.

Print Assumptions C108_quiet_hooks_change_nothing.
Print Assumptions C108_loads_tell_nothing.
Print Assumptions C108_order_of_telling.
Print Assumptions C108_telling_of_an_update.
Print Assumptions C108_what_is_told_holds.
Print Assumptions C108_raising_ends_telling.
Print Assumptions C108_changes_are_announced.
Print Assumptions C108_all_changes_announced_refuted.
Print Assumptions C108_told_after_each_change_refuted.
Print Assumptions C108_updates_hold_after_refuted.
Print Assumptions C108_parents_first_refuted.
