(** Parameters of configs whose names the library uses for its own parameters. *)
From Verif Require Import Runner_Model RunnerOps_Proofs ConfigOps_Proofs Config_Proofs Config_Spec Runner_Spec ConfigTree_Spec.
Local Open Scope string_scope.
Local Open Scope list_scope.

(** the hooks called by an update that raises before anything is stored *)
Lemma update_raise_trace u d path persist kw s s' o r c e :
  target (r_cms s) (path_parts path) = Some r -> current (r_cms s) r = Some c ->
  cfg_checked_update c d persist kw = Raise e -> runner_update u d (Some path) persist kw s = (s', o) ->
  cs_trace (r_cms s') = cs_trace (r_cms s) ++
    (if dmem "config_" kw then [] else match would_update c (Some (dupdate (opt_dict d) kw)) [] with Ok true => [EvPre path (dupdate (opt_dict d) kw)] | _ => [] end).
Proof.
  intros Ht Hc Hu H. unfold runner_update, on_cms, cm_update in H. cbv [bind] in H.
  destruct (stored_current (r_cms s) (Some path) r c Ht Hc) as [s1 Es]. rewrite Es in H.
  destruct (stored_spec _ _ _ _ Es) as (_ & T1 & L1 & Tr1 & c' & C1 & C2). rewrite Hc in C1. injection C1 as <-.
  rewrite (deref_read _ _ _ C2) in H. unfold cfg_checked_update in Hu. destruct (dmem "config_" kw) eqn:Ek.
  { cbn in H. injection H as <- _. cbn. now rewrite Tr1, app_nil_r. }
  unfold lift in H. destruct (would_update c (Some (dupdate (opt_dict d) kw)) []) as [[]|e'] eqn:Ew; [|discriminate|].
  - destruct (dmem "E" kw) eqn:EE; [|discriminate]. cbn in H. injection H as <- _. cbn. now rewrite Tr1.
  - cbn in H. injection H as <- _. cbn. now rewrite Tr1, app_nil_r.
Qed.

Lemma refresh_raise_trace u path s s' o c ref content e :
  let p := path_parts path in
  target (r_cms s) p = Some (CItem p) -> current (r_cms s) (CItem p) = Some c -> c_file c = Some ref ->
  read_file (cs_disk (r_cms s)) ref = Ok content ->
  cfg_checked_refresh c content = Raise e -> runner_refresh u path s = (s', o) ->
  o = Raise e /\ r_loaded s' = r_loaded s /\ current (r_cms s') (CItem p) = Some c /\
  cs_trace (r_cms s') = cs_trace (r_cms s) ++ match change_from_refresh c content with Ok (x :: l) => [EvPre path (x :: l)] | _ => [] end.
Proof.
  intros p Ht Hc Hr Hf Hu H. unfold runner_refresh, on_cms in H.
  destruct (cm_refresh path (r_cms s)) as [st o1] eqn:Ecm.
  assert (S := cm_refresh_spec _ _ _ _ Ecm). fold p in S. rewrite Ht, Hc, Hr, Hf, Hu in S. destruct S as (T & -> & R).
  cbv [bind] in H. cbn in H. rewrite Ecm in H. injection H as <- <-. cbn [r_cms r_loaded]. split; [reflexivity|]. split; [reflexivity|].
  split; [exact (read_current _ _ _ R)|].
  unfold cm_refresh in Ecm. cbv [bind] in Ecm.
  destruct (stored_current (r_cms s) (Some path) (CItem p) c Ht Hc) as [s1 Es]. rewrite Es in Ecm.
  destruct (stored_spec _ _ _ _ Es) as (_ & T1 & L1 & Tr1 & c' & C1 & C2). rewrite Hc in C1. injection C1 as <-.
  rewrite (deref_read _ _ _ C2) in Ecm. unfold reread in Ecm. rewrite Hr in Ecm.
  assert (D1 : cs_disk s1 = cs_disk (r_cms s)) by apply T1. rewrite D1, Hf in Ecm. unfold lift in Ecm. unfold cfg_checked_refresh in Hu.
  destruct (change_from_refresh c content) as [[|x l]|e'] eqn:Ech; [discriminate| |].
  - destruct (cfg_refresh c content) as [[]|e'']; [discriminate|]. cbn in Ecm. injection Ecm as <- _. cbn. now rewrite Tr1.
  - cbn in Ecm. injection Ecm as <- _. now rewrite Tr1, app_nil_r.
Qed.
