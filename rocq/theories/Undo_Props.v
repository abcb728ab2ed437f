(** C110: resets, and what depends on the item. *)
From Verif Require Import Undo_Spec Undo_Proofs.
Local Open Scope string_scope.
Local Open Scope list_scope.

(** After a reset that ends well, all configs are up to date that were so before, whatever refers to the item. *)
Theorem C110_reset_reaches_all_dependents : forall V (u : user V) rank n i s s',
  acyclic u rank -> set_order u -> st_wf s ->
  reset u n i s = (s', Ok tt) ->
  st_wf s' /\ forall x, clean u s x -> clean u s' x.
Proof. intros V u rank n i s s' Hac Ho. exact (reset_clean u rank Hac Ho n i s s'). Qed.

(** So they are all up to date after any history of loads, persisted updates, refreshes and resets. *)
Theorem C110_always_up_to_date : forall V (u : user V) rank n l s,
  acyclic u rank -> set_order u -> Forall persisted l ->
  steps_run u n l empty_st = (s, Ok tt) ->
  forall x, clean u s x.
Proof.
  intros V u rank n l s Hac Ho Hl E. apply (steps_clean u rank Hac Ho n l Hl empty_st s); [intros i c H; discriminate | intros x c H; discriminate | exact E].
Qed.

(** All names in the file of the item have the values that the file gives them now. *)
Theorem C110_values_of_the_file : forall V (u : user V) keys rank n i s s' c,
  regular u keys -> acyclic u rank -> set_order u -> settled u keys s ->
  reset u n i s = (s', Ok tt) -> dget i (cfgs s') = Some c ->
  exists l d, yields (objs s') (u_file u i) = Some (l, d) /\ forall k v, dget k d = Some v -> dget k (vals c) = Some v.
Proof. intros V u keys rank n i s s' c Reg Hac Ho. exact (reset_values u keys rank Reg Hac n i s s' c Ho). Qed.

(** A reset undoes any number of updates of the item, with any loads, refreshes and resets of it in between: everything loaded before,
    also what depends on the item however indirectly, has its values again. *)
Theorem C110_undo : forall V (u : user V) keys rank n i l s s1 s',
  regular u keys -> acyclic u rank -> set_order u -> settled u keys s -> untouched keys s i ->
  Forall (only_changes keys i) l ->
  steps_run u n l s = (s1, Ok tt) -> reset u n i s1 = (s', Ok tt) ->
  same_world s s'.
Proof. intros V u keys rank n i l s s1 s' Reg Hac. exact (undo u keys rank Reg Hac i n l s s1 s'). Qed.

(** The order in which dependents are visited does not matter. *)
Theorem C110_order_does_not_matter : forall V (u : user V) keys rank n i o1 o2 s s1 s2,
  regular u keys -> acyclic u rank -> set_order (with_order u o1) -> set_order (with_order u o2) -> settled u keys s ->
  reset (with_order u o1) n i s = (s1, Ok tt) -> reset (with_order u o2) n i s = (s2, Ok tt) ->
  same_world s1 s2.
Proof. intros V u keys rank n i o1 o2 s s1 s2 Reg Hac. exact (reset_order u keys rank Reg Hac n i o1 o2 s s1 s2). Qed.

(** The states to which this applies: all after a history of loads, persisted updates, refreshes and resets. *)
Theorem C110_histories_are_settled : forall V (u : user V) keys rank n l s,
  regular u keys -> acyclic u rank -> set_order u -> Forall persisted l ->
  steps_run u n l empty_st = (s, Ok tt) -> settled u keys s.
Proof. intros V u keys rank n l s Reg Hac Ho Hl. apply (steps_settled u keys rank Reg Hac n l empty_st s Ho Hl). apply settled_empty. Qed.

(** Hooks that do not raise change nothing. *)
Theorem C110_quiet_hooks_change_nothing : forall V (u : user V) objects n i s l,
  (forall l e, objects l e = None) ->
  exists k, reset_h u objects n i (s, l) = ((fst (reset u n i s), l ++ k), snd (reset u n i s)).
Proof. intros V u objects n i s l H. now apply sim_reset. Qed.

(** What is told in a reset that ends well, in which order: as for an update (C108). *)
Theorem C110_order_of_telling : forall V (u : user V) objects n i s l s' l',
  set_order u -> reset_h u objects n i (s, l) = ((s', l'), Ok tt) ->
  exists k, l' = l ++ k /\ told (dep s') (unloaded s) i k.
Proof.
  intros V u objects n i s l s' l' Ho E. eapply (reset_tells u objects (unloaded s) n i s l Ho) in E; [|intros j D; exact D].
  destruct E as (k & E & _ & T). eauto.
Qed.

(** What is told holds, whether or not the reset ends well. *)
Theorem C110_what_is_told_holds : forall V (u : user V) objects n i s l,
  exists k, snd (fst (reset_h u objects n i (s, l))) = l ++ k /\
    (forall e, In e k -> e_when e = Before -> would_change u e) /\ (forall e, In e k -> e_when e = Users -> has_changed u e).
Proof.
  intros V u objects n i s l. destruct (reset_true u objects n i s l) as (k & E & H). exists k. split; [exact E|].
  rewrite Forall_forall in H. split; intros e I W; specialize (H e I); unfold true_event in H; now rewrite W in H.
Qed.

(** A hook that raises ends the whole reset: nothing more is told and the caller gets its exception. *)
Theorem C110_raising_ends_telling : forall V (u : user V) objects n i s l,
  exists k, snd (fst (reset_h u objects n i (s, l))) = l ++ k /\
    forall p e q y, k = p ++ e :: q -> objects (l ++ p) e = Some y -> q = [] /\ snd (reset_h u objects n i (s, l)) = Raise y.
Proof.
  intros V u objects n i s l. destruct (reset_stops u objects n i s l) as (k & E & H). exists k. split; [exact E|].
  intros p e q y Ek O. destruct (H p e q y Ek O) as [-> X]. split; [reflexivity|].
  destruct (snd (reset_h u objects n i (s, l))) as [x|y']; cbn in X; congruence.
Qed.

(** Refuted: after a reset the config follows its file again. If the updates left the values that the file gives, the reset does not
    forget them, and the next change of what the file refers to does not reach the config. *)
Theorem C110_follows_its_file_again_refuted : exists (u : user nat) keys rank n s i s1 j d s2,
  regular u keys /\ acyclic u rank /\ set_order u /\ settled u keys s /\
  reset u n i s = (s1, Ok tt) /\ update u n j d true s1 = (s2, Ok tt) /\
  exists c l f k v, dget i (cfgs s2) = Some c /\ yields (objs s2) (u_file u i) = Some (l, f) /\ dget k f = Some v /\ dget k (vals c) <> Some v.
Proof.
  exists un_user, un_keys, un_rank, 6, (un_after [un_set "b" "y" 9; un_set "b" "y" 2]), "b". eexists. exists "a", [("x", 5)]. eexists.
  split; [exact un_regular|]. split; [exact un_acyclic|]. split; [exact un_order|]. split.
  { apply (steps_settled un_user un_keys un_rank un_regular un_acyclic 6 [un_set "b" "y" 9; un_set "b" "y" 2] un_start); [exact un_order| |exact un_settled | vm_compute; reflexivity].
    repeat constructor. }
  split; [vm_compute; reflexivity|]. split; [vm_compute; reflexivity|].
  eexists. exists ["a"], [("y", 6)], "y", 6. split; [vm_compute; reflexivity|]. split; [vm_compute; reflexivity|]. split; [reflexivity|]. vm_compute. discriminate.
Qed.

(** Refuted: a reset undoes all persisted updates. One of a name that is not in the file stays, if the names of the file have their values. *)
Theorem C110_undoes_other_names_refuted : exists (u : user nat) keys rank n i l s s1 s',
  regular u keys /\ acyclic u rank /\ set_order u /\ settled u keys s /\ untouched keys s i /\
  (forall t, In t l -> exists d, t = Op (Update i d true)) /\
  steps_run u n l s = (s1, Ok tt) /\ reset u n i s1 = (s', Ok tt) /\ ~ same_world s s'.
Proof.
  exists un_user, un_keys, un_rank, 6, "a", [Op (Update "a" [("x", 5); ("y", 3)] true); un_set "a" "x" 1], un_start. eexists. eexists.
  split; [exact un_regular|]. split; [exact un_acyclic|]. split; [exact un_order|]. split; [exact un_settled|]. split.
  { exact un_untouched. }
  split; [intros t [<- | [<- | []]]; eexists; reflexivity|]. split; [vm_compute; reflexivity|]. split; [vm_compute; reflexivity|].
  intros H. destruct (H "a") as [_ X]. specialize (X [("x", 1)] [("x", 1); ("y", 3)] eq_refl eq_refl). discriminate.
Qed.

(** Refuted: the values of sections win over those of the file. The object has those of the file after a reset. *)
Theorem C110_sections_win_refuted : exists (u : user nat) n i k v s s' o,
  dget k (dict_of (u_inherited u i)) = Some v /\ (exists o0, dget i (objs s) = Some o0 /\ dget k o0 = Some v) /\
  reset u n i s = (s', Ok tt) /\ dget i (objs s') = Some o /\ dget k o <> Some v.
Proof.
  exists sp_user, 6, "c", "w", 7, sp_start. eexists. eexists. split; [reflexivity|]. split; [eexists; split; vm_compute; reflexivity|].
  split; [vm_compute; reflexivity|]. split; [vm_compute; reflexivity|]. vm_compute. discriminate.
Qed.

(** x of a is set to 5, then to 7, and c refreshed; b and c follow. After the reset all is as before. *)
Example C110_ex_undo : let s1 := un_after [un_set "a" "x" 5; un_set "a" "x" 7; Op (Refresh "c")] in
  un_obj s1 "c" = Some [("z", 9); ("w", 0)] /\ snd (reset un_user 6 "a" s1) = Ok tt /\
  map (un_obj (fst (reset un_user 6 "a" s1))) ["a"; "b"; "c"] = map (un_obj un_start) ["a"; "b"; "c"] /\
  map (un_obj un_start) ["a"; "b"; "c"] = [Some [("x", 1)]; Some [("y", 2)]; Some [("z", 3); ("w", 0)]].
Proof. vm_compute. repeat split; reflexivity. Qed.
Example C110_ex_untouched : untouched un_keys un_start "a" /\ settled un_user un_keys un_start.
Proof. split; [exact un_untouched | exact un_settled]. Qed.
(** A reset of b does not touch the update of a, which b refers to. *)
Example C110_ex_middle : let s1 := un_after [un_set "b" "y" 9; un_set "a" "x" 7] in
  un_obj s1 "c" = Some [("z", 10); ("w", 0)] /\
  map (un_obj (fst (reset un_user 6 "b" s1))) ["a"; "b"; "c"] = [Some [("x", 7)]; Some [("y", 8)]; Some [("z", 9); ("w", 0)]].
Proof. vm_compute. repeat split; reflexivity. Qed.
Example C110_ex_told : let s1 := un_after [un_set "a" "x" 5] in
  sp_log (snd (fst (reset_h un_user sp_silent 6 "a" (s1, [])))) =
    [(Before, "a"); (Users, "a"); (Before, "b"); (Users, "b"); (Before, "c"); (Users, "c"); (Installed, "c"); (Installed, "b"); (Installed, "a")] /\
  snd (reset_h un_user sp_not_b 6 "a" (s1, [])) = Raise ValueError /\
  sp_log (snd (fst (reset_h un_user sp_not_b 6 "a" (s1, [])))) = [(Before, "a"); (Users, "a"); (Before, "b"); (Users, "b")] /\
  snd (fst (reset_h un_user sp_silent 6 "a" (un_start, []))) = [].
Proof. vm_compute. repeat split; reflexivity. Qed.

Print Assumptions C110_reset_reaches_all_dependents.
Print Assumptions C110_always_up_to_date.
Print Assumptions C110_values_of_the_file.
Print Assumptions C110_undo.
Print Assumptions C110_order_does_not_matter.
Print Assumptions C110_histories_are_settled.
Print Assumptions C110_quiet_hooks_change_nothing.
Print Assumptions C110_order_of_telling.
Print Assumptions C110_what_is_told_holds.
Print Assumptions C110_raising_ends_telling.
Print Assumptions C110_follows_its_file_again_refuted.
Print Assumptions C110_undoes_other_names_refuted.
Print Assumptions C110_sections_win_refuted.
