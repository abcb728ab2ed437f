(** C97: doing an operation again, doing two updates at once, undoing an update. *)
From Verif Require Import Again_Spec Again_Proofs ConfigWf_Proofs.
From Coq Require Import ZArith.
Local Open Scope string_scope.
Local Open Scope list_scope.

(** An update that has succeeded can be made again, persistent or not, and nothing happens: no config, loaded object or file is
    different, and no hook is called. Only the values have to be equal to themselves. *)
Theorem C97_update_again : forall u u' d path persist persist' kw s s', dwf kw -> dwf (opt_dict d) -> self_equal (asked d kw) ->
  runner_update u d (Some path) persist kw s = (s', Ok tt) ->
  exists s'', runner_update u' d (Some path) persist' kw s' = (s'', Ok tt) /\ nothing_happens s' s''.
Proof. exact update_twice. Qed.
Theorem C97_local_update_again : forall u u' d persist persist' kw s s', dwf kw -> dwf (opt_dict d) -> self_equal (asked d kw) ->
  runner_update u d None persist kw s = (s', Ok tt) ->
  exists s'', runner_update u' d None persist' kw s' = (s'', Ok tt) /\ nothing_happens s' s''.
Proof. exact local_update_twice. Qed.
Example C97_update_again_example : snd (runner_update fl_kind None (Some "m") true [("x", VInt 2)] ag_start) = Ok tt /\
  ag_x ag_start = Some (VInt 1) /\ ag_x (ag_up true [("x", VInt 2)] ag_start) = Some (VInt 2) /\
  cs_trace (r_cms (ag_up true [("x", VInt 2)] ag_start)) <> cs_trace (r_cms ag_start) /\
  cs_trace (r_cms (ag_up false [("x", VInt 2)] (ag_up true [("x", VInt 2)] ag_start))) = cs_trace (r_cms (ag_up true [("x", VInt 2)] ag_start)).
Proof. repeat split; vm_compute; congruence. Qed.

(** In particular an update that was not persistent cannot be made persistent: asked for again persistently it is dropped, and the
    next refresh brings the file's value back. *)
Theorem C97_made_persistent_refuted : exists s, let s2 := ag_up true [("x", VInt 2)] (ag_up false [("x", VInt 2)] s) in
  ag_x s2 = Some (VInt 2) /\ ag_x (fst (runner_refresh fl_kind "m" s2)) = Some (VInt 1) /\
  ag_x (fst (runner_refresh fl_kind "m" (ag_up true [("x", VInt 2)] s))) = Some (VInt 2).
Proof. exists ag_start. repeat split; vm_compute; reflexivity. Qed.

(** With an array among the values the same update succeeds once and then raises. *)
Theorem C97_update_again_array_refuted : exists u s path kw, dwf kw /\ u_pre_run u = [] /\ (forall k a, u_init u k a = None) /\
  snd (runner_update u None (Some path) true kw s) = Ok tt /\
  snd (runner_update u None (Some path) true kw (fst (runner_update u None (Some path) true kw s))) = Raise ValueError.
Proof.
  exists fl_kind, ag_start, "m", ag_array. split; [repeat (apply NoDup_cons; [cbn; intuition discriminate|]); apply NoDup_nil|].
  split; [reflexivity|]. split; [reflexivity|]. split; vm_compute; reflexivity.
Qed.
(** With a value whose comparison raises, the same update counts as a change each time, and the hooks are called each time. *)
Theorem C97_update_again_odd_refuted : exists u s path kw, dwf kw /\ u_pre_run u = [] /\ (forall k a, u_init u k a = None) /\
  let s1 := fst (runner_update u None (Some path) true kw s) in let s2 := fst (runner_update u None (Some path) true kw s1) in
  snd (runner_update u None (Some path) true kw s) = Ok tt /\ snd (runner_update u None (Some path) true kw s1) = Ok tt /\
  exists t t', t <> [] /\ t' <> [] /\ cs_trace (r_cms s1) = cs_trace (r_cms s) ++ t /\ cs_trace (r_cms s2) = cs_trace (r_cms s1) ++ t'.
Proof.
  exists fl_kind, ag_start, "m", ag_odd. split; [repeat (apply NoDup_cons; [cbn; intuition discriminate|]); apply NoDup_nil|].
  split; [reflexivity|]. split; [reflexivity|]. cbv zeta. split; [vm_compute; reflexivity|]. split; [vm_compute; reflexivity|].
  do 2 eexists. split; [|split; [|split; vm_compute; reflexivity]]; discriminate.
Qed.

(** The same for refreshing an item: once everything is taken over from the file there is nothing more to take over, unless the
    file sets [E]. *)
Theorem C97_refresh_again : forall u u' path s s' own c ref content, cms_wf (r_cms s) -> disk_ok (cs_disk (r_cms s)) ->
  own_values (r_cms s) (path_parts path) = Some own ->
  current (r_cms s) (CItem (path_parts path)) = Some c -> c_file c = Some ref -> read_file (cs_disk (r_cms s)) ref = Ok content ->
  dmem "E" content = false -> dmem "E" (c_applied c) = false -> self_equal content -> self_equal (c_applied c) ->
  (forall L, In L (overriding_layers (r_cms s) (path_parts path)) -> self_equal L) ->
  runner_refresh u path s = (s', Ok tt) ->
  exists s'', runner_refresh u' path s' = (s'', Ok tt) /\ nothing_happens s' s''.
Proof. exact refresh_again. Qed.
Example C97_refresh_again_example : let s1 := fst (runner_refresh fl_kind "m" fl_edited) in
  snd (runner_refresh fl_kind "m" fl_edited) = Ok tt /\ ag_x fl_edited = Some (VInt 1) /\ ag_x s1 = Some (VInt 7) /\
  cs_trace (r_cms s1) <> cs_trace (r_cms fl_edited) /\ cs_trace (r_cms (fst (runner_refresh fl_kind "m" s1))) = cs_trace (r_cms s1).
Proof. repeat split; vm_compute; congruence. Qed.
(** With [E] set to [None] by the file each refresh is a change, as the value of [E] never gets into the config. *)
Theorem C97_refresh_again_refuted : exists u s path, u_pre_run u = [] /\ (forall k a, u_init u k a = None) /\
  let s1 := fst (runner_refresh u path s) in let s2 := fst (runner_refresh u path s1) in
  snd (runner_refresh u path s) = Ok tt /\ snd (runner_refresh u path s1) = Ok tt /\
  exists t t', t <> [] /\ t' <> [] /\ cs_trace (r_cms s1) = cs_trace (r_cms s) ++ t /\ cs_trace (r_cms s2) = cs_trace (r_cms s1) ++ t'.
Proof.
  exists fl_kind, ag_E, "m". split; [reflexivity|]. split; [reflexivity|]. cbv zeta. split; [vm_compute; reflexivity|]. split; [vm_compute; reflexivity|].
  do 2 eexists. split; [|split; [|split; vm_compute; reflexivity]]; discriminate.
Qed.

(** Resetting again. *)
Theorem C97_reset_again : forall base u u' path s s' c content, disk_ok (cs_disk (r_cms s)) ->
  target (r_cms s) (path_parts path) = Some (CItem (path_parts path)) -> current (r_cms s) (CItem (path_parts path)) = Some c ->
  read_file (cs_disk (r_cms s)) (item_file (path_parts path)) = Ok content -> self_equal content ->
  runner_reset base u (Some path) false s = (s', Ok tt) ->
  exists s'', runner_reset base u' (Some path) false s' = (s'', Ok tt) /\ nothing_happens s' s''.
Proof. exact reset_again. Qed.
Theorem C97_local_reset_again : forall base u u' b b' s s', runner_reset base u None b s = (s', Ok tt) -> runner_reset base u' None b' s' = (s', Ok tt).
Proof. exact local_reset_twice. Qed.

(** Two updates one after the other give the same values as one update with everything they ask for, as far as the names are known
    to the config and the values can be compared. *)
Theorem C97_two_updates_as_one : forall u d kw d' kw' path p1 p2 p3 s s1 s2 s3 r c c2 c3,
  dwf kw -> dwf (opt_dict d) -> dwf kw' -> dwf (opt_dict d') ->
  target (r_cms s) (path_parts path) = Some r -> current (r_cms s) r = Some c ->
  comparable c (asked d kw) -> comparable c (asked d' kw') -> all_known c (asked d kw) -> all_known c (asked d' kw') ->
  runner_update u d (Some path) p1 kw s = (s1, Ok tt) -> runner_update u d' (Some path) p2 kw' s1 = (s2, Ok tt) ->
  runner_update u (Some (asked_together d kw d' kw')) (Some path) p3 [] s = (s3, Ok tt) ->
  current (r_cms s2) r = Some c2 -> current (r_cms s3) r = Some c3 -> equal_values (c_vals c2) (c_vals c3).
Proof. exact two_as_one. Qed.
Example C97_two_updates_example :
  let s2 := ag_up false [("x", VInt 5); ("y", VInt 6)] (ag_up true [("x", VInt 2)] ag_start) in
  let s3 := fst (runner_update fl_kind (Some (asked_together None [("x", VInt 2)] None [("x", VInt 5); ("y", VInt 6)])) (Some "m") true [] ag_start) in
  ag_x s2 = Some (VInt 5) /\ ag_x s3 = Some (VInt 5).
Proof. split; vm_compute; reflexivity. Qed.
(** Not so with a name that the config does not know yet: alone it is ignored, together with a change it is stored. *)
Theorem C97_two_updates_as_one_refuted : exists s kw kw', let s2 := ag_up true kw' (ag_up true kw s) in let s3 := ag_up true (asked_together None kw None kw') s in
  ag_new s2 = None /\ ag_new s3 = Some (VInt 1).
Proof. exists ag_start, [("x", VInt 2)], [("new", VInt 1)]. split; vm_compute; reflexivity. Qed.
(** The other way around too: the two updates one after the other store the name, together they are no change at all. *)
Theorem C97_one_update_as_two_refuted : exists s kw kw', let s2 := ag_up true kw' (ag_up true kw s) in let s3 := ag_up true (asked_together None kw None kw') s in
  ag_new s2 = Some (VInt 1) /\ ag_new s3 = None.
Proof. exists ag_start, [("x", VInt 2)], [("x", VInt 1); ("new", VInt 1)]. split; vm_compute; reflexivity. Qed.

(** An update that is not persistent is undone by another such update with the values there were before. *)
Theorem C97_undone : forall u d kw path s s1 s2 r c old, dwf kw -> dwf (opt_dict d) -> dwf (c_vals c) ->
  target (r_cms s) (path_parts path) = Some r -> current (r_cms s) r = Some c ->
  comparable c (asked d kw) -> all_known c (asked d kw) -> old_values c (asked d kw) old ->
  runner_update u d (Some path) false kw s = (s1, Ok tt) -> runner_update u (Some old) (Some path) false [] s1 = (s2, Ok tt) ->
  exists c2, current (r_cms s2) r = Some c2 /\ c_applied c2 = c_applied c /\ c_file c2 = c_file c /\ forall k, dget k (c_vals c2) = dget k (c_vals c).
Proof. exact undone. Qed.
Example C97_undone_example : ag_x (ag_up false [("x", VInt 2)] ag_start) = Some (VInt 2) /\
  ag_x (ag_up false [("x", VInt 1)] (ag_up false [("x", VInt 2)] ag_start)) = Some (VInt 1).
Proof. split; vm_compute; reflexivity. Qed.
(** A persistent update is not: the next refresh brings its value back. *)
Theorem C97_persistent_undone_refuted : exists s, let s2 := ag_up false [("x", VInt 1)] (ag_up true [("x", VInt 2)] s) in
  ag_x s = Some (VInt 1) /\ ag_x s2 = Some (VInt 1) /\ ag_x (fst (runner_refresh fl_kind "m" s2)) = Some (VInt 2).
Proof. exists ag_start. repeat split; vm_compute; reflexivity. Qed.

Print Assumptions C97_update_again.
Print Assumptions C97_local_update_again.
Print Assumptions C97_made_persistent_refuted.
Print Assumptions C97_update_again_array_refuted.
Print Assumptions C97_update_again_odd_refuted.
Print Assumptions C97_refresh_again.
Print Assumptions C97_refresh_again_refuted.
Print Assumptions C97_reset_again.
Print Assumptions C97_local_reset_again.
Print Assumptions C97_two_updates_as_one.
Print Assumptions C97_two_updates_as_one_refuted.
Print Assumptions C97_one_update_as_two_refuted.
Print Assumptions C97_undone.
Print Assumptions C97_persistent_undone_refuted.
