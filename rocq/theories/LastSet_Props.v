(** C95: a run uses the value that was set last. *)
From Verif Require Import LastSet_Spec Iterate_Spec Isolation_Proofs IsolationRun_Proofs ConfigWf_Proofs ConfigTree_Proofs ConfigLoad_Proofs Selector_Proofs LastSet_Proofs.
Local Open Scope string_scope.
Local Open Scope list_scope.

(** After any history of a loaded project the item's config has the value that was set last (or one equal to it), and an
    object that is loaded works with it. *)
Theorem C95_config_has_the_value_set_last : forall kept base its u disk n s path k x content file ops,
  disk_ok disk -> runner_load base disk n = Ok s -> u_pre_run u = [] -> item_of its path x -> In k (f_args x) -> k <> "d_" ->
  target (r_cms s) (path_parts path) = Some (CItem (path_parts path)) ->
  read_file disk (item_file (path_parts path)) = Ok content -> dget k content = Some file -> plain file = true ->
  unset_around k (path_parts path) (r_cms s) ->
  (forall op, In op ops -> allowed kept base path k op) -> all_through base its u path s ops ->
  let a := fold_left (rop_run base its u) ops s in
  let value := last_set path k file file ops in
  (exists own v, own_values (r_cms a) (path_parts path) = Some own /\ dget k own = Some v /\ same_value v value) /\
  (forall o, dget path (r_loaded a) = Some o -> exists v, dget k (arguments o) = Some v /\ same_value v value).
Proof.
  intros kept base its u disk n s path k x content file ops D L P Hi Hk Nk T R F Pf U A G a value. apply mem_In in Hk.
  assert (S := start_lok kept base path k x content file disk n s D L T R F Pf U).
  assert (H := history_lok kept base its u path k x content file Hk P ops Hi Nk Pf F file s A G S). fold a value in H.
  destruct H as (_ & _ & ((c & v & A1 & _ & A3 & A4 & _) & _) & Lo). split.
  - exists (c_vals c), v. split; [|auto]. rewrite own_values_current. now rewrite A1.
  - intros o Ho. exact (proj2 (Lo o Ho)).
Qed.

(** The next run passes that value on. A function is called exactly once; a class or an instance may refuse to be initialised. *)
Theorem C95_runs_use_the_value_set_last : forall kept base its u disk n s path k x content file ops set,
  disk_ok disk -> runner_load base disk n = Ok s -> u_pre_run u = [] -> item_of its path x -> In k (f_args x) -> k <> "d_" ->
  target (r_cms s) (path_parts path) = Some (CItem (path_parts path)) ->
  read_file disk (item_file (path_parts path)) = Ok content -> dget k content = Some file -> plain file = true ->
  unset_around k (path_parts path) (r_cms s) ->
  (forall op, In op ops -> allowed kept base path k op) -> all_through base its u path s ops ->
  let a := fold_left (rop_run base its u) ops s in
  let value := last_set path k file file ops in
  exists called, r_calls (fst (pm_run its u set (AStr path) a)) = r_calls a ++ called /\
    (forall q o, In (q, o) called -> q = path /\ exists v, dget k (arguments o) = Some v /\ same_value v value) /\
    (is_func its path x -> exists o, called = [(path, o)]).
Proof.
  intros kept base its u disk n s path k x content file ops set D L P Hi Hk Nk T R F Pf U A G a value. apply mem_In in Hk.
  assert (S := start_lok kept base path k x content file disk n s D L T R F Pf U).
  assert (H := history_lok kept base its u path k x content file Hk P ops Hi Nk Pf F file s A G S). fold a value in H.
  destruct Hi as (b & th & Hf & K).
  destruct (run_calls kept base its u path k x content file Hk P b th Hf value a set H K) as (l & E & Hl & Fl).
  exists l. split; [exact E|]. split.
  - intros q o I. destruct (Hl q o I) as (-> & _ & Ho). now split.
  - intros (b' & Hf'). apply Fl. congruence.
Qed.

(** The conditions are needed. A transient update is gone after a refresh; *)
Theorem C95_transient_refuted :
  exists s, s = ls_then [RUpdate None (Some "sec.f") false [("x", VInt 2)]; RRefresh "sec.f"; RRun Plain (AStr "sec.f")] /\
    ls_calls s = [Some (VInt 1)].
Proof. eexists. split; [reflexivity|]. now vm_compute. Qed.
(** so is a persistent one that gave the same value as a transient one before it, because it was found not to change anything; *)
Theorem C95_persistent_after_transient_refuted :
  exists s, s = ls_then [RUpdate None (Some "sec.f") false [("x", VInt 2)]; RUpdate None (Some "sec.f") true [("x", VInt 2)];
                         RRefresh "sec.f"; RRun Plain (AStr "sec.f")] /\
    ls_calls s = [Some (VInt 1)].
Proof. eexists. split; [reflexivity|]. now vm_compute. Qed.
(** a section's value wins over what was set for the item; *)
Theorem C95_section_refuted :
  exists s, s = ls_then [RUpdate None (Some "sec") true [("y", VInt 1)]; RUpdate None (Some "sec.f") true [("y", VInt 8)]; RRun Plain (AStr "sec.f")] /\
    map (fun c => dget "y" (arguments (snd c))) (r_calls s) = [Some (VInt 1)].
Proof. eexists. split; [reflexivity|]. now vm_compute. Qed.
(** and a value for an argument the file does not mention is not stored. *)
Theorem C95_unmentioned_refuted :
  exists s, s = fold_left (rop_run "base" is_items is_user) [RUpdate None (Some "sec.f") true [("x", VInt 2)]; RRun Plain (AStr "sec.f")] ls_start /\
    ls_calls s = [None].
Proof. eexists. split; [reflexivity|]. now vm_compute. Qed.

Example C95_example :
  (forall op, In op ls_ops -> allowed true "base" "sec.f" "x" op) /\ all_through "base" is_items is_user "sec.f" is_start ls_ops /\
  unset_around "x" ["sec"; "f"] (r_cms is_start) /\ item_of is_items "sec.f" (Fn "f" ["x"; "y"]) /\
  last_set "sec.f" "x" (VInt 1) (VInt 1) ls_ops = VInt 3 /\
  ls_calls (fst (pm_run is_items is_user Plain (AStr "sec.f") (ls_then ls_ops))) = [Some (VInt 1); Some (VInt 3)].
Proof.
  assert (Wd : forall k (v : pyval), dwf [(k, v)]) by (intros; apply NoDup_cons; [easy|apply NoDup_nil]).
  split; [|split; [|split; [|split; [|split]]]].
  - intros op I. unfold ls_ops in I. repeat destruct I as [<-|I]; try contradiction.
    + now right.
    + right. split; [apply Wd|]. split; [apply NoDup_nil|]. left. split; [reflexivity|]. intros v [= <-]. now split.
    + left. exact is_g_apart.
    + right. split; [apply Wd|]. split; [apply NoDup_nil|]. right. split; [discriminate|]. split; [|reflexivity]. now exists ["f"].
    + left. intros q [<-|[<-|[]]]; [exact is_g_apart|exact is_h_apart].
    + right. split; [now exists []|reflexivity].
    + right. split; [apply Wd|]. split; [apply Wd|]. left. split; [reflexivity|]. intros v [= <-]. now split.
    + now right.
    + right. split; [now exists ["f"]|discriminate].
    + right. split; [apply Wd|]. split; [apply NoDup_nil|reflexivity].
  - vm_compute. repeat split; intro; try discriminate; reflexivity.
  - split; [vm_compute; repeat split; discriminate|]. intros q t c E N H. destruct q as [|a [|b [|d q]]].
    + vm_compute in H. discriminate.
    + injection E as <- <-. vm_compute in H. injection H as <-. split; [reflexivity|]. split; [reflexivity|].
      intros ref ct [= <-] X. vm_compute in X. now injection X as <-.
    + injection E as <- <- <-. now destruct N.
    + discriminate.
  - exists false, (TFunc (Fn "f" ["x"; "y"])). split; [|now left]. vm_compute. reflexivity.
  - reflexivity.
  - now vm_compute.
Qed.

Print Assumptions C95_config_has_the_value_set_last.
Print Assumptions C95_runs_use_the_value_set_last.
Print Assumptions C95_transient_refuted.
Print Assumptions C95_persistent_after_transient_refuted.
Print Assumptions C95_section_refuted.
Print Assumptions C95_unmentioned_refuted.
