(** C96: what a single argument goes through. *)
From Verif Require Import OneArg_Spec Iterate_Spec Isolation_Proofs IsolationRun_Proofs ConfigWf_Proofs ConfigTree_Proofs ConfigLoad_Proofs Selector_Proofs LastSet_Proofs OneArg_Proofs.
Local Open Scope string_scope.
Local Open Scope list_scope.

(** Whatever is done to a loaded project, the machine of [OneArg_Spec] says exactly what the argument is: in the item's config, among the
    updates the config remembers, in the loaded object, and in the configs around. The machine can always follow, in one way only. *)
Theorem C96_the_argument_follows_the_machine : forall base its u disk n s path k x content file ops,
  disk_ok disk -> runner_load base disk n = Ok s -> u_pre_run u = [] -> accepting its u path x -> In k (f_args x) -> k <> "d_" -> k <> "E" ->
  target (r_cms s) (path_parts path) = Some (CItem (path_parts path)) ->
  read_file disk (item_file (path_parts path)) = Ok content -> dget k content = Some file -> plain file = true ->
  (forall r c v, In r (refs (path_parts path)) -> current (r_cms s) r = Some c -> dget k (c_vals c) = Some v -> plain v = true) ->
  (forall op, In op ops -> permitted base path k op) -> all_pass base its u path s ops ->
  (exists a, moves base its u path k file s ops (from_files k file (r_cms s)) a) /\
  forall a, moves base its u path k file s ops (from_files k file (r_cms s)) a -> a_shows path k a (fold_left (rop_run base its u) ops s).
Proof.
  intros base its u disk n s path k x content file ops D L P Hi Hk Nd NE T R F Pf U A G. apply mem_In in Hk.
  assert (S := start_ok base path k x content file disk n s D L T R F Pf U). split.
  - exact (history_ok base its u path k x content file Hk P ops Hi Nd NE F Pf _ s A G S).
  - intros a Mv. eapply okr_shows. exact (moves_ok base its u path k x content file Hk P ops Hi Nd NE F Pf _ s a A G S Mv).
Qed.
Theorem C96_in_one_way : forall base its u path k file ops s a a1 a2,
  moves base its u path k file s ops a a1 -> moves base its u path k file s ops a a2 -> a1 = a2.
Proof.
  intros base its u path k file ops. induction ops as [|op ops IH]; intros s a a1 a2 H1 H2; [cbn in *; congruence|].
  destruct H1 as (m1 & E1 & H1), H2 as (m2 & E2 & H2). assert (m1 = m2) by (apply Bool.eq_iff_eq_true; now rewrite E1, E2). subst m2. exact (IH _ _ _ _ H1 H2).
Qed.

(** The next run calls the item once, with the value the machine says. *)
Theorem C96_the_next_run_uses_it : forall base its u disk n s path k x content file ops set a,
  disk_ok disk -> runner_load base disk n = Ok s -> u_pre_run u = [] -> accepting its u path x -> In k (f_args x) -> k <> "d_" -> k <> "E" ->
  target (r_cms s) (path_parts path) = Some (CItem (path_parts path)) ->
  read_file disk (item_file (path_parts path)) = Ok content -> dget k content = Some file -> plain file = true ->
  (forall r c v, In r (refs (path_parts path)) -> current (r_cms s) r = Some c -> dget k (c_vals c) = Some v -> plain v = true) ->
  (forall op, In op ops -> permitted base path k op) -> all_pass base its u path s ops ->
  moves base its u path k file s ops (from_files k file (r_cms s)) a ->
  let b := fold_left (rop_run base its u) ops s in
  exists o v w, r_calls (fst (pm_run its u set (AStr path) b)) = r_calls b ++ [(path, o)] /\ dget k (arguments o) = Some v /\ same_value v w /\
    (a_obj a = Some w \/ a_obj a = None /\ w = match over (path_parts path) a with Some y => y | None => a_own a end).
Proof.
  intros base its u disk n s path k x content file ops set a D L P Hi Hk Nd NE T R F Pf U A G Mv b. apply mem_In in Hk.
  assert (S := start_ok base path k x content file disk n s D L T R F Pf U).
  assert (H := moves_ok base its u path k x content file Hk P ops Hi Nd NE F Pf _ s a A G S Mv). fold b in H.
  destruct Hi as ((b0 & th & Hf & K) & Ki). assert (Hinit : th = TFunc x \/ forall args, u_init u x args = None).
  { destruct Ki as [(b' & Hf')|Ki]; [left; congruence|now right]. }
  destruct (run_ok base its u path k x content Hk P b0 th Hf Hinit a b set H K) as (_ & o & w & E1 & E2 & _ & v & E3 & E4).
  exists o, v, w. split; [exact E1|]. split; [exact E3|]. split; [exact E4|]. rewrite obtain_look in E2. destruct (a_obj a) as [w'|] eqn:Ea.
  - left. rewrite look_obj in E2. congruence.
  - right. split; [reflexivity|]. injection E2 as <-. unfold look. now destruct (over (path_parts path) a).
Qed.

(** If no operation changes another value, the machine needs nothing but the operations. *)
Theorem C96_alone : forall base its u path k file ops s a, alone base its u k s ops ->
  moves base its u path k file s ops a (fold_left (fun a op => move path k file false op a) ops a).
Proof.
  intros base its u path k file ops. induction ops as [|op ops IH]; intros s a H; [reflexivity|]. destruct H as (N & H).
  exists false. split; [split; [discriminate|contradiction]|]. exact (IH _ _ H).
Qed.

(** A loaded object keeps its value as long as the item's own config is not set: nothing done to the sections around or to the local
    config reaches it. *)
Theorem C96_a_loaded_object_is_deaf : forall base its u path k file ops s a a' v,
  (forall op, In op ops -> leaves_item path op) -> moves base its u path k file s ops a a' -> a_obj a = Some v -> a_obj a' = Some v.
Proof.
  intros base its u path k file ops. induction ops as [|op ops IH]; intros s a a' v Lv Mv Ha; [cbn in Mv; now subst a'|].
  destruct Mv as (more & _ & Mv). refine (IH _ _ _ v (fun o I => Lv o (or_intror I)) Mv _).
  assert (Lo := Lv op (or_introl eq_refl)). clear - Ha Lo. assert (Lk : a_obj (look (path_parts path) a) = Some v) by (unfold look; now destruct (over _ a)).
  destruct op as [q|set [q|l]|d [q|] persist kw|[q|] ac|q]; cbn [move leaves_item] in *; try exact Ha;
    try (apply String.eqb_neq in Lo; rewrite Lo); try exact Ha.
  - destruct (String.eqb q path); [|exact Ha]. now rewrite Ha.
  - destruct (String.eqb q path); [|exact Ha]. rewrite Ha. exact Lk.
  - destruct (gives k d kw); [|exact Ha]. unfold set_around. now destruct (more || _)%bool.
  - destruct (gives k d kw); [|exact Ha]. unfold set_around. now destruct (more || _)%bool.
  - now destruct (begins (path_parts q) (path_parts path)).
Qed.
(** A reset of a section around the item puts back what the files say, in the item's config and in those of the sections between them, and
    forgets the updates there. The loaded object, the local config and the sections further out stay. *)
Theorem C96_reset_of_a_section : forall path k file more q ac a, q <> path -> (exists t, path_parts path = path_parts q ++ t) ->
  let b := move path k file more (RReset (Some q) ac) a in
  a_own b = file /\ a_kept b = None /\ a_obj b = a_obj a /\ a_around b CLocal = a_around a CLocal /\
  (forall t, a_around b (CSec (path_parts q ++ t)) = let f := l_file (a_around a (CSec (path_parts q ++ t))) in Lay f None f) /\
  (forall q', (forall t, q' <> path_parts q ++ t) -> a_around b (CSec q') = a_around a (CSec q')).
Proof.
  intros path k file more q ac a Nq A b. unfold b. cbn [move]. apply String.eqb_neq in Nq. rewrite Nq. apply begins_iff in A. rewrite A.
  repeat (split; [reflexivity|]). cbn [read_again a_around below]. split.
  - intro t. assert (B : begins (path_parts q) (path_parts q ++ t) = true) by (apply begins_iff; eauto). now rewrite B.
  - intros q' N. destruct (begins (path_parts q) q') eqn:B; [|reflexivity]. apply begins_iff in B as (t & B). contradiction (N t B).
Qed.
(** What counts around the item is stored in its config by a run, as a persistent update; a refresh of the item brings it back. *)
Theorem C96_a_run_keeps_the_value_around : forall path k file more set a v, over (path_parts path) a = Some v ->
  let b := move path k file more (RRun set (AStr path)) a in
  a_own b = v /\ a_kept b = Some v /\ (a_obj a = None -> a_obj b = Some v).
Proof.
  intros path k file more set a v H b. unfold b. cbn [move]. rewrite String.eqb_refl. unfold look. rewrite H.
  destruct (a_obj a); (split; [reflexivity|]; split; [reflexivity|]); easy.
Qed.

(** What one would expect but does not hold. An update of the section is used by the next run: not if the function is loaded. *)
Theorem C96_section_update_used_refuted : exists ops,
  ops = [RRun Plain (AStr "sec.f"); RUpdate None (Some "sec") true [("y", VInt 5)]; RRun Plain (AStr "sec.f")] /\
  oa_calls (oa_then ops) = [Some (VInt 1); Some (VInt 1)].
Proof. eexists. split; [reflexivity|]. now vm_compute. Qed.
(** An update leaves the other arguments alone: not if a section's value was stored in between. *)
Theorem C96_update_only_its_own_arguments_refuted : exists ops,
  ops = [RRun Plain (AStr "sec.f"); RUpdate None (Some "sec") true [("y", VInt 5)]; RRun Plain (AStr "sec.f");
         RUpdate None (Some "sec.f") false [("x", VInt 2)]; RRun Plain (AStr "sec.f")] /\
  oa_calls (oa_then ops) = [Some (VInt 1); Some (VInt 1); Some (VInt 5)].
Proof. eexists. split; [reflexivity|]. now vm_compute. Qed.
(** A reset of the item brings back what its first run used: the first run used the section's value, and the one after the reset the file's. *)
Theorem C96_reset_brings_back_the_start_refuted : exists ops,
  ops = [RRun Plain (AStr "sec.f"); RReset (Some "sec.f") false; RRun Plain (AStr "sec.f")] /\
  oa_calls (oa_then ops) = [Some (VInt 1); Some (VInt 0)].
Proof. eexists. split; [reflexivity|]. now vm_compute. Qed.

(** A reset makes the config forget its updates: not if the values are the file's already. *)
Theorem C96_reset_forgets_refuted : exists ops,
  ops = [RUpdate None (Some "sec.f") true [("x", VInt 2)]; RUpdate None (Some "sec.f") false [("x", VInt 1)];
         RReset (Some "sec.f") false; RRefresh "sec.f"; RRun Plain (AStr "sec.f")] /\
  ls_calls (oa_then ops) = [Some (VInt 2)].
Proof. eexists. split; [reflexivity|]. now vm_compute. Qed.

(** After a reset of the section a run uses what the files say: not if the function is loaded. *)
Theorem C96_section_reset_used_refuted : exists ops,
  ops = [RRun Plain (AStr "a.b.f"); RUpdate None (Some "a.b.f") true [("y", VInt 6)]; RReset (Some "a") false; RRun Plain (AStr "a.b.f")] /\
  ra_calls (ra_then ops) = [Some (VInt 1); Some (VInt 6)].
Proof. eexists. split; [reflexivity|]. now vm_compute. Qed.

Example C96_section_reset_example :
  accepting ra_items is_user "a.b.f" (Fn "f" ["x"; "y"]) /\ (forall op, In op ra_ops -> permitted "base" "a.b.f" "y" op) /\
  all_pass "base" ra_items is_user "a.b.f" ra_start ra_ops /\
  (let a := OneArg_Spec.from_files "y" (VInt 0) (r_cms ra_start) in
   moves "base" ra_items is_user "a.b.f" "y" (VInt 0) ra_start ra_ops a (ra_run ra_flags ra_ops a) /\ a_obj (ra_run ra_flags ra_ops a) = Some (VInt 0)) /\
  ra_calls (ra_then ra_ops) = map (fun z => Some (VInt z)) [1; 0]%Z.
Proof.
  assert (Wd : forall k (v : pyval), dwf [(k, v)]) by (intros; apply NoDup_cons; [easy|apply NoDup_nil]).
  split; [|split; [|split; [|split]]].
  - split; [exists false, (TFunc (Fn "f" ["x"; "y"])); split; [vm_compute; reflexivity|now left]|]. left. exists false. vm_compute. reflexivity.
  - intros op I. unfold ra_ops in I. repeat destruct I as [<-|I]; try contradiction; right; try reflexivity; try (now exists ["b"; "f"]).
    + split; [apply Wd|]. split; [apply NoDup_nil|]. split; [now intros v [= <-]|]. now exists [].
    + split; [apply Wd|]. split; [apply NoDup_nil|]. split; [now intros v [= <-]|]. now exists ["f"].
    + split; [apply Wd|]. split; [apply NoDup_nil|]. split; [now intros v [= <-]|]. now exists ["f"].
    + split; [apply Wd|]. split; [apply NoDup_nil|]. split; [discriminate|]. now exists [].
  - vm_compute. repeat split; intro; reflexivity.
  - intro a. split; [|vm_compute; reflexivity]. unfold ra_run. assert (E : flags_of "base" ra_items is_user "y" ra_start ra_ops = ra_flags) by (vm_compute; reflexivity).
    rewrite <- E. exact (moves_flags "base" ra_items is_user "a.b.f" "y" (VInt 0) ra_ops ra_start a).
  - vm_compute. reflexivity.
Qed.
Example C96_example :
  accepting is_items is_user "sec.f" (Fn "f" ["x"; "y"]) /\ (forall op, In op oa_ops -> permitted "base" "sec.f" "y" op) /\
  all_pass "base" is_items is_user "sec.f" is_start oa_ops /\
  (forall r c v, In r (refs ["sec"; "f"]) -> current (r_cms is_start) r = Some c -> dget "y" (c_vals c) = Some v -> plain v = true) /\
  moves "base" is_items is_user "sec.f" "y" (VInt 0) is_start oa_ops oa_start (oa_run oa_flags oa_ops oa_start) /\
  a_obj (oa_run oa_flags oa_ops oa_start) = Some (VInt 0) /\
  oa_calls (oa_then oa_ops) = map (fun z => Some (VInt z)) [1; 1; 8; 5; 0; 0]%Z.
Proof.
  assert (Wd : forall k (v : pyval), dwf [(k, v)]) by (intros; apply NoDup_cons; [easy|apply NoDup_nil]).
  split; [|split; [|split; [|split; [|split; [|split]]]]].
  - split; [exists false, (TFunc (Fn "f" ["x"; "y"])); split; [vm_compute; reflexivity|now left]|]. left. exists false. vm_compute. reflexivity.
  - intros op I. unfold oa_ops in I. repeat destruct I as [<-|I]; try contradiction; right; try reflexivity; try (now exists []).
    + split; [apply Wd|]. split; [apply NoDup_nil|]. split; [now intros v [= <-]|]. now exists ["f"].
    + split; [apply Wd|]. split; [apply NoDup_nil|]. split; [now intros v [= <-]|]. now exists [].
    + split; [apply Wd|]. split; [apply NoDup_nil|]. split; [discriminate|]. now exists [].
  - vm_compute. repeat split; intro; reflexivity.
  - intros r c v [<-|[<-|[<-|[]]]] Hc Hv; vm_compute in Hc; try discriminate; injection Hc as <-; vm_compute in Hv; try discriminate. now injection Hv as <-.
  - unfold oa_run. assert (E : flags_of "base" is_items is_user "y" is_start oa_ops = oa_flags) by (vm_compute; reflexivity).
    rewrite <- E. exact (moves_flags "base" is_items is_user "sec.f" "y" (VInt 0) oa_ops is_start oa_start).
  - vm_compute. reflexivity.
  - vm_compute. reflexivity.
Qed.

Print Assumptions C96_the_argument_follows_the_machine.
Print Assumptions C96_in_one_way.
Print Assumptions C96_the_next_run_uses_it.
Print Assumptions C96_alone.
Print Assumptions C96_a_loaded_object_is_deaf.
Print Assumptions C96_a_run_keeps_the_value_around.
Print Assumptions C96_section_update_used_refuted.
Print Assumptions C96_update_only_its_own_arguments_refuted.
Print Assumptions C96_reset_brings_back_the_start_refuted.
Print Assumptions C96_reset_forgets_refuted.
Print Assumptions C96_reset_of_a_section.
Print Assumptions C96_section_reset_used_refuted.
