(** C31 and C56: batch updates and plugin contributions. *)
From Verif Require Import Iterate_Model ConfigTree_Spec Runner_Spec Iterate_Spec ConfigTree_Proofs ConfigOps_Proofs Batch_Proofs ConfigTree_Example Iterate_Example.
Local Open Scope string_scope.
Local Open Scope list_scope.

(* ------------------------------------------------------------------ *)
(** * C31 *)

(** A batch of updates, over whatever managers, has exactly the effect and outcome of the single updates one after the other
    up to the first failure. *)
Theorem C31_batch_is_the_sequence : forall U base strip qs xs w w' o,
  Forall2 (fun q x => addresses base strip q (s_manager x) (s_path x) /\ has_char dot (s_manager x) = false /\ free_kwargs (s_kw x)) qs xs ->
  (batch_update U [] base strip (List.combine qs (map as_body xs)) w = (w', o) <-> in_sequence U xs w w' o).
Proof.
  intros U base strip qs xs w w' o H. assert (S := batch_sequence U base strip qs xs w H). split.
  - intro E. rewrite E in S. exact S.
  - intro S'. destruct (in_sequence_fun _ _ _ _ _ _ _ S' S) as [-> ->]. apply surjective_pairing.
Qed.

(** [PipelineManager.update_batch] addresses items relative to the manager. *)
Theorem C31_update_batch : forall U name qs xs w w' o, has_char dot name = false ->
  Forall2 (fun q x => addresses (Some name) true q (s_manager x) (s_path x) /\ free_kwargs (s_kw x)) qs xs ->
  (update_batch U [] name (List.combine qs (map as_body xs)) w = (w', o) <-> in_sequence U xs w w' o).
Proof.
  intros U name qs xs w w' o Hn H. apply C31_batch_is_the_sequence. eapply Product_Proofs.forall2_impl_in; [|exact H].
  intros q x [Ha Hf]. split; [exact Ha|]. split; [|exact Hf]. now inversion Ha; subst.
Qed.

(** An update in a batch is persisted unless it says otherwise. *)
Theorem C31_persisted_by_default : forall U base strip q d kw w, free_kwargs kw ->
  batch_update U [] base strip [(q, Body d kw)] w =
  batch_update U [] base strip [(q, Body d (("pyfileconf_persist", VBool true) :: kw))] w.
Proof.
  intros U base strip q d kw w Hf. unfold batch_update. cbn [concat app iterM]. unfold batch_step, bind, lift. cbn [fst snd].
  destruct (from_ambiguous q strip base) as [sp|e]; [|reflexivity].
  unfold on_manager. destruct (dget (manager_of sp) w) as [p|]; [|reflexivity]. now rewrite update_call_default.
Qed.

(** If it fails, the updates before the failing one have taken effect, and those after it have not. *)
Theorem C31_failure_position : forall U base strip qs xs w w' e,
  Forall2 (fun q x => addresses base strip q (s_manager x) (s_path x) /\ has_char dot (s_manager x) = false /\ free_kwargs (s_kw x)) qs xs ->
  (batch_update U [] base strip (List.combine qs (map as_body xs)) w = (w', Raise e) <->
   exists done x rest w1, xs = done ++ x :: rest /\ in_sequence U done w w1 (Ok tt) /\ single_update U x w1 = (w', Raise e)).
Proof.
  intros U base strip qs xs w w' e H. rewrite (C31_batch_is_the_sequence U base strip qs xs w w' (Raise e) H). rewrite in_sequence_outcome. split.
  - intros [[Y _]|(done & x & rest & w1 & e' & A & B & C & D)]; [discriminate|]. injection D as <-. eauto 8.
  - intros (done & x & rest & w1 & A & B & C). right. exists done, x, rest, w1, e. auto.
Qed.

(** What batch plugins return is applied first. *)
Theorem C31_plugin_updates_first : forall U contributed base strip updates w,
  batch_update U contributed base strip updates w =
  match batch_update U [] base strip (concat contributed) w with
  | (w1, Ok _) => batch_update U [] base strip updates w1
  | (w1, Raise e) => (w1, Raise e)
  end.
Proof.
  intros U contributed base strip updates w. unfold batch_update. cbn [concat app]. revert w.
  induction (concat contributed) as [|q l IH]; intro w; [reflexivity|]. cbn [app iterM]. unfold bind.
  destruct (batch_step U base strip q w) as [w1 [[]|e]]; [apply IH|reflexivity].
Qed.

(** A failed batch is not undone. *)
Theorem C31_atomic_refuted : exists w updates w' e c c',
  update_batch ex_U [] "m" updates w = (w', Raise e) /\
  config_at w "m.f" = Some c /\ config_at w' "m.f" = Some c' /\ c_vals c' <> c_vals c.
Proof.
  exists ex_w, [(LStr "f", vals [("a", VInt 5)]); (LStr "nothing", vals [("a", VInt 5)])]. do 4 eexists.
  split; [vm_compute; reflexivity|]. split; [vm_compute; reflexivity|]. split; [vm_compute; reflexivity|]. discriminate.
Qed.

(** A view of another manager's item is taken to be an item of the same path in this manager. *)
Theorem C31_foreign_view_redirected : forall U name other path b w,
  has_char dot name = false -> has_char dot other = false ->
  update_batch U [] name [(LView (other ++ "." ++ path), b)] w = update_batch U [] name [(LStr path, b)] w.
Proof.
  intros U name other path b w Hn Ho. unfold update_batch, batch_update. cbn [concat app iterM]. unfold batch_step. cbn [fst snd].
  rewrite (SectionPath_Proofs.from_ambiguous_view_strip other path (Some name) Ho). cbn [from_ambiguous].
  now rewrite SectionPath_Proofs.sp_join_mk.
Qed.

Definition ex_batch : list single :=
  [Single "m" "f" (Some [("a", VInt 5)]) true [("b", VInt 6)]; Single "n" "x" None false [("k", VInt 4)]; Single "m" "sec.h" None true [("q", VInt 3)]].
Definition ex_batch_paths : list sp_like := [LStr "m.f"; LView "n.x"; LSp (mk_sp "m.sec.h")].
Example C31_nonvacuous :
  Forall2 (fun q x => addresses None false q (s_manager x) (s_path x) /\ has_char dot (s_manager x) = false /\ free_kwargs (s_kw x)) ex_batch_paths ex_batch /\
  (exists w', batch_update ex_U [] None false (List.combine ex_batch_paths (map as_body ex_batch)) ex_w = (w', Ok tt) /\
     match config_at w' "m.f", config_at w' "n.x", config_at w' "m.sec.h" with
     | Some c, Some c', Some c'' => c_vals c = [("a", VInt 5); ("b", VInt 6)] /\ c_vals c' = [("k", VInt 4)] /\ c_vals c'' = [("q", VInt 3)]
     | _, _, _ => False
     end).
Proof.
  split.
  - assert (F : forall l, forallb (fun k => negb (mem k ["self"; "d_"; "section_path_str"; "pyfileconf_persist"])) (dkeys l) = true -> free_kwargs l).
    { intros l H k Hk. destruct (dget k l) eqn:E; [|reflexivity]. exfalso. rewrite forallb_forall in H. apply dget_Some_In in E. apply (in_map fst) in E.
      specialize (H k E). cbn in H. in_cases Hk; discriminate. }
    unfold ex_batch_paths, ex_batch.
    constructor; [split; [exact (ad_str false "m" "f")|]; split; [reflexivity|now apply F]|].
    constructor; [split; [exact (ad_view "n" "x")|]; split; [reflexivity|now apply F]|].
    constructor; [split; [exact (ad_sp false "m" "sec.h")|]; split; [reflexivity|now apply F]|constructor].
  - eexists. split; [vm_compute; reflexivity|]. vm_compute. auto.
Qed.

(* ------------------------------------------------------------------ *)
(** * C56 *)

(** The values an update with plugins stores, by priority: the plugins' (a later one wins), then the keyword arguments, the
    dict argument, and what was there. They are stored if some value differs from a stored one; the config stays as it is
    otherwise. *)
Theorem C56_plugin_values : forall u ds d path persist kw s s' d' r c,
  Forall dwf ds -> dwf kw -> dwf (opt_dict d) -> free_kwargs kw -> Forall free_kwargs ds ->
  target (r_cms s) (path_parts path) = Some r -> current (r_cms s) r = Some c ->
  pm_update u ds d (Some path) persist kw s = (s', d', Ok tt) ->
  exists c', current (r_cms s') r = Some c' /\
    ((c' = c /\ forall k old v, dget k (c_vals c) = Some old -> first_of k (rev ds ++ [kw; opt_dict d]) = Some v -> values_are_equal old v = Ok true) \/
     ((forall k, dget k (c_vals c') = first_of k (rev ds ++ [kw; opt_dict d; c_vals c])) /\
      exists k old v, dget k (c_vals c) = Some old /\ first_of k (rev ds ++ [kw; opt_dict d]) = Some v /\ values_are_equal old v = Ok false)).
Proof.
  intros u ds d path persist kw s s' d' r c W Wk Wd Hk Hd Ht Hc H. now apply (proj2 (plugin_update _ _ _ _ _ _ _ _ _ _ W Wk Wd Hk Hd H)).
Qed.

(** The caller's own dict argument is changed: afterwards it also has the plugins' values. *)
Theorem C56_callers_dict_changed : forall u ds d0 path persist kw s s' d' o,
  Forall dwf ds -> dwf kw -> dwf d0 -> free_kwargs kw -> Forall free_kwargs ds ->
  pm_update u ds (Some d0) (Some path) persist kw s = (s', d', o) ->
  exists d1, d' = Some d1 /\ forall k, dget k d1 = first_of k (rev ds ++ [d0]).
Proof.
  intros u ds d0 path persist kw s s' d' o W Wk Wd Hk Hd H. exact (proj1 (plugin_update u ds (Some d0) _ _ _ _ _ _ _ W Wk Wd Hk Hd H)).
Qed.

(** A plugin (or caller) that gives one of update's own parameter names makes it raise TypeError, and nothing is updated. *)
Theorem C56_reserved_name_raises : forall u ds d path persist kw s k,
  Forall dwf ds -> In k ["self"; "d_"; "section_path_str"; "pyfileconf_persist"] -> (exists L, In L (kw :: ds) /\ In k (dkeys L)) ->
  exists d', pm_update u ds d path persist kw s = (s, d', Raise TypeError).
Proof.
  intros u ds d path persist kw s k W Hk HL. unfold pm_update. rewrite (reserved_some ds kw k W Hk HL). eauto.
Qed.

(** Plugins that contribute nothing change nothing. *)
Theorem C56_no_contributions : forall u n d path persist kw s, free_kwargs kw ->
  pm_update u (repeat [] n) d path persist kw s =
  (let '(s', r) := runner_update u d path persist kw s in (s', d, r)).
Proof.
  intros u n d path persist kw s Hk. rewrite <- pm_update_plain by exact Hk. unfold pm_update.
  assert (E : concat (repeat (@nil (string * pyval)) n) = []) by (induction n; [reflexivity|assumption]). now rewrite E.
Qed.

Definition ex_ds : list (dict pyval) := [[("a", VInt 1); ("b", VInt 1)]; [("b", VInt 9); ("new", VInt 0)]].
Example C56_nonvacuous : exists s' d' c',
  Forall dwf ex_ds /\ Forall free_kwargs ex_ds /\
  pm_update (ex_U ex_w "m") ex_ds (Some [("a", VInt 4); ("d", VInt 6)]) (Some "f") true [("b", VInt 3); ("c", VInt 5)] (loaded "m" m_disk) = (s', Some d', Ok tt) /\
  current (r_cms s') (CItem ["f"]) = Some c' /\
  c_vals c' = [("a", VInt 1); ("b", VInt 9); ("d", VInt 6); ("new", VInt 0); ("c", VInt 5)] /\
  d' = [("a", VInt 1); ("d", VInt 6); ("b", VInt 9); ("new", VInt 0)].
Proof.
  do 3 eexists. split; [repeat constructor; cbn; intuition discriminate|].
  split; [repeat constructor; intros k Hk; in_cases Hk; reflexivity|]. split; [vm_compute; reflexivity|]. split; [vm_compute; reflexivity|]. split; reflexivity.
Qed.

Print Assumptions C31_batch_is_the_sequence.
Print Assumptions C31_update_batch.
Print Assumptions C31_persisted_by_default.
Print Assumptions C31_failure_position.
Print Assumptions C31_plugin_updates_first.
Print Assumptions C31_atomic_refuted.
Print Assumptions C31_foreign_view_redirected.
Print Assumptions C56_plugin_values.
Print Assumptions C56_callers_dict_changed.
Print Assumptions C56_reserved_name_raises.
Print Assumptions C56_no_contributions.
