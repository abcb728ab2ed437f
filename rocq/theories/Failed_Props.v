(** C94: what an operation that raises leaves behind. *)
From Verif Require Import Failed_Spec Failed_Proofs.
From Coq Require Import ZArith.
Local Open Scope string_scope.
Local Open Scope list_scope.

(** An update that raises either changes nothing, or it is too late: the config has the new values, nothing else is different. Then
    the initialisation of the loaded instance raised, and the instance is as before; or, if a keyword is called d, the values have
    even been given to the object. What the initialisation did before it raised is not looked at. *)
Theorem C94_failed_update : forall u d path persist kw s s' e, cms_wf (r_cms s) -> dwf kw -> dwf (opt_dict d) ->
  runner_update u d (Some path) persist kw s = (s', Raise e) ->
  as_before s s' \/
  exists r c c', target (r_cms s) (path_parts path) = Some r /\ current (r_cms s) r = Some c /\ current (r_cms s') r = Some c' /\
    (forall k, dget k (c_vals c') = first_of k [kw; opt_dict d; c_vals c]) /\ only_config r s s' /\
    (init_raises u path s (c_vals c') e /\ r_loaded s' = r_loaded s \/
     dmem "d" kw = true /\ e = TypeError /\
     exists o o', dget path (r_loaded s) = Some o /\ given_values (c_vals c') o o' /\ r_loaded s' = dset path o' (r_loaded s)).
Proof.
  intros u d path persist kw s s' e W Wk Wd H.
  destruct (failed_update _ _ _ _ _ _ _ _ W Wk Wd H) as [B|(r & c & c' & Et & Ec & Ec' & -> & _ & _ & _ & O & R)]; [now left|right].
  exists r, c, (cfg_update c d persist kw). repeat (split; [assumption|]). split; [now apply update_merged|]. now split.
Qed.

(** After such a failure the same update does nothing any more, whatever the code does by then: the config already has the values. *)
Theorem C94_failed_update_is_not_repeated : forall u u' d path persist persist' kw s s' e,
  cms_wf (r_cms s) -> dwf kw -> dwf (opt_dict d) -> self_equal (dupdate (opt_dict d) kw) ->
  runner_update u d (Some path) persist kw s = (s', Raise e) -> ~ as_before s s' ->
  exists s'', runner_update u' d (Some path) persist' kw s' = (s'', Ok tt) /\ as_before s' s''.
Proof. exact failed_again. Qed.

(** So the values configured do not reach the object although the update succeeds when it is tried again. *)
Theorem C94_update_gives_the_values_refuted : exists u u' s s' path kw id k calls c,
  snd (runner_update u None (Some path) true kw s) = Raise (UserExn 1) /\
  runner_update u' None (Some path) true kw (fst (runner_update u None (Some path) true kw s)) = (s', Ok tt) /\
  (forall k a, u_init u' k a = None) /\
  current (r_cms s') (CItem [path]) = Some c /\ dget "x" (c_vals c) = Some (VInt 7) /\
  dget path (r_loaded s') = Some (LInst id k calls) /\ map (dget "x") calls = [Some (VInt 1)].
Proof.
  exists fl_user, fl_kind, fl_loaded, fl_again, "m", [("x", VInt 7)], 0, fl_class. do 2 eexists.
  split; [vm_compute; reflexivity|]. split; [vm_compute; reflexivity|]. split; [reflexivity|]. split; [vm_compute; reflexivity|].
  split; [vm_compute; reflexivity|]. split; vm_compute; reflexivity.
Qed.

(** The next update that changes something gives the instance all the values configured, the ones that failed as well. *)
Theorem C94_next_update_gives_everything : forall u d path persist kw s s' id k calls, cms_wf (r_cms s) -> dwf kw -> dwf (opt_dict d) ->
  runner_update u d (Some path) persist kw s = (s', Ok tt) -> dget path (r_loaded s) = Some (LInst id k calls) ->
  as_before s s' \/
  exists r c c' args, target (r_cms s) (path_parts path) = Some r /\ current (r_cms s) r = Some c /\ current (r_cms s') r = Some c' /\
    (forall x, dget x (c_vals c') = first_of x [kw; opt_dict d; c_vals c]) /\ passed k (c_vals c') args /\
    dget path (r_loaded s') = Some (LInst id k (calls ++ [args])).
Proof. exact update_passes. Qed.
Example C94_next_update_example :
  exists s', runner_update fl_kind None (Some "m") true [("y", VInt 3)] fl_failed = (s', Ok tt) /\
    exists calls, dget "m" (r_loaded s') = Some (LInst 0 fl_class calls) /\ map (dget "x") calls = [Some (VInt 1); Some (VInt 7)].
Proof. eexists. split; [vm_compute; reflexivity|]. eexists. split; vm_compute; reflexivity. Qed.

(** A refresh of an item that raises either changes nothing, or the config is the one the refresh leads to, the initialisation of
    the loaded instance raised, and nothing else is different. *)
Theorem C94_failed_refresh : forall u path s s' e, cms_wf (r_cms s) -> target (r_cms s) (path_parts path) = Some (CItem (path_parts path)) ->
  runner_refresh u path s = (s', Raise e) ->
  as_before s s' \/
  only_config (CItem (path_parts path)) s s' /\ r_loaded s' = r_loaded s /\
  (exists c, current (r_cms s') (CItem (path_parts path)) = Some c /\ init_raises u path s (c_vals c) e) /\
  forall u', (forall k a, u_init u' k a = None) -> exists s'', runner_refresh u' path s = (s'', Ok tt) /\
    forall r, current (r_cms s'') r = current (r_cms s') r.
Proof. exact failed_refresh. Qed.
Example C94_failed_refresh_example : exists s' c, runner_refresh fl_user "m" fl_edited = (s', Raise (UserExn 1)) /\
  current (r_cms s') (CItem ["m"]) = Some c /\ dget "x" (c_vals c) = Some (VInt 7) /\ r_loaded s' = r_loaded fl_edited.
Proof. do 2 eexists. split; [vm_compute; reflexivity|]. split; [vm_compute; reflexivity|]. split; vm_compute; reflexivity. Qed.

(** A reset of an item that raises either changes nothing, or the config has what its file says and nothing else is different: the
    initialisation of the loaded instance raised; or, if the file has a variable called d, the values have even been given to the
    object. *)
Theorem C94_failed_reset : forall base u path s s' e c, cms_wf (r_cms s) -> target (r_cms s) (path_parts path) = Some (CItem (path_parts path)) ->
  current (r_cms s) (CItem (path_parts path)) = Some c ->
  runner_reset base u (Some path) false s = (s', Raise e) ->
  as_before s s' \/
  exists content c', read_file (cs_disk (r_cms s)) (item_file (path_parts path)) = Ok content /\ only_config (CItem (path_parts path)) s s' /\
    current (r_cms s') (CItem (path_parts path)) = Some c' /\ c_vals c' = content /\ c_applied c' = [] /\
    (init_raises u path s content e /\ r_loaded s' = r_loaded s \/
     (exists v, dget "d" content = Some v /\ v <> VNone) /\ e = TypeError /\
     exists o o', dget path (r_loaded s) = Some o /\ given_values content o o' /\ r_loaded s' = dset path o' (r_loaded s)).
Proof. exact failed_reset. Qed.
Example C94_failed_reset_example : exists s' c, runner_reset "base" fl_user (Some "m") false fl_edited = (s', Raise (UserExn 1)) /\
  current (r_cms s') (CItem ["m"]) = Some c /\ dget "x" (c_vals c) = Some (VInt 7) /\ r_loaded s' = r_loaded fl_edited.
Proof. do 2 eexists. split; [vm_compute; reflexivity|]. split; [vm_compute; reflexivity|]. split; vm_compute; reflexivity. Qed.

(** A get of an item that raises loads nothing and calls nothing; at most the config of the item is different (it is brought up to
    date with the sections above). *)
Theorem C94_failed_get : forall its u path s s' own e, cms_wf (r_cms s) -> own_values (r_cms s) (path_parts path) = Some own -> is_thing its path ->
  runner_get its u path s = (s', Raise e) -> only_config (CItem (path_parts path)) s s' /\ r_loaded s' = r_loaded s.
Proof. exact failed_get. Qed.

(** Unlike an update it can be tried again: the class is then given the same arguments, and what it makes of these decides. *)
Theorem C94_failed_get_is_repeated : forall its u path s s' own k e, cms_wf (r_cms s) -> own_values (r_cms s) (path_parts path) = Some own ->
  is_class its path k -> runner_get its u path s = (s', Raise e) ->
  exists args, u_init u k args = Some e /\
    (forall x, dget x args = if mem x (class_args k) then effective (r_cms s) (path_parts path) own x else None) /\
    forall u', exists args', (forall x, dget x args' = dget x args) /\
      snd (runner_get its u' path s') = match u_init u' k args' with Some e' => Raise e' | None => Ok (GObj (LInst (r_next s') k [args'])) end.
Proof. exact get_again. Qed.
Example C94_failed_get_example : exists s', runner_get fl_items fl_user "m" fl_start7 = (s', Raise (UserExn 1)) /\ r_loaded s' = [] /\
  exists o, snd (runner_get fl_items fl_kind "m" s') = Ok (GObj o).
Proof. eexists. split; [vm_compute; reflexivity|]. split; [vm_compute; reflexivity|]. eexists. vm_compute. reflexivity. Qed.

(** A run of an item that raises has either loaded and called nothing, or it was the call of the item's object that raised: exactly
    this call was made, the object is loaded, and running the item again calls the same object. *)
Theorem C94_failed_run : forall its u path s s' own e, cms_wf (r_cms s) -> own_values (r_cms s) (path_parts path) = Some own -> is_thing its path -> u_pre_run u = [] ->
  pm_run its u Plain (AStr path) s = (s', Raise e) ->
  only_config (CItem (path_parts path)) s s' /\ r_loaded s' = r_loaded s \/
  exists o, (forall q, target (r_cms s') q = target (r_cms s) q) /\ (forall r, r <> CItem (path_parts path) -> current (r_cms s') r = current (r_cms s) r) /\
    cs_disk (r_cms s') = cs_disk (r_cms s) /\ (forall q, q <> path -> dget q (r_loaded s') = dget q (r_loaded s)) /\
    dget path (r_loaded s') = Some o /\ (forall o', dget path (r_loaded s) = Some o' -> o = o') /\
    r_calls s' = r_calls s ++ [(path, o)] /\ u_call u (r_calls s) path o = Raise e /\
    forall u', u_pre_run u' = [] -> let again := pm_run its u' Plain (AStr path) s' in
      r_calls (fst again) = r_calls s' ++ [(path, o)] /\ r_loaded (fst again) = r_loaded s' /\
      match u_call u' (r_calls s') path o with Raise e' => snd again = Raise e' | Ok v => u_post_run u' (RVal v) = [] -> snd again = Ok (RVal v) end.
Proof. exact failed_run. Qed.
Example C94_failed_run_example : exists s' o, pm_run fl_items fl_crash Plain (AStr "m") fl_start = (s', Raise (UserExn 2)) /\ r_calls s' = [("m", o)] /\
  dget "m" (r_loaded s') = Some o /\ exists s'', pm_run fl_items fl_kind Plain (AStr "m") s' = (s'', Ok (RVal VNone)) /\ r_calls s'' = [("m", o); ("m", o)].
Proof.
  do 2 eexists. split; [vm_compute; reflexivity|]. split; [vm_compute; reflexivity|]. split; [vm_compute; reflexivity|]. eexists. split; vm_compute; reflexivity.
Qed.
Example C94_failed_first_run_example : exists s', pm_run fl_items fl_user Plain (AStr "m") fl_start7 = (s', Raise (UserExn 1)) /\ r_calls s' = [] /\ r_loaded s' = [].
Proof. eexists. split; [vm_compute; reflexivity|]. split; vm_compute; reflexivity. Qed.

Print Assumptions C94_failed_update.
Print Assumptions C94_failed_update_is_not_repeated.
Print Assumptions C94_update_gives_the_values_refuted.
Print Assumptions C94_next_update_gives_everything.
Print Assumptions C94_failed_refresh.
Print Assumptions C94_failed_reset.
Print Assumptions C94_failed_get.
Print Assumptions C94_failed_get_is_repeated.
Print Assumptions C94_failed_run.
