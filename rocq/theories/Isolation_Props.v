(** C92: what is done to other items does not matter for an item. *)
From Verif Require Import Isolation_Spec Isolation_Proofs IsolationTwin_Proofs IsolationRun_Proofs ConfigWf_Proofs ConfigTree_Proofs ConfigOps_Proofs.
Local Open Scope string_scope.
Local Open Scope list_scope.

(** Two histories of the same project with the same operations on the item, on the configs of the sections around it and on the
    local config, and any operations on other items in between. *)
Theorem C92_only_own_operations_matter : forall base its u disk n s path ops ops',
  disk_ok disk -> runner_load base disk n = Ok s -> u_pre_run u = [] -> is_thing its path ->
  target (r_cms s) (path_parts path) = Some (CItem (path_parts path)) -> same_own base path ops ops' ->
  let a := fold_left (rop_run base its u) ops s in
  let b := fold_left (rop_run base its u) ops' s in
  own_values (r_cms a) (path_parts path) = own_values (r_cms b) (path_parts path) /\
  snd (get_config path a) = snd (get_config path b) /\
  alike_opt (dget path (r_loaded a)) (dget path (r_loaded b)) /\
  runs_alike its u path a b.
Proof.
  intros base its u disk n s path ops ops' D L P Th T H a b.
  assert (R := histories_agree base its u path ops ops' P Th H s s (agree_load base path disk n s D L T)). fold a b in R.
  split; [exact (agree_values base path a b R)|]. split; [exact (agree_config base path a b R)|]. split; [apply R|].
  exact (agree_runs base its u path a b P Th R).
Qed.

(** In particular operations on other items alone change nothing at all. *)
Theorem C92_other_operations_do_not_matter : forall base its u disk n s path ops,
  disk_ok disk -> runner_load base disk n = Ok s -> u_pre_run u = [] -> is_thing its path ->
  target (r_cms s) (path_parts path) = Some (CItem (path_parts path)) -> (forall op, In op ops -> foreign base (path_parts path) op) ->
  let a := fold_left (rop_run base its u) ops s in
  own_values (r_cms a) (path_parts path) = own_values (r_cms s) (path_parts path) /\
  snd (get_config path a) = snd (get_config path s) /\ dget path (r_loaded a) = None /\ runs_alike its u path a s.
Proof.
  intros base its u disk n s path ops D L P Th T F a.
  assert (H : same_own base path ops []).
  { clear - F. induction ops as [|op ops IH]; [apply so_nil|]. apply so_left; [apply F; now left|]. apply IH. intros. apply F. now right. }
  destruct (C92_only_own_operations_matter base its u disk n s path ops [] D L P Th T H) as (R1 & R2 & R3 & R4). cbn [fold_left] in *. fold a in R1, R2, R3, R4.
  split; [exact R1|]. split; [exact R2|]. split; [|exact R4].
  assert (E : dget path (r_loaded s) = None).
  { unfold runner_load in L. destruct (cm_load base disk); [|discriminate]. now injection L as <-. }
  rewrite E in R3. destruct (dget path (r_loaded a)); [contradiction|reflexivity].
Qed.

(** Also in the middle of a history: one operation on another item changes neither the item's config nor its loaded object. *)
Theorem C92_one_operation : forall base its u disk n s path ops ops' op,
  disk_ok disk -> runner_load base disk n = Ok s -> u_pre_run u = [] -> is_thing its path ->
  target (r_cms s) (path_parts path) = Some (CItem (path_parts path)) -> same_own base path ops ops' -> foreign base (path_parts path) op ->
  let a := fold_left (rop_run base its u) ops s in
  let a' := rop_run base its u a op in
  see (r_cms a') (path_parts path) = see (r_cms a) (path_parts path) /\ dget path (r_loaded a') = dget path (r_loaded a) /\
  snd (get_config path a') = snd (get_config path a).
Proof.
  intros base its u disk n s path ops ops' op D L P Th T H F a a'.
  assert (R := histories_agree base its u path ops ops' P Th H s s (agree_load base path disk n s D L T)). fold a in R.
  destruct (foreign_rstp base its u path op a P F (proj1 R)) as (I & (_ & _ & Fs & _) & Fl). fold a' in I, Fs, Fl. split; [exact Fs|]. split; [exact Fl|].
  assert (R' := foreign_left base its u path op a _ P F R). fold a' in R'.
  exact (eq_trans (agree_config base path _ _ R') (eq_sym (agree_config base path _ _ R))).
Qed.

(** Lists of runs are different: an item listed before may fail, and the item is not reached. *)
Theorem C92_lists_of_runs_refuted : exists base its u disk n s path q,
  disk_ok disk /\ runner_load base disk n = Ok s /\ u_pre_run u = [] /\ is_thing its path /\ apart base (path_parts path) (path_parts q) /\
  dget path (r_loaded (rop_run base its u s (RRun Plain (AList [path])))) <> None /\
  dget path (r_loaded (rop_run base its u s (RRun Plain (AList [q; path])))) = None.
Proof.
  exists "base", is_items, is_user, is_disk, 0, is_start, "sec.f", "sec.g".
  split; [exact is_disk_ok|]. split; [reflexivity|]. split; [reflexivity|]. split; [exact is_f_thing|]. split; [exact is_g_apart|].
  split; [vm_compute; discriminate|vm_compute; reflexivity].
Qed.

(** So are the sections around the item: running one of them stops at an item that fails. *)
Theorem C92_running_a_section_refuted : exists base its u u' disk n s path q sec,
  disk_ok disk /\ runner_load base disk n = Ok s /\ is_thing its path /\ apart base (path_parts path) (path_parts q) /\
  (forall h x o, x <> q -> u_call u h x o = u_call u' h x o) /\ u_init u = u_init u' /\ u_pre_run u = [] /\ u_pre_run u' = [] /\
  dget path (r_loaded (rop_run base its u s (RRun Plain (AStr sec)))) = None /\
  dget path (r_loaded (rop_run base its u' s (RRun Plain (AStr sec)))) <> None.
Proof.
  exists "base", is_items, is_user, is_user', is_disk, 0, is_start, "sec.f", "sec.g", "sec".
  split; [exact is_disk_ok|]. split; [reflexivity|]. split; [exact is_f_thing|]. split; [exact is_g_apart|].
  split; [intros h x o N; cbn; now rewrite (proj2 (String.eqb_neq x "sec.g") N)|]. split; [reflexivity|]. split; [reflexivity|]. split; [reflexivity|].
  split; [vm_compute; reflexivity|vm_compute; discriminate].
Qed.

(** A path that leads neither to the item nor to a section around it may still be a second name of a section's config. *)
Theorem C92_second_names_refuted : exists base its u disk n s path q d,
  disk_ok disk /\ runner_load base disk n = Ok s /\ u_pre_run u = [] /\ is_thing its path /\
  target (r_cms s) (path_parts path) = Some (CItem (path_parts path)) /\
  (forall t, path_parts path <> path_parts q ++ t) /\ (forall t, path_parts q <> path_parts path ++ t) /\
  snd (get_config path (rop_run base its u s (RUpdate (Some d) (Some q) true []))) <> snd (get_config path s).
Proof.
  exists "base", is_items, is_user, is_disk, 0, is_start, "sec.f", "sec.sec", [("y", VInt 6)].
  split; [exact is_disk_ok|]. split; [reflexivity|]. split; [reflexivity|]. split; [exact is_f_thing|].
  split; [vm_compute; reflexivity|]. split; [intros t E; vm_compute in E; discriminate|]. split; [intros t E; vm_compute in E; discriminate|].
  vm_compute. discriminate.
Qed.

(** The two example histories: with and without what is done to h and sec.g. *)
Example C92_example :
  same_own "base" "sec.f" is_busy is_idle /\
  (let a := fold_left (rop_run "base" is_items is_user) is_busy is_start in
   let b := fold_left (rop_run "base" is_items is_user) is_idle is_start in
   List.length (r_calls a) = 3 /\ r_calls b = [] /\
   option_map bound (dget "sec.f" (r_loaded a)) = Some (Some [("x", VInt 3); ("y", VInt 5)]) /\
   option_map bound (dget "sec.f" (r_loaded b)) = Some (Some [("x", VInt 3); ("y", VInt 5)])).
Proof.
  split.
  - unfold is_busy, is_idle. apply so_left; [exact is_h_apart|]. apply so_left; [exact is_g_apart|].
    apply so_own; [exists ["f"]; reflexivity|]. apply so_left; [intros q [<-|[<-|[]]]; [exact is_g_apart|exact is_h_apart]|].
    apply so_own; [reflexivity|]. apply so_left; [exact is_g_apart|]. apply so_left; [exact is_h_apart|].
    apply so_own; [exists []; reflexivity|]. apply so_left; [exact is_h_apart|]. apply so_nil.
  - vm_compute. repeat split.
Qed.
Example C92_example_runs :
  let a := fold_left (rop_run "base" is_items is_user) is_busy is_start in
  let b := fold_left (rop_run "base" is_items is_user) is_idle is_start in
  runs_alike is_items is_user "sec.f" a b /\ snd (get_config "sec.f" a) = snd (get_config "sec.f" b).
Proof.
  destruct (C92_only_own_operations_matter "base" is_items is_user is_disk 0 is_start "sec.f" is_busy is_idle is_disk_ok eq_refl eq_refl is_f_thing) as (_ & H2 & _ & H4).
  - vm_compute. reflexivity.
  - exact (proj1 C92_example).
  - split; [exact H4|exact H2].
Qed.

Print Assumptions C92_only_own_operations_matter.
Print Assumptions C92_other_operations_do_not_matter.
Print Assumptions C92_one_operation.
Print Assumptions C92_lists_of_runs_refuted.
Print Assumptions C92_running_a_section_refuted.
Print Assumptions C92_second_names_refuted.
