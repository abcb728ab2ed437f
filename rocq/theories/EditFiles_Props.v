(** C99: config files written by hand while the manager is in use. *)
From Verif Require Import EditFiles_Spec OneArg_Spec Iterate_Spec Isolation_Proofs IsolationRun_Proofs ConfigWf_Proofs ConfigTree_Proofs ConfigLoad_Proofs Selector_Proofs LastSet_Proofs OneArg_Proofs EditFiles_Proofs ConfigTree_Example.
From Coq Require Import ZArith.
Local Open Scope string_scope.
Local Open Scope list_scope.

(** An edit gives one file another content, and nothing else: not the other files, not the configs in memory, not the loaded objects. *)
Theorem C99_an_edit_changes_one_file : forall ref content old s, read_file (cs_disk (r_cms s)) ref = Ok old ->
  let s' := edit ref content s in
  read_file (cs_disk (r_cms s')) ref = Ok content /\ (forall ref', ref' <> ref -> read_file (cs_disk (r_cms s')) ref' = read_file (cs_disk (r_cms s)) ref') /\
  (forall q, see (r_cms s') q = see (r_cms s) q) /\ cs_local (r_cms s') = cs_local (r_cms s) /\ r_loaded s' = r_loaded s /\ r_calls s' = r_calls s.
Proof.
  intros [q f] content old s R s'. assert (E := fun ref' => edited_read q (cs_disk (r_cms s)) f content old ref' R). split; [|split].
  - etransitivity; [apply E|]. assert (Z : ref_eqb (q, f) (q, f) = true) by now apply ref_eqb_iff. now rewrite Z.
  - intros ref' N. etransitivity; [apply E|]. destruct (ref_eqb ref' (q, f)) eqn:Z; [apply ref_eqb_iff in Z; contradiction|reflexivity].
  - repeat split.
Qed.

(** In a history of operations and edits the machine of [EditFiles_Spec] says exactly what the argument is, what the item's file says about
    it, and whether the file has been read. The machine can always follow, in one way only. *)
Theorem C99_the_argument_follows_the_machine : forall base its u disk n s path k x content file steps,
  disk_ok disk -> runner_load base disk n = Ok s -> u_pre_run u = [] -> accepting its u path x -> In k (f_args x) -> k <> "d_" -> k <> "E" ->
  target (r_cms s) (path_parts path) = Some (CItem (path_parts path)) ->
  read_file disk (item_file (path_parts path)) = Ok content -> dget k content = Some file -> plain file = true ->
  (forall r c v, In r (refs (path_parts path)) -> current (r_cms s) r = Some c -> dget k (c_vals c) = Some v -> plain v = true) ->
  all_careful base its u path k s steps ->
  let start := Known file true (OneArg_Spec.from_files k file (r_cms s)) in
  (exists a, follows base its u path k s steps start a) /\
  forall a, follows base its u path k s steps start a -> n_shows path k a (fold_left (step_run base its u) steps s).
Proof.
  intros base its u disk n s path k x content file steps D L P Hi Hk Nd NE T R F Pf U A start. apply mem_In in Hk.
  assert (S := start_known base path k x content file disk n s D L T R F Pf U). split; [apply can_follow|]. intros a Fo.
  apply okn_shows with (base := base) (x := x). exact (follows_ok base its u path k x Hk P steps Hi Nd NE _ s a A S Fo).
Qed.
Theorem C99_in_one_way : forall base its u path k steps s n n1 n2,
  follows base its u path k s steps n n1 -> follows base its u path k s steps n n2 -> n1 = n2.
Proof.
  intros base its u path k steps. induction steps as [|[op|ref ct] steps IH]; intros s n n1 n2 H1 H2; cbn [follows] in *; [congruence| |exact (IH _ _ _ _ H1 H2)].
  destruct H1 as (m1 & E1 & H1), H2 as (m2 & E2 & H2). assert (m1 = m2) by (apply Bool.eq_iff_eq_true; now rewrite E1, E2). subst m2. exact (IH _ _ _ _ H1 H2).
Qed.
(** The next run calls the item once, with the value the machine says. *)
Theorem C99_the_next_run_uses_it : forall base its u disk n s path k x content file steps set a,
  disk_ok disk -> runner_load base disk n = Ok s -> u_pre_run u = [] -> accepting its u path x -> In k (f_args x) -> k <> "d_" -> k <> "E" ->
  target (r_cms s) (path_parts path) = Some (CItem (path_parts path)) ->
  read_file disk (item_file (path_parts path)) = Ok content -> dget k content = Some file -> plain file = true ->
  (forall r c v, In r (refs (path_parts path)) -> current (r_cms s) r = Some c -> dget k (c_vals c) = Some v -> plain v = true) ->
  all_careful base its u path k s steps ->
  follows base its u path k s steps (Known file true (OneArg_Spec.from_files k file (r_cms s))) a ->
  let b := fold_left (step_run base its u) steps s in
  exists o v w, r_calls (fst (pm_run its u set (AStr path) b)) = r_calls b ++ [(path, o)] /\ dget k (arguments o) = Some v /\ same_value v w /\
    (a_obj (n_arg a) = Some w \/ a_obj (n_arg a) = None /\ w = match over (path_parts path) (n_arg a) with Some y => y | None => a_own (n_arg a) end).
Proof.
  intros base its u disk n s path k x content file steps set a D L P Hi Hk Nd NE T R F Pf U A Fo b. apply mem_In in Hk.
  assert (S := start_known base path k x content file disk n s D L T R F Pf U).
  assert (H := follows_ok base its u path k x Hk P steps Hi Nd NE _ s a A S Fo). fold b in H. destruct H as (ct & _ & _ & H & _).
  destruct Hi as ((b0 & th & Hf & K) & Ki). assert (Hinit : th = TFunc x \/ forall args, u_init u x args = None).
  { destruct Ki as [(b' & Hf')|Ki]; [left; congruence|now right]. }
  destruct (run_ok base its u path k x ct Hk P b0 th Hf Hinit (n_arg a) b set H K) as (_ & o & w & E1 & E2 & _ & v & E3 & E4).
  exists o, v, w. split; [exact E1|]. split; [exact E3|]. split; [exact E4|]. rewrite obtain_look in E2. destruct (a_obj (n_arg a)) as [w'|] eqn:Ea.
  - left. rewrite look_obj in E2. congruence.
  - right. split; [reflexivity|]. injection E2 as <-. unfold look. now destruct (over (path_parts path) (n_arg a)).
Qed.
(** Without edits it is the machine of C96. *)
Theorem C99_without_edits : forall base its u path k ops s n n',
  follows base its u path k s (map Do ops) n n' -> n_file n' = n_file n /\ moves base its u path k (n_file n) s ops (n_arg n) (n_arg n').
Proof.
  intros base its u path k ops. induction ops as [|op ops IH]; intros s n n' H; cbn [map follows moves] in *; [now subst n'|].
  destruct H as (more & M & H). apply IH in H as (H1 & H2). split; [exact H1|]. exists more. split; [exact M|exact H2].
Qed.

(** What an edit of the item's file does: if the file has been read, nothing but that resets and refreshes see the new value; if it has
    not been read, the config gets the new value. The loaded object never changes. *)
Theorem C99_edit_of_a_read_file : forall path k content v n, dget k content = Some v -> n_unread n = false ->
  on_edit path k (item_file (path_parts path)) content n = Known v false (n_arg n).
Proof.
  intros path k content v n E U. unfold on_edit. assert (Z : ref_eqb (item_file (path_parts path)) (item_file (path_parts path)) = true) by now apply ref_eqb_iff.
  now rewrite Z, E, U.
Qed.
Theorem C99_edit_of_an_unread_file : forall path k content v n, dget k content = Some v -> n_unread n = true ->
  let n' := on_edit path k (item_file (path_parts path)) content n in
  n_file n' = v /\ n_unread n' = true /\ a_own (n_arg n') = v /\ a_obj (n_arg n') = a_obj (n_arg n) /\ over (path_parts path) (n_arg n') = over (path_parts path) (n_arg n).
Proof.
  intros path k content v n E U n'. unfold n', on_edit. assert (Z : ref_eqb (item_file (path_parts path)) (item_file (path_parts path)) = true) by now apply ref_eqb_iff.
  rewrite Z, E, U. repeat split.
Qed.
(** A section's file has always been read: an edit of it is not seen until the section is refreshed or read again. *)
Theorem C99_edit_of_a_section : forall path k q content n, item_file (path_parts path) <> (q, "section.py") ->
  let n' := on_edit path k (q, "section.py") content n in
  n_file n' = n_file n /\ n_unread n' = n_unread n /\ a_own (n_arg n') = a_own (n_arg n) /\ a_kept (n_arg n') = a_kept (n_arg n) /\ a_obj (n_arg n') = a_obj (n_arg n) /\
  over (path_parts path) (n_arg n') = over (path_parts path) (n_arg n) /\ l_file (a_around (n_arg n') (CSec q)) = dget k content.
Proof.
  intros path k q content n N n'. unfold n', on_edit. destruct (ref_eqb (q, "section.py") (item_file (path_parts path))) eqn:Z; [apply ref_eqb_iff in Z; congruence|].
  cbn [fst snd]. change (String.eqb "section.py" "section.py") with true. cbn [n_file n_unread n_arg a_own a_kept a_obj a_around put_around].
  repeat (split; [reflexivity|]). split.
  - unfold over. cbn [a_around]. induction (refs (path_parts path)) as [|r l IH]; [reflexivity|]. cbn [fold_right]. rewrite IH. f_equal.
    cbn [put_around a_around]. destruct (ref_dec r (CSec q)) as [->|]; reflexivity.
  - cbn [put_around a_around]. destruct (ref_dec (CSec q) (CSec q)); [reflexivity|contradiction].
Qed.
(** After the edit a reset of the item brings the new value, also into the loaded object; so does a refresh, unless an update is remembered. *)
Theorem C99_reset_after_the_edit : forall path k content v n more ac, dget k content = Some v -> n_unread n = false -> equal (a_own (n_arg n)) v = false ->
  let n' := on_edit path k (item_file (path_parts path)) content n in
  let b := move path k (n_file n') more (RReset (Some path) ac) (n_arg n') in
  a_own b = v /\ a_kept b = None /\ (forall w, a_obj (n_arg n) = Some w -> a_obj b = Some v).
Proof.
  intros path k content v n more ac E U Nq n' b. unfold b, n'. rewrite (C99_edit_of_a_read_file _ _ _ _ _ E U). cbn [n_file n_arg move]. rewrite String.eqb_refl, Nq.
  rewrite Bool.orb_true_r. unfold hand_on. cbn [a_obj]. destruct (a_obj (n_arg n)); (split; [reflexivity|]; split; [reflexivity|]); [reflexivity|discriminate].
Qed.
Theorem C99_refresh_after_the_edit : forall path k content v n more, dget k content = Some v -> n_unread n = false ->
  let n' := on_edit path k (item_file (path_parts path)) content n in
  let b := move path k (n_file n') more (RRefresh path) (n_arg n') in
  (forall w, a_kept (n_arg n) = Some w -> equal (a_own (n_arg n)) w = true -> more = false -> b = n_arg n) /\
  (a_kept (n_arg n) = None -> equal (a_own (n_arg n)) v = false -> over (path_parts path) (n_arg n) = None ->
   a_own b = v /\ (forall w, a_obj (n_arg n) = Some w -> a_obj b = Some v)).
Proof.
  intros path k content v n more E U n' b. unfold b, n'. rewrite (C99_edit_of_a_read_file _ _ _ _ _ E U). cbn [n_file n_arg move]. rewrite String.eqb_refl. cbn zeta. split.
  - intros w -> -> ->. reflexivity.
  - intros -> -> O. rewrite Bool.orb_true_r. unfold look. change (over (path_parts path) {| a_own := v; a_kept := None; a_obj := a_obj (n_arg n); a_around := a_around (n_arg n) |}) with (over (path_parts path) (n_arg n)).
    rewrite O. destruct (a_obj (n_arg n)); (split; [reflexivity|]); [reflexivity|discriminate].
Qed.
(** A reset of a section around the item makes the config follow the file again, until it is read. *)
Theorem C99_section_reset_and_edit : forall path k content v n more q ac, dget k content = Some v -> q <> path -> (exists t, path_parts path = path_parts q ++ t) ->
  let op := RReset (Some q) ac in
  let n1 := Known (n_file n) (still_unread path op (n_arg n) (n_unread n)) (move path k (n_file n) more op (n_arg n)) in
  let n2 := on_edit path k (item_file (path_parts path)) content n1 in
  n_unread n1 = true /\ a_own (n_arg n1) = n_file n /\ n_unread n2 = true /\ a_own (n_arg n2) = v /\ a_kept (n_arg n2) = None /\ a_obj (n_arg n2) = a_obj (n_arg n).
Proof.
  intros path k content v n more q ac E Nq A op n1 n2. apply String.eqb_neq in Nq. apply begins_iff in A.
  assert (U : n_unread n1 = true) by (unfold n1, op; cbn [still_unread n_unread]; now rewrite Nq, A).
  assert (M : n_arg n1 = read_again (path_parts q) (n_file n) (n_arg n)) by (unfold n1, op; cbn [n_arg move]; now rewrite Nq, A).
  destruct (C99_edit_of_an_unread_file path k content v n1 E U) as (_ & E2 & E3 & E4 & _). fold n2 in E2, E3, E4.
  split; [exact U|]. split; [now rewrite M|]. split; [exact E2|]. split; [exact E3|]. split; [|now rewrite E4, M].
  unfold n2, on_edit. assert (Z : ref_eqb (item_file (path_parts path)) (item_file (path_parts path)) = true) by now apply ref_eqb_iff.
  rewrite Z, E, U. cbn [n_arg a_kept]. now rewrite M.
Qed.

(** What one would expect but does not hold. An edit is used by the next run: *)
Theorem C99_edit_used_by_the_next_run_refuted : exists steps, steps = [run_g; ef_g 5; run_g] /\ ef_calls (ef_then steps) = [Some (VInt 0); Some (VInt 0)].
Proof. eexists. split; [reflexivity|]. now vm_compute. Qed.
(** an edit is used only after a reset or refresh: *)
Theorem C99_edit_needs_a_reload_refuted : exists steps, steps = [ef_g 5; run_g] /\ ef_calls (ef_then steps) = [Some (VInt 5)].
Proof. eexists. split; [reflexivity|]. now vm_compute. Qed.
(** an edit before the first run is used by it: not an edit of a section's file; *)
Theorem C99_edit_before_the_first_run_refuted : exists steps, steps = [ef_sec 7; run_f] /\ ef_calls (ef_then steps) = [Some (VInt 1)].
Proof. eexists. split; [reflexivity|]. now vm_compute. Qed.
(** a refresh brings in the edit: not if an update of the argument is remembered; *)
Theorem C99_refresh_brings_in_the_edit_refuted : exists steps,
  steps = [Do (RUpdate None (Some "g") true [("y", VInt 3)]); ef_g 5; Do (RRefresh "g"); run_g] /\ ef_calls (ef_then steps) = [Some (VInt 3)].
Proof. eexists. split; [reflexivity|]. now vm_compute. Qed.
(** after an update of another argument the first run still uses the edited file: the update has read the file. *)
Theorem C99_update_of_another_argument_refuted : exists steps,
  steps = [Do (RUpdate None (Some "g") true [("x", VInt 3)]); ef_g 5; run_g] /\ ef_calls (ef_then steps) = [Some (VInt 0)].
Proof. eexists. split; [reflexivity|]. now vm_compute. Qed.

Example C99_example :
  disk_ok ef_disk /\ runner_load "base" ef_disk 0 = Ok ef_start /\ accepting ef_items is_user "g" (Fn "g" ["x"; "y"]) /\
  target (r_cms ef_start) ["g"] = Some (CItem ["g"]) /\
  all_careful "base" ef_items is_user "g" "y" ef_start [ef_g 4; run_g; ef_g 5; ef_sec 7; run_g; Do (RRefresh "g"); run_g] /\
  ef_calls (ef_then [ef_g 4; run_g; ef_g 5; ef_sec 7; run_g; Do (RRefresh "g"); run_g]) = map (fun z => Some (VInt z)) [4; 4; 5]%Z.
Proof.
  split; [split; [now apply dir_check_ok|]; intros [folders f] content; now apply dir_check_wf|]. split; [vm_compute; reflexivity|].
  split; [split; [exists false, (TFunc (Fn "g" ["x"; "y"])); split; [vm_compute; reflexivity|now left]|left; exists false; vm_compute; reflexivity]|].
  split; [vm_compute; reflexivity|]. split; [|vm_compute; reflexivity].
  assert (W2 : forall v w : pyval, dwf [("x", v); ("y", w)]) by (intros; repeat (apply NoDup_cons; [cbn; intuition discriminate|]); apply NoDup_nil).
  assert (W1 : forall v : pyval, dwf [("y", v)]) by (intros; repeat (apply NoDup_cons; [cbn; intuition discriminate|]); apply NoDup_nil).
  cbn [all_careful ef_g ef_sec run_g]. split; [|split; [|split; [|split; [|split; [|split; [|split; [|exact Logic.I]]]]]]].
  - split; [apply W2|]. eexists. split; [vm_compute; reflexivity|]. intros _. split; [reflexivity|]. now intros v [= <-].
  - split; [right; reflexivity|exact Logic.I].
  - split; [apply W2|]. eexists. split; [vm_compute; reflexivity|]. intros _. split; [reflexivity|]. now intros v [= <-].
  - split; [apply W1|]. eexists. split; [vm_compute; reflexivity|]. intros [E|(q & I & E)]; [discriminate|].
    injection E as <-. vm_compute in I. intuition discriminate.
  - split; [right; reflexivity|exact Logic.I].
  - split; [right; exists []; reflexivity|]. intros _. vm_compute. reflexivity.
  - split; [right; reflexivity|exact Logic.I].
Qed.
Example C99_section_example :
  ef_calls (ef_then [ef_sec 7; Do (RRefresh "sec"); run_f; ef_sec 8; Do (RRefresh "sec"); run_f]) = [Some (VInt 7); Some (VInt 7)].
Proof. vm_compute. reflexivity. Qed.
Print Assumptions C99_an_edit_changes_one_file.
Print Assumptions C99_the_argument_follows_the_machine.
Print Assumptions C99_in_one_way.
Print Assumptions C99_the_next_run_uses_it.
Print Assumptions C99_without_edits.
Print Assumptions C99_edit_of_a_read_file.
Print Assumptions C99_edit_of_an_unread_file.
Print Assumptions C99_edit_of_a_section.
Print Assumptions C99_reset_after_the_edit.
Print Assumptions C99_refresh_after_the_edit.
Print Assumptions C99_section_reset_and_edit.
Print Assumptions C99_edit_used_by_the_next_run_refuted.
Print Assumptions C99_edit_needs_a_reload_refuted.
Print Assumptions C99_edit_before_the_first_run_refuted.
Print Assumptions C99_refresh_brings_in_the_edit_refuted.
Print Assumptions C99_update_of_another_argument_refuted.
