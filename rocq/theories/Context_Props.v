(** C35-C37: the execution stack and the recorded dependencies. *)
From Verif Require Import Context_Model Context_Spec Context_Proofs.
Local Open Scope string_scope.
Local Open Scope list_scope.

(* ------------------------------------------------------------------ *)
(** * C35 *)

(** Whatever is run and loaded within whatever, and wherever exceptions occur or are caught, the stack is the same afterwards. *)
Theorem C35_stack_is_balanced : forall l s s' r,
  forallb no_reset l = true -> exec_block l s = (s', r) -> stack s' = stack s.
Proof.
  intros l s s' r H E. destruct (block_right l) with (env := rev (stack s)) (s := s) as (A & _).
  - apply Forall_forall. intros c _. apply exec_right.
  - exact H.
  - now rewrite rev_involutive.
  - rewrite E in A. exact A.
Qed.

(** In particular for running one item, whatever its function does. *)
Theorem C35_running_an_item_is_balanced : forall path body s s' r,
  forallb no_reset body = true -> exec_block (run_item path body) s = (s', r) -> stack s' = stack s.
Proof. intros path body s s' r H. apply C35_stack_is_balanced. cbn. now rewrite H. Qed.

Example C35_example : exists s', exec_block
    [Within (Ok (Frame "mgr.a" RUN)) [Call Observe; load_file (Ok "mgr.b") [Call (DepLoading "mgr.c" true); Call (Fail KeyError)]]] empty_ctx
  = (s', Raise KeyError) /\ stack s' = [] /\ deps s' = [("mgr.c", ["mgr.b"])].
Proof. eexists. split; [reflexivity|]. split; reflexivity. Qed.

(** Resetting the context from within a run breaks it: the run raises IndexError at its end, whatever the function did
    otherwise, provided it does not open further frames after the reset. *)
Theorem C35_reset_within_a_run_raises : forall path before s s1,
  exec_block before (push (Frame path RUN) s) = (s1, Ok tt) ->
  exec_block (run_item path (before ++ [Call ResetContext])) s = (Ctx [] [] [] (log s1), Raise IndexError).
Proof.
  intros path before s s1 E. unfold run_item, exec_block. cbn [iterM]. unfold bind. rewrite exec_within.
  assert (B : exec_block (before ++ [Call ResetContext]) (push (Frame path RUN) s) = (Ctx [] [] [] (log s1), Ok tt)).
  { unfold exec_block in E |- *. revert E. generalize (push (Frame path RUN) s). induction before as [|c l IH]; intros s0 E; cbn [app iterM] in E |- *.
    - injection E as ->. reflexivity.
    - unfold bind in E |- *. destruct (exec c s0) as [s2 [[]|e]]; [|discriminate]. now apply IH. }
  rewrite B. reflexivity.
Qed.

(** ... and inside two runs, catching that exception in the outer function leaves the outer run to fail the same way. *)
Theorem C35_balanced_despite_reset_refuted : exists inner outer path path' s s',
  inner = run_item path [Call ResetContext] /\ outer = run_item path' [Try inner] /\
  exec_block outer s = (s', Raise IndexError) /\ stack s = [Frame "mgr.main" RUN] /\ stack s' = [].
Proof.
  exists (run_item "mgr.b" [Call ResetContext]), (run_item "mgr.a" [Try (run_item "mgr.b" [Call ResetContext])]), "mgr.b", "mgr.a",
    (Ctx [Frame "mgr.main" RUN] [] [] []), (Ctx [] [] [] []). repeat split.
Qed.

(* ------------------------------------------------------------------ *)
(** * C36 *)

(** What code can see of the context, and its outcome, depend only on what encloses it: the item reported as running is
    that of the innermost enclosing run, the file reported as being loaded that of the innermost enclosing load. *)
Theorem C36_observations_follow_the_nesting : forall l env s s' r,
  forallb no_reset l = true -> stack s = rev env -> exec_block l s = (s', r) ->
  log s' = log s ++ m_obs (sequence (map (means env) l)) /\ r = m_out (sequence (map (means env) l)).
Proof.
  intros l env s s' r H Hs E. destruct (block_right l) with (env := env) (s := s) as (_ & B & _ & D).
  - apply Forall_forall. intros c _. apply exec_right.
  - exact H.
  - exact Hs.
  - rewrite E in B, D. auto.
Qed.

(** The recorded dependencies are those already there and those the calls add, each attributed to the innermost enclosing
    run or load. *)
Theorem C36_dependencies_follow_the_nesting : forall l env s s' r x k,
  forallb no_reset l = true -> stack s = rev env -> exec_block l s = (s', r) ->
  let rec := m_rec (sequence (map (means env) l)) in
  (In x (entry k (deps s')) <-> In x (entry k (deps s)) \/ x <> k /\ exists f, In (x, k, f) rec) /\
  (In x (entry k (forced s')) <-> In x (entry k (forced s)) \/ x <> k /\ In (x, k, true) rec).
Proof.
  intros l env s s' r x k H Hs E. destruct (block_right l) with (env := env) (s := s) as (_ & _ & C & _).
  - apply Forall_forall. intros c _. apply exec_right.
  - exact H.
  - exact Hs.
  - rewrite E in C. apply C.
Qed.

(** inside a run the item itself is seen, after it the surrounding one again *)
Theorem C36_own_path_inside_outer_path_after : forall path body s s1 s',
  forallb no_reset body = true ->
  exec_block (Call Observe :: body) (push (Frame path RUN) s) = (s1, Ok tt) ->
  exec_block [Within (Ok (Frame path RUN)) (Call Observe :: body); Call Observe] s = (s', Ok tt) ->
  exists between o1 o2, log s' = log s ++ o1 :: between ++ [o2] /\ running o1 = Some path /\ running o2 = currently_running s.
Proof.
  intros path body s s1 s' H E1 E2. assert (Hs : stack s = rev (rev (stack s))) by now rewrite rev_involutive.
  destruct (C36_observations_follow_the_nesting [Within (Ok (Frame path RUN)) (Call Observe :: body); Call Observe] (rev (stack s)) s s' (Ok tt)) as (A & B);
    [cbn; now rewrite H|exact Hs|exact E2|].
  rewrite A. cbn [map means sequence m_out] in *.
  destruct (m_out (sequence (map (means (Frame path RUN :: rev (stack s))) body))) as [[]|e] eqn:Em; [|discriminate].
  cbn [m_obs]. exists (m_obs (sequence (map (means (Frame path RUN :: rev (stack s))) body))), (should_observe (Frame path RUN :: rev (stack s))),
    (should_observe (rev (stack s))). split; [reflexivity|]. split; [reflexivity|].
  unfold should_observe. cbn [running]. rewrite <- newest_innermost, rev_involutive. reflexivity.
Qed.

Example C36_example : exists s', exec_block
    (run_item "mgr.a" (Call Observe :: run_item "mgr.b" [Call Observe] ++ [load_file (Ok "mgr.c") [Call Observe]; Call Observe])) empty_ctx = (s', Ok tt) /\
  log s' = [Obs (Some "mgr.a") false None; Obs (Some "mgr.b") false None; Obs (Some "mgr.a") true (Some "mgr.c"); Obs (Some "mgr.a") false None] /\
  deps s' = [("mgr.b", ["mgr.a"])] /\ forced s' = [("mgr.b", ["mgr.a"])].
Proof. eexists. split; [vm_compute; reflexivity|]. split; [reflexivity|]. split; reflexivity. Qed.

(** "Running" and "loading" are separate: while an item running inside a config file looks up another one, the dependency is
    recorded for the running item, and for the file whose execution started the run. *)
Theorem C36_run_inside_a_file : forall file item other s,
  stack s = [] -> item <> other -> file <> other ->
  let s' := fst (exec (load_file (Ok file) [Within (Ok (Frame item RUN)) (map Call [DepLoading other true; DepRunning other true])]) s) in
  In item (entry other (deps s')) /\ In file (entry other (deps s')).
Proof.
  intros file item other s Hs H1 H2. cbv zeta.
  set (c := load_file (Ok file) [Within (Ok (Frame item RUN)) (map Call [DepLoading other true; DepRunning other true])]).
  destruct (exec_right c eq_refl [] s Hs) as (_ & _ & C & _). split; apply C; right; (split; [assumption|]); exists true; cbn; auto.
Qed.

(* ------------------------------------------------------------------ *)
(** * C37 *)

(** Nothing ever depends on itself and forced dependencies are dependencies, in every history starting from a fresh context,
    resets included. *)
Theorem C37_dependencies_are_well_formed : forall l s' r,
  exec_block l empty_ctx = (s', r) -> deps_ok s'.
Proof.
  intros l s' r E. assert (O : deps_ok empty_ctx).
  { split; [|split; [|split]]; try (intros k x []); intro k; constructor. }
  assert (X : forall c s, deps_ok s -> deps_ok (fst (exec c s))).
  { intro c. assert (Y := exec_invariant (fun a b => deps_ok a -> deps_ok b) (fun _ => true)). specialize (fun A B C D F G => Y A B C D F G c eq_refl).
    intro s. apply Y; auto.
    - intros _ body _. now apply forallb_forall.
    - intros body _. now apply forallb_forall.
    - clear - O. intros c s _ W. destruct c; cbn [do_call fst].
      + now apply add_dep_ok.
      + destruct (currently_running s); [now apply add_dep_ok|exact W].
      + destruct (file_is_being_loaded s); [destruct (currently_loading s); [now apply add_dep_ok|exact W]|exact W].
      + exact W.
      + exact W.
      + exact O. }
  revert E O. unfold exec_block. generalize empty_ctx. induction l as [|c l IH]; intros s E O; cbn [iterM] in E.
  - injection E as <- <-. exact O.
  - unfold bind in E. specialize (X c s O). destruct (exec c s) as [s1 [[]|e]]; [now apply IH in E|]. injection E as <- <-. exact X.
Qed.

(** dependencies only ever get added *)
Theorem C37_dependencies_grow : forall l s s' r,
  forallb no_reset l = true -> exec_block l s = (s', r) -> deps_grow s s'.
Proof.
  intros l s s' r H E. assert (Hs : stack s = rev (rev (stack s))) by now rewrite rev_involutive.
  split; intros k x Hx; apply (C36_dependencies_follow_the_nesting l (rev (stack s)) s s' r x k H Hs E); now left.
Qed.

(** Getting an item through the selector records it for the file that is being executed, even if loading the item then raises,
    and, if that works, for the item that is running. *)
Theorem C37_getting_through_the_selector_is_recorded : forall depends_on body env s s' r,
  forallb no_reset body = true -> stack s = rev env -> exec_block (get_through_selector depends_on body) s = (s', r) ->
  (forall file, innermost LOAD_FILE_EXECUTE env = Some file -> file <> depends_on ->
     In file (entry depends_on (deps s')) /\ In file (entry depends_on (forced s'))) /\
  (forall item, innermost RUN env = Some item -> item <> depends_on -> r = Ok tt ->
     In item (entry depends_on (deps s')) /\ In item (entry depends_on (forced s'))).
Proof.
  intros b body env s s' r H Hs E.
  assert (N : forallb no_reset (get_through_selector b body) = true) by (unfold get_through_selector; cbn [forallb no_reset andb]; rewrite forallb_app, H; reflexivity).
  assert (P : forall x k, _) by exact (fun x k => C36_dependencies_follow_the_nesting _ env s s' r x k N Hs E). cbv zeta in P.
  destruct (C36_observations_follow_the_nesting _ env s s' r N Hs E) as [_ O].
  set (m := sequence (map (means env) (get_through_selector b body))) in *. split.
  - intros file F Ne. assert (R : In (file, b, true) (m_rec m)).
    { unfold m, get_through_selector. cbn [map means sequence m_out m_rec should_record]. rewrite F. now left. }
    split; apply P; right; split; eauto.
  - intros item F Ne ->. assert (R : In (item, b, true) (m_rec m)).
    { unfold m, get_through_selector in O |- *. cbn [map sequence means m_out m_rec should_record] in O |- *. apply in_or_app. right.
      revert O. generalize body. induction body0 as [|c l IH]; intro O; cbn [map app sequence] in O |- *.
      - cbn [means m_out m_rec should_record]. rewrite F. cbn. auto.
      - destruct (m_out (means env c)) as [[]|e] eqn:M; [|rewrite M in O; discriminate]. cbn [m_rec m_out] in O |- *. apply in_or_app. right. now apply IH. }
    split; apply P; right; split; eauto.
Qed.
Example C37_selector_example : exists s', exec_block [load_file (Ok "mgr.b") (get_through_selector "mgr.c" [Call (Fail KeyError)])] empty_ctx
  = (s', Raise KeyError) /\ forced s' = [("mgr.c", ["mgr.b"])].
Proof. eexists. split; reflexivity. Qed.

(** An item that gets itself while running adds nothing. *)
Theorem C37_no_self_dependency_while_running : forall path force s,
  currently_running s = Some path -> exec (Call (DepRunning path force)) s = (s, Ok tt).
Proof. intros path force s H. cbn. rewrite H. unfold add_config_dependency. now rewrite String.eqb_refl. Qed.

(** Mutual dependencies are recorded without complaint. *)
Theorem C37_acyclic_refuted : exists l s',
  exec_block l empty_ctx = (s', Ok tt) /\ In "mgr.a" (entry "mgr.b" (deps s')) /\ In "mgr.b" (entry "mgr.a" (deps s')).
Proof.
  exists (map Call [AddDep "mgr.a" "mgr.b" false; AddDep "mgr.b" "mgr.a" false]). eexists. split; [reflexivity|]. split; now left.
Qed.

Example C37_example : deps_grow empty_ctx (add_config_dependency "a" "b" true empty_ctx) /\ deps_ok (add_config_dependency "a" "b" true empty_ctx) /\
  In "a" (entry "b" (forced (add_config_dependency "a" "b" true empty_ctx))).
Proof.
  split; [apply add_dep_grow|]. split; [apply (C37_dependencies_are_well_formed [Call (AddDep "a" "b" true)] _ (Ok tt)); reflexivity|now left].
Qed.

Print Assumptions C35_stack_is_balanced.
Print Assumptions C35_running_an_item_is_balanced.
Print Assumptions C35_reset_within_a_run_raises.
Print Assumptions C35_balanced_despite_reset_refuted.
Print Assumptions C36_observations_follow_the_nesting.
Print Assumptions C36_dependencies_follow_the_nesting.
Print Assumptions C36_own_path_inside_outer_path_after.
Print Assumptions C36_run_inside_a_file.
Print Assumptions C37_dependencies_are_well_formed.
Print Assumptions C37_dependencies_grow.
Print Assumptions C37_no_self_dependency_while_running.
Print Assumptions C37_acyclic_refuted.
Print Assumptions C37_getting_through_the_selector_is_recorded.
