(** C100: functions that use the manager while they run. *)
From Verif Require Import Inside_Spec Iterate_Spec OneArg_Proofs Runner_Proofs ConfigTree_Proofs ConfigWf_Proofs Run_Proofs Parts_Proofs Inside_Proofs OneArg_Props.
From Coq Require Import ZArith Permutation.
Local Open Scope string_scope.
Local Open Scope list_scope.

(** Whatever the functions do with the manager while they run, an operation leaves what some operations with functions that do not
    use the manager leave, one after the other: [amounts] says which. *)
Theorem C100_amounts_to_operations_one_after_the_other : forall base its u progs order, u_pre_run u = [] -> sections_run its -> (forall l, Permutation (order l) l) ->
  forall d top op s, exists l, amounts base its u progs order d top s op l /\
    n_rs (next base its u progs order d top op s) = fold_left (rop_run base its u) l (n_rs s).
Proof. intros base its u progs order P S O d. exact (all_amount base its u progs order P S O d). Qed.
Theorem C100_histories : forall base its u progs order, u_pre_run u = [] -> sections_run its -> (forall l, Permutation (order l) l) ->
  forall d ops s, exists l, amount_all base its u progs order d s ops l /\
    n_rs (history base its u progs order d ops s) = fold_left (rop_run base its u) l (n_rs s).
Proof. intros base its u progs order P S O d ops. exact (history_amounts base its u progs order P S O d ops). Qed.
(** The premise on sections holds for every project of functions. *)
Theorem C100_projects_of_functions : forall its, names_ok (i_general its) -> functions_only (i_general its) -> sections_run its.
Proof. exact functions_run. Qed.
Example C100_premises : sections_run id_items /\ u_pre_run is_user = [] /\ is_thing id_items "g" /\ is_thing id_items "sec.a".
Proof.
  split; [|split; [reflexivity|split; repeat eexists]]. apply functions_run.
  - cbn. repeat split; repeat (apply NoDup_cons; [cbn; intuition discriminate|]); apply NoDup_nil.
  - intros p H. cbn in H. intuition discriminate.
Qed.
(** the first function of a section changes the config of the second, and is run in between *)
Example C100_a_section : amounts "base" id_items is_user (id_progs [("sec.a", and_then (set_y "sec.b" 7) finished)]) (fun l => l) 1 None id_start
  (RRun Plain (AStr "sec")) [run_alone "sec.a"; set_y "sec.b" 7; run_alone "sec.b"].
Proof.
  apply am_run with (pss := [["sec.a"; "sec.b"]]) (qss := [["sec.a"; "sec.b"]]).
  - repeat constructor. eapply (for_its_functions id_items "sec" (Coll "sec" [EItem "a" (TFunc (Fn "a" ["x"; "y"])); EItem "b" (TFunc (Fn "b" ["x"; "y"]))])).
    + reflexivity.
    + cbn. repeat split; repeat (apply NoDup_cons; [cbn; intuition discriminate|]); apply NoDup_nil.
    + cbn. intuition discriminate.
  - repeat constructor. now exists [].
  - apply (ea_cons _ _ _ _ _ _ _ _ "sec.a" _ [run_alone "sec.a"; set_y "sec.b" 7] [run_alone "sec.b"]).
    + eapply one_calls; [vm_compute; reflexivity|]. apply (sc_use _ _ _ _ _ _ _ _ _ _ [set_y "sec.b" 7] []); [|constructor]. apply am_alone; [exact I|].
      intros p (evs & ups & E). vm_compute in E. destruct evs as [|? [|]]; discriminate.
    + apply (ea_cons _ _ _ _ _ _ _ _ "sec.b" [] [run_alone "sec.b"] []); [|constructor]. eapply one_calls; [vm_compute; reflexivity|]. constructor.
  - reflexivity.
Qed.

(** If the functions do not use the manager, and no dependencies are recorded, everything is as in the other properties. *)
Theorem C100_functions_that_do_not_use_the_manager : forall base its u order d op r, (forall l, Permutation (order l) l) ->
  next base its u (plainly (u_call u)) order d None op (NS r []) = NS (rop_run base its u r op) [] /\
  said base its u (plainly (u_call u)) order d None op (NS r []) = plain_answer base its u op r.
Proof. intros base its u order d op r O. unfold next, said. rewrite in_op_eq, plain_op by exact O. now split. Qed.

(** The dependencies: none is forgotten, none is recorded twice; what depends on something is an item that has been called, or the one
    running; no item depends on itself. *)
Theorem C100_dependencies_are_recorded_for_running_items : forall base its u progs order, u_pre_run u = [] -> sections_run its ->
  forall d top op s, let s' := next base its u progs order d top op s in
  exists new, n_deps s' = n_deps s ++ new /\ NoDup new /\
    forall p q, In (p, q) new -> p <> q /\ ~ In (p, q) (n_deps s) /\ (top = Some q \/ is_thing its q /\ exists o, In (q, o) (r_calls (n_rs s'))).
Proof.
  intros base its u progs order P S d top op s s'. destruct (ext_all base its u progs order P S d top op s) as (_ & new & E & N & F).
  exists new. split; [exact E|]. split; [exact N|]. intros p q H. rewrite Forall_forall in F. exact (F _ H).
Qed.
(** An item that another item has run is something it depends on. *)
Theorem C100_a_run_by_a_running_item_is_a_dependency : forall base its u progs order d f q s r, u_pre_run u = [] -> is_thing its q -> q <> f ->
  said base its u progs order d (Some f) (run_alone q) s = Ok r -> In (q, f) (n_deps (next base its u progs order d (Some f) (run_alone q) s)).
Proof. intros base its u progs order d f q s r P. exact (recorded base its u progs order P d f q s r). Qed.

(** So what C96 says about an argument holds for functions that use the manager: if what the user does and what the functions may do is
    of the kinds permitted there, so is everything done, and if it passes, the argument follows the machine. *)
Theorem C100_the_argument_follows_the_machine : forall base its u progs order d disk n s path k x content file ops,
  disk_ok disk -> runner_load base disk n = Ok s -> u_pre_run u = [] -> accepting its u path x -> In k (f_args x) -> k <> "d_" -> k <> "E" ->
  target (r_cms s) (path_parts path) = Some (CItem (path_parts path)) ->
  read_file disk (item_file (path_parts path)) = Ok content -> dget k content = Some file -> plain file = true ->
  (forall r c v, In r (refs (path_parts path)) -> current (r_cms s) r = Some c -> dget k (c_vals c) = Some v -> plain v = true) ->
  sections_run its -> (forall l, Permutation (order l) l) -> (forall q, is_thing its q -> q = path \/ apart base (path_parts path) (path_parts q)) ->
  let fine op := match op with RRun _ _ => True | _ => permitted base path k op end in
  (forall op, In op ops -> fine op) -> (forall h q o, only fine (progs h q o)) ->
  let b := history base its u progs order d ops (NS s []) in
  exists l, amount_all base its u progs order d (NS s []) ops l /\ n_rs b = fold_left (rop_run base its u) l s /\
    (forall op, In op l -> permitted base path k op) /\
    (all_pass base its u path s l -> exists a, moves base its u path k file s l (from_files k file (r_cms s)) a /\ a_shows path k a (n_rs b) /\
       exists o more v w, r_calls (n_rs (next base its u progs order d None (run_alone path) b)) = r_calls (n_rs b) ++ (path, o) :: more /\
          dget k (arguments o) = Some v /\ same_value v w /\
          (a_obj a = Some w \/ a_obj a = None /\ w = match over (path_parts path) a with Some y => y | None => a_own a end)).
Proof.
  intros base its u progs order d disk n s path k x content file ops D L P Hi Hk Nd NE T R F Pf U S O Ap fine Hops Hprog b.
  destruct (history_amounts base its u progs order P S O d ops (NS s [])) as (l & A & E). cbn [n_rs] in E. exists l. split; [exact A|]. split; [exact E|].
  assert (Pm : Forall (permitted base path k) l).
  { apply (all_made_history base its u progs order P S (permitted base path k)) with (d := d) (ops := ops) (s := NS s []).
    - intros q Tq. destruct (Ap q Tq) as [->|X]; [right; reflexivity|left; exact X].
    - intros q Tq. destruct (Ap q Tq) as [->|X]; [right; exists []; now rewrite app_nil_r|left; exact X].
    - exact Hprog.
    - exact A.
    - exact Hops.
    - intros p q []. }
  rewrite Forall_forall in Pm. split; [exact Pm|]. intro Al.
  destruct (C96_the_argument_follows_the_machine base its u disk n s path k x content file l D L P Hi Hk Nd NE T R F Pf U Pm Al) as ((a & Mv) & Sh). exists a. split; [exact Mv|].
  split; [unfold b; rewrite E; now apply Sh|].
  destruct (C96_the_next_run_uses_it base its u disk n s path k x content file l Plain a D L P Hi Hk Nd NE T R F Pf U Pm Al Mv) as (o & v & w & H1 & H2).
  assert (Tp : is_thing its path). { destruct Hi as ((b0 & t0 & Hi & _) & _). now exists b0, t0. }
  destruct (one_does base its u progs order P d None path b) as (l' & O1 & O2).
  { destruct d; [exact I|]. exact (all_amount base its u progs order P S O d). }
  { exact Tp. }
  rewrite next_step by exact P. unfold step. rewrite O2. fold b in E. rewrite <- E in H1.
  change (fst (pm_run its u Plain (AStr path) (n_rs b))) with (rop_run base its u (n_rs b) (run_alone path)) in H1. inversion O1 as [? ? ? X|? ? ? o' l1 X Y]; subst.
  - exfalso. unfold Inside_Spec.does in X. cbn [n_rs] in X. rewrite H1 in X. apply (f_equal (@List.length _)) in X. rewrite app_length in X. cbn in X. revert X. generalize (List.length (r_calls (n_rs b))). intro m. induction m; [discriminate|]. intros [= X]. auto.
  - cbn [fold_left]. destruct (steps_next _ _ (rops_steps base its u l1 (rop_run base its u (n_rs b) (run_alone path)))) as (_ & (more & Em) & _).
    exists o, more, v, w. rewrite Em, H1, <- app_assoc. split; [reflexivity|exact H2].
Qed.
Example C100_items_apart : (forall q, is_thing id_items q -> q = "g" \/ apart "base" (path_parts "g") (path_parts q)) /\
  (let fine op := match op with RRun _ _ => True | _ => permitted "base" "g" "y" op end in
   forall h q o, only fine (id_progs [("g", and_then (run_alone "sec.a") finished); ("sec.a", and_then (set_y "g" 5) finished)] h q o)) /\
  (let l := [run_alone "g"; run_alone "sec.a"; set_y "g" 5] in
   n_rs (id_then 3 [("g", and_then (run_alone "sec.a") finished); ("sec.a", and_then (set_y "g" 5) finished)] [run_alone "g"]) =
     fold_left (rop_run "base" id_items is_user) l (n_rs id_start) /\ all_pass "base" id_items is_user "g" (n_rs id_start) l).
Proof.
  split; [|split].
  - intros q (b & t & E). unfold get_func_or_collection in E. destruct (list_eq_dec string_dec (path_parts q) ["g"]) as [Eq|Nq].
    + left. rewrite <- (join_split dot q). change (split dot q) with (path_parts q). now rewrite Eq.
    + right. change (path_parts "g") with ["g"]. destruct (path_parts q) as [|x rest]; [discriminate|]. split.
      * intros t' X. apply Nq. destruct rest; cbn in X; [congruence|discriminate].
      * intros r t' X Y. destruct r as [|y r].
        -- cbn in Y. rewrite Y in E. vm_compute in E. discriminate.
        -- injection X as <- X. symmetry in X. apply app_eq_nil in X as (-> & ->). cbn in Y. rewrite Y in E. vm_compute in E. discriminate.
  - intros fine h q o. unfold id_progs. cbn [dget]. destruct (String.eqb q "g"); [|destruct (String.eqb q "sec.a")].
    + apply only_use; [exact I|intro; apply only_done].
    + apply only_use; [|intro; apply only_done]. right. cbn. split; [constructor; [intros []|constructor]|]. split; [constructor|]. split; [|now exists []].
      intros v. unfold gives. cbn. intros [= <-]. reflexivity.
    + apply only_done.
  - split; [now vm_compute|]. split; [exact I|]. split; [exact I|]. split; [|exact I]. intros _. now vm_compute.
Qed.

(** A function that runs itself, and passes exceptions on, does not finish: at whatever depth the stack of Python is full, all its runs fail. *)
Theorem C100_a_function_that_runs_itself : forall base its u progs order f, u_pre_run u = [] -> is_thing its f ->
  (forall h o, exists k, progs h f o = Use (run_alone f) k /\ forall e, k (Raise e) = Done (Raise e)) ->
  forall d top s, exists e, said base its u progs order d top (run_alone f) s = Raise e.
Proof. exact runs_itself. Qed.
Example C100_runs_itself : id_said 20 [("g", or_fail (run_alone "g") finished)] [] (run_alone "g") = Raise RecursionError.
Proof. now vm_compute. Qed.

(** What one would expect but does not hold. A section is run with the configs at its start. *)
Theorem C100_section_run_with_configs_at_its_start_refuted : exists table,
  table = [("sec.a", and_then (set_y "sec.b" 7) finished)] /\
  id_calls (id_then 3 table [RRun Plain (AStr "sec")]) = [("sec.a", Some (VInt 0)); ("sec.b", Some (VInt 7))].
Proof. eexists. split; [reflexivity|]. now vm_compute. Qed.
(** An update of one item leaves another alone: not if the other one has run it. Then the other one is refreshed, and loses the
    updates that are not persistent. *)
Theorem C100_update_leaves_other_items_alone_refuted : exists table ops,
  table = [("g", and_then (run_alone "sec.a") finished)] /\ ops = [run_alone "g"; try_y "g" 3] /\
  id_calls (id_then 3 table (ops ++ [run_alone "g"])) = [("g", Some (VInt 0)); ("sec.a", Some (VInt 0)); ("g", Some (VInt 3)); ("sec.a", Some (VInt 0))] /\
  id_calls (id_then 3 table (ops ++ [set_y "sec.a" 5; run_alone "g"])) = [("g", Some (VInt 0)); ("sec.a", Some (VInt 0)); ("g", Some (VInt 0)); ("sec.a", Some (VInt 5))] /\
  id_calls (id_then 3 [] (ops ++ [set_y "sec.a" 5; run_alone "g"])) = [("g", Some (VInt 0)); ("g", Some (VInt 3))].
Proof. eexists. eexists. split; [reflexivity|]. split; [reflexivity|]. repeat split; now vm_compute. Qed.
(** A function sees the updates it makes of its own arguments: only in the next run. *)
Theorem C100_own_update_seen_refuted : exists table, table = [("g", and_then (set_y "g" 5) finished)] /\
  id_calls (id_then 3 table [run_alone "g"; run_alone "g"]) = [("g", Some (VInt 0)); ("g", Some (VInt 5))].
Proof. eexists. split; [reflexivity|]. now vm_compute. Qed.
(** What a function has done is undone if it fails. *)
Theorem C100_failed_function_undone_refuted : exists table, table = [("sec.a", and_then (set_y "sec.b" 7) (Done (Raise (UserExn 1))))] /\
  id_said 3 table [] (run_alone "sec.a") = Raise (UserExn 1) /\
  id_calls (id_then 3 table [run_alone "sec.a"; run_alone "sec.b"]) = [("sec.a", Some (VInt 0)); ("sec.b", Some (VInt 7))].
Proof. eexists. split; [reflexivity|]. split; now vm_compute. Qed.
(** An item that a running item tries to run is something it depends on: not if the run fails. *)
Theorem C100_failed_run_is_a_dependency_refuted : exists table,
  table = [("g", and_then (run_alone "sec.a") finished); ("sec.a", Done (Raise (UserExn 1)))] /\
  n_deps (id_then 3 table [run_alone "g"]) = [] /\ id_calls (id_then 3 table [run_alone "g"]) = [("g", Some (VInt 0)); ("sec.a", Some (VInt 0))] /\
  n_deps (id_then 3 [("g", and_then (run_alone "sec.a") finished)] [run_alone "g"]) = [("sec.a", "g")].
Proof. eexists. split; [reflexivity|]. repeat split; now vm_compute. Qed.

Print Assumptions C100_amounts_to_operations_one_after_the_other.
Print Assumptions C100_histories.
Print Assumptions C100_projects_of_functions.
Print Assumptions C100_functions_that_do_not_use_the_manager.
Print Assumptions C100_dependencies_are_recorded_for_running_items.
Print Assumptions C100_a_run_by_a_running_item_is_a_dependency.
Print Assumptions C100_the_argument_follows_the_machine.
Print Assumptions C100_a_function_that_runs_itself.
Print Assumptions C100_section_run_with_configs_at_its_start_refuted.
Print Assumptions C100_update_leaves_other_items_alone_refuted.
Print Assumptions C100_own_update_seen_refuted.
Print Assumptions C100_failed_function_undone_refuted.
Print Assumptions C100_failed_run_is_a_dependency_refuted.
