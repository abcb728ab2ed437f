(** C98: running a section or a list is running its functions one after the other. *)
From Verif Require Import Parts_Spec Iterate_Spec OneArg_Proofs ConfigTree_Proofs ConfigWf_Proofs Run_Proofs Parts_Proofs OneArg_Props.
From Coq Require Import ZArith.
Local Open Scope string_scope.
Local Open Scope list_scope.

(** A run of sections and items leaves exactly what a run of the list of all their functions leaves, gives the same values and raises
    the same exception. *)
Theorem C98_run_of_the_functions : forall its u a pss s, u_pre_run u = [] -> (forall r, u_post_run u r = []) -> Forall2 (stands_for its) (asked_for a) pss ->
  let x := pm_run its u Plain a s in let y := pm_run its u Plain (AList (concat pss)) s in
  fst x = fst y /\ match snd x, snd y with Ok r, Ok r' => flatten r = flatten r' | Raise e, Raise e' => e = e' | _, _ => False end.
Proof. exact run_parts. Qed.
Theorem C98_one_after_the_other : forall its u l pss s s' o, Forall2 (stands_for its) l pss -> runs its u l s s' o ->
  exists o', runs its u (concat pss) s s' o' /\ same_outcome o o'.
Proof. exact list_runs. Qed.
(** A list can be run in two parts, unless the first raises. *)
Theorem C98_in_two_runs : forall its u l l' s s' o, runs its u (l ++ l') s s' o <->
  (exists e, runs its u l s s' (Raise e) /\ o = Raise e) \/
  exists s1 x o', runs its u l s s1 (Ok x) /\ runs its u l' s1 s' o' /\ o = match o' with Ok y => Ok (x ++ y) | Raise e => Raise e end.
Proof. exact runs_app. Qed.

(** In a history, with any setting: each path is replaced by its functions, up to one that raises. *)
Theorem C98_run_in_a_history : forall base its u set a pss s, u_pre_run u = [] -> Forall2 (stands_for its) (asked_for a) pss -> exists qss, Forall2 beginning qss pss /\
  rop_run base its u s (RRun set a) = fold_left (rop_run base its u) (run_each (concat qss)) s /\
  (set = Plain -> forall r, snd (pm_run its u set a s) = Ok r -> qss = pss).
Proof.
  intros base its u set a pss s P H. destruct (pm_run_does its u set a pss s P H) as (qss & B & E & O). exists qss. split; [exact B|]. split; [|exact O].
  rewrite run_each_state by exact P. exact E.
Qed.
Theorem C98_get_in_a_history : forall base its u p ps s, stands_for its p ps -> exists qs, beginning qs ps /\
  rop_run base its u s (RGet p) = fold_left (rop_run base its u) (get_each qs) s /\ (forall g, snd (runner_get its u p s) = Ok g -> qs = ps).
Proof.
  intros base its u p ps s H. destruct (get_does its u p ps H s) as (qs & B & E & O). exists qs. split; [exact B|]. split; [|exact O]. rewrite get_each_state. exact E.
Qed.

(** So what C96 says about an argument holds for histories with runs and gets of whole sections around the item, and of lists: the
    machine follows the history in which these are replaced by their functions. *)
Theorem C98_the_argument_follows_the_machine : forall base its u disk n s path k x content file ops,
  disk_ok disk -> runner_load base disk n = Ok s -> u_pre_run u = [] -> accepting its u path x -> In k (f_args x) -> k <> "d_" -> k <> "E" ->
  target (r_cms s) (path_parts path) = Some (CItem (path_parts path)) ->
  read_file disk (item_file (path_parts path)) = Ok content -> dget k content = Some file -> plain file = true ->
  (forall r c v, In r (refs (path_parts path)) -> current (r_cms s) r = Some c -> dget k (c_vals c) = Some v -> plain v = true) ->
  (forall op, In op ops -> permitted_parts its base path k op) -> all_pass base its u path s ops ->
  exists ops' a, unfolds its ops ops' /\ fold_left (rop_run base its u) ops' s = fold_left (rop_run base its u) ops s /\
    moves base its u path k file s ops' (from_files k file (r_cms s)) a /\ a_shows path k a (fold_left (rop_run base its u) ops s).
Proof.
  intros base its u disk n s path k x content file ops D L P Hi Hk Nd NE T R F Pf U A G.
  destruct (unfold_history base its u path k P ops s A G) as (ops' & Un & Pm & Al & E).
  destruct (C96_the_argument_follows_the_machine base its u disk n s path k x content file ops' D L P Hi Hk Nd NE T R F Pf U Pm Al) as ((a & Mv) & Sh).
  exists ops', a. split; [exact Un|]. split; [exact E|]. split; [exact Mv|]. rewrite <- E. now apply Sh.
Qed.
Theorem C98_the_next_run_uses_it : forall base its u disk n s path k x content file ops set,
  disk_ok disk -> runner_load base disk n = Ok s -> u_pre_run u = [] -> accepting its u path x -> In k (f_args x) -> k <> "d_" -> k <> "E" ->
  target (r_cms s) (path_parts path) = Some (CItem (path_parts path)) ->
  read_file disk (item_file (path_parts path)) = Ok content -> dget k content = Some file -> plain file = true ->
  (forall r c v, In r (refs (path_parts path)) -> current (r_cms s) r = Some c -> dget k (c_vals c) = Some v -> plain v = true) ->
  (forall op, In op ops -> permitted_parts its base path k op) -> all_pass base its u path s ops ->
  let b := fold_left (rop_run base its u) ops s in
  exists ops' a o v w, unfolds its ops ops' /\ moves base its u path k file s ops' (from_files k file (r_cms s)) a /\
    r_calls (fst (pm_run its u set (AStr path) b)) = r_calls b ++ [(path, o)] /\ dget k (arguments o) = Some v /\ same_value v w /\
    (a_obj a = Some w \/ a_obj a = None /\ w = match over (path_parts path) a with Some y => y | None => a_own a end).
Proof.
  intros base its u disk n s path k x content file ops set D L P Hi Hk Nd NE T R F Pf U A G b.
  destruct (unfold_history base its u path k P ops s A G) as (ops' & Un & Pm & Al & E).
  destruct (C96_the_argument_follows_the_machine base its u disk n s path k x content file ops' D L P Hi Hk Nd NE T R F Pf U Pm Al) as ((a & Mv) & _).
  destruct (C96_the_next_run_uses_it base its u disk n s path k x content file ops' set a D L P Hi Hk Nd NE T R F Pf U Pm Al Mv) as (o & v & w & H).
  cbv zeta in H. rewrite E in H. exists ops', a, o, v, w. now split.
Qed.
Example C98_premises : Forall2 (stands_for is_items) ["sec"; "h"; "sec.f"] [["sec.g"; "sec.f"]; ["h"]; ["sec.f"]] /\
  apart "base" ["sec"; "f"] ["sec"; "g"] /\ apart "base" ["sec"; "f"] ["h"] /\ (forall op, In op pt_ops -> permitted_parts is_items "base" "sec.f" "y" op).
Proof.
  assert (F1 : stands_for is_items "sec" ["sec.g"; "sec.f"]).
  { eapply (for_its_functions is_items "sec" (Coll "sec" [EItem "g" (TFunc (Fn "g" ["x"])); EItem "f" (TFunc (Fn "f" ["x"; "y"]))])).
    - reflexivity.
    - cbn. repeat split. repeat (apply NoDup_cons; [cbn; intuition discriminate|]). apply NoDup_nil.
    - cbn. intuition discriminate. }
  assert (F2 : stands_for is_items "h" ["h"]) by (constructor; exists false; eexists; reflexivity).
  assert (F3 : stands_for is_items "sec.f" ["sec.f"]) by (constructor; exists false; eexists; reflexivity).
  assert (A1 : apart "base" ["sec"; "f"] ["sec"; "g"]).
  { split; [intros t H; discriminate|]. intros r t H. destruct r as [|r1 [|r2 [|r3 r]]]; cbn in *; try discriminate; injection H as <-; try discriminate; subst; try discriminate. }
  assert (A2 : apart "base" ["sec"; "f"] ["h"]).
  { split; [intros t H; discriminate|]. intros r t H. destruct r as [|r1 [|r2 [|r3 r]]]; cbn in *; try discriminate. }
  split; [repeat (apply Forall2_cons; [assumption|]); apply Forall2_nil|]. split; [exact A1|]. split; [exact A2|].
  assert (W : forall v : pyval, dwf [("y", v)]) by (intro; repeat (apply NoDup_cons; [cbn; intuition discriminate|]); apply NoDup_nil).
  intros op H. cbn [pt_ops In] in H. destruct H as [<-|[<-|[<-|[<-|[<-|[<-|[]]]]]]].
  - right. exists [["sec.g"; "sec.f"]]. split; [repeat (apply Forall2_cons; [assumption|]); apply Forall2_nil|]. intros q [<-|[<-|[]]]; auto.
  - left. right. split; [apply W|]. split; [apply NoDup_nil|]. split; [intros v [= <-]; reflexivity|]. now exists ["f"].
  - right. exists [["sec.g"; "sec.f"]; ["h"]]. split; [repeat (apply Forall2_cons; [assumption|]); apply Forall2_nil|]. intros q [<-|[<-|[<-|[]]]]; auto.
  - left. right. split; [apply W|]. split; [apply NoDup_nil|]. split; [intros v [= <-]; reflexivity|]. now exists [].
  - right. exists ["sec.g"; "sec.f"]. split; [exact F1|]. intros q [<-|[<-|[]]]; auto.
  - right. exists [["h"]; ["sec.g"; "sec.f"]; ["sec.f"]]. split; [repeat (apply Forall2_cons; [assumption|]); apply Forall2_nil|]. intros q [<-|[<-|[<-|[<-|[]]]]]; auto.
Qed.
(** [f] in a section whose first function raises: it is called only if it is asked for. *)
Example C98_example : map fst (r_calls (fold_left (rop_run "base" is_items is_user) pt_ops is_start)) =
    ["sec.g"; "sec.g"; "h"; "h"; "sec.g"] /\
  map fst (r_calls (fold_left (rop_run "base" is_items is_user') pt_ops is_start)) =
    ["sec.g"; "sec.f"; "sec.g"; "sec.f"; "h"; "h"; "sec.g"; "sec.f"; "sec.f"] /\
  oa_calls (fold_left (rop_run "base" is_items is_user') pt_ops is_start) = [Some (VInt 1); Some (VInt 1); Some (VInt 8); Some (VInt 8)].
Proof. repeat split; vm_compute; reflexivity. Qed.

(** With a class among them a section is not run like its items. *)
Theorem C98_run_of_the_items_refuted : exists its u s, (forall h p o, u_call u h p o = Ok VNone) /\
  map fst (r_calls (fst (pm_run its u Plain (AList ["sec.g"; "sec.f"]) s))) = ["sec.g"; "sec.f"] /\
  (exists e, snd (pm_run its u Plain (AStr "sec") s) = Raise e) /\ map fst (r_calls (fst (pm_run its u Plain (AStr "sec") s))) = ["sec.g"].
Proof.
  exists pt_items, (User (fun _ _ _ => Ok VNone) (fun _ _ => None) (fun _ => []) []), is_start. split; [reflexivity|]. split; [vm_compute; reflexivity|].
  split; [eexists; vm_compute; reflexivity|vm_compute; reflexivity].
Qed.

Print Assumptions C98_run_of_the_functions.
Print Assumptions C98_one_after_the_other.
Print Assumptions C98_in_two_runs.
Print Assumptions C98_run_in_a_history.
Print Assumptions C98_get_in_a_history.
Print Assumptions C98_the_argument_follows_the_machine.
Print Assumptions C98_the_next_run_uses_it.
Print Assumptions C98_run_of_the_items_refuted.
