(** C107: hooks that raise. What has been done by then stays done, what comes after is not done, and the settings for failing runs cover
    only the hooks after a run. *)
From Verif Require Import Hooks_Spec Hooks_Proofs.
From Verif Require Deps_Model.
Local Open Scope string_scope.
Local Open Scope list_scope.
Local Open Scope monad_scope.

(** The implementations of a hook are called one after the other; the results that are not None are kept in this order. *)
Theorem C107_hooks_return : forall W A (hs : list (M W (option A))) s s' l, call_hooks hs s = (s', Ok l) <-> answers hs s l s'.
Proof. intros W A. exact call_hooks_answers. Qed.
(** The first that raises ends the call; the ones after it are not called. *)
Theorem C107_hooks_raise : forall W A (hs : list (M W (option A))) s s' e, call_hooks hs s = (s', Raise e) <-> raised hs s e s'.
Proof. intros W A. exact call_hooks_raised. Qed.

(* ------------------------------------------------------------------ *)
(** * Runs *)

(** A hook before a run that raises: nothing is run, nothing is debugged, and the caller gets the exception, whatever the settings. *)
Theorem C107_pre_run_raises : forall W one (debug : M W unit) pre_run post_run set a s e s',
  raised (map (fun h => h a) pre_run) s e s' -> hooked_run one debug pre_run post_run set a s = (s', Raise e).
Proof. intros W. exact pre_run_raises. Qed.

(** Without settings the hooks after the run are called once, if everything was run; when one raises, the results are lost. *)
Theorem C107_plain : forall W one (debug : M W unit) pre_run post_run a s extra s0 r s',
  answers (map (fun h => h a) pre_run) s extra s0 -> run_of one post_run (given a ++ extra) s0 r s' ->
  hooked_run one debug pre_run post_run Plain a s = (s', r).
Proof. intros W. exact run_plain. Qed.

(** With auto_pdb an exception of an item or of a hook after it is debugged, and the result is None. *)
Theorem C107_auto_pdb : forall W one (debug : M W unit) pre_run post_run a s extra s0 r s',
  answers (map (fun h => h a) pre_run) s extra s0 -> run_of one post_run (given a ++ extra) s0 r s' ->
  (forall x, r = Ok x -> hooked_run one debug pre_run post_run AutoPdb a s = (s', Ok x)) /\
  (forall e, r = Raise e -> leaves e -> hooked_run one debug pre_run post_run AutoPdb a s = (s', Raise SystemExit)) /\
  (forall e, r = Raise e -> ~ leaves e -> hooked_run one debug pre_run post_run AutoPdb a s =
     match debug s' with (s2, Ok _) => (s2, Ok (RVal VNone)) | (s2, Raise d) => (s2, Raise d) end).
Proof. intros W. exact run_auto_pdb. Qed.

(** With force_continue the hooks are called after each item; an item whose hooks raise is reported like one that raises, and the others
    are run. *)
Theorem C107_force_continue : forall W one (debug : M W unit) pre_run post_run a s extra s0 rs es s',
  answers (map (fun h => h a) pre_run) s extra s0 -> forced one post_run (given a ++ extra) s0 rs es s' ->
  hooked_run one debug pre_run post_run ForceContinue a s = (s', Ok (forced_result (given a ++ extra) rs)).
Proof. intros W. exact run_forced. Qed.
Theorem C107_reported : forall W one post_run ps (s s' : W) rs es,
  hooked_force_loop one post_run ps s = (s', Ok (rs, es)) <-> forced one post_run ps s rs es s'.
Proof. intros W. exact force_loop_forced. Qed.
(** An exception with which the user leaves ends the program, from items and from the hooks after them *)
Theorem C107_force_left : forall W one (debug : M W unit) pre_run post_run a s extra s0 s',
  answers (map (fun h => h a) pre_run) s extra s0 -> forced_left one post_run (given a ++ extra) s0 s' ->
  hooked_run one debug pre_run post_run ForceContinue a s = (s', Raise SystemExit).
Proof. intros W. exact run_forced_left. Qed.
(** and there is no other exception. *)
Theorem C107_force_only_left : forall W one post_run ps (s s' : W) e,
  hooked_force_loop one post_run ps s = (s', Raise e) <-> e = SystemExit /\ forced_left one post_run ps s s'.
Proof. intros W. exact force_loop_left. Qed.

(** One would think that with force_continue no exception but those to leave the program reaches the caller. *)
Theorem C107_force_continue_covers_hooks_refuted : exists one (debug : M log unit) pre_run post_run s' e, ~ leaves e /\
  hooked_run one debug pre_run post_run ForceContinue (AList ["f"; "g"]) [] = (s', Raise e) /\ s' = ["before"].
Proof.
  exists hx_item, hx_debug, [fun _ => say_raise "before" (UserExn 1)], [], ["before"], (UserExn 1).
  repeat split. intros [H | [H | H]]; discriminate.
Qed.
(** One would think that the result of an item that did not raise is returned. *)
Theorem C107_results_kept_refuted : exists one (debug : M log unit) post_run, (forall p s, snd (one p s) = Ok (RVal (VStr p))) /\
  hooked_run one debug [] post_run ForceContinue (AList ["f"; "g"]) [] = (["f"; "hook"; "g"; "hook"], Ok (RList [RVal (VStr "g")])) /\
  hooked_run one debug [] post_run AutoPdb (AStr "f") [] = (["f"; "hook"; "debug"], Ok (RVal VNone)) /\
  hooked_run one debug [] post_run ForceContinue (AStr "f") [] = (["f"; "hook"], Ok (RList [])).
Proof. exists hx_item, hx_debug, [hx_picky]. repeat split. Qed.
(** In a plain run of several items the
    hook that objects to a single result is called once, with all of them. *)
Example C107_ex_plain : hooked_run hx_item hx_debug [fun _ => say "before" (Some "h")] [hx_picky] Plain (AList ["f"; "g"]) [] =
  (["before"; "f"; "g"; "h"; "hook"], Ok (RList [RVal (VStr "f"); RVal (VStr "g"); RVal (VStr "h")])).
Proof. reflexivity. Qed.
Example C107_ex_left : hooked_run hx_item hx_debug [] [fun _ => say_raise "hook" KeyboardInterrupt] ForceContinue (AList ["f"; "g"]) [] =
  (["f"; "hook"], Raise SystemExit) /\
  hooked_run hx_item hx_debug [fun _ => say_raise "before" KeyboardInterrupt] [] ForceContinue (AList ["f"; "g"]) [] = (["before"], Raise KeyboardInterrupt).
Proof. split; reflexivity. Qed.

(** With hooks that do nothing and do not raise, this is the model used for the other properties of runs. *)
Theorem C107_same_runs : forall its u (hs : list (result -> option result)),
  (forall r, u_post_run u r = flat_map (fun h => match h r with Some x => [x] | None => [] end) hs) ->
  forall set a s, hooked_run (run_one its u) (ret tt) (map (fun p _ => ret (Some p)) (u_pre_run u)) (map (fun h r => ret (h r)) hs) set a s
                  = pm_run its u set a s.
Proof. intros its u hs H set a s. exact (pure_run its u hs H set a s). Qed.

(* ------------------------------------------------------------------ *)
(** * Updates *)

(** A hook before an update that raises: nothing is updated, and the caller's dictionary stays as it is. *)
Theorem C107_pre_update_raises : forall W (do_update : updates -> M W unit) pre_update post_update x s e s',
  raised (map (fun h => h x) pre_update) s e s' ->
  hooked_update do_update pre_update post_update x s = (s', fst x, Raise e).
Proof. intros W. exact update_pre. Qed.
(** Otherwise the caller's dictionary gets what the hooks return, even if the update fails. The hooks after an update are called only
    if it succeeds; when one of them raises the update stays made. *)
Theorem C107_update : forall W (do_update : updates -> M W unit) pre_update post_update d kwargs s news s1,
  answers (map (fun h => h (d, kwargs)) pre_update) s news s1 ->
  exists d1 kwargs1,
    d1 = match d with Some d => Some (dupdate d (dict_of (concat news))) | None => None end /\
    kwargs1 = dupdate kwargs (dict_of (concat news)) /\
    (forall s2 e, do_update (d1, kwargs1) s1 = (s2, Raise e) -> hooked_update do_update pre_update post_update (d, kwargs) s = (s2, d1, Raise e)) /\
    (forall s2 s3 e, do_update (d1, kwargs1) s1 = (s2, Ok tt) -> raised (map (fun h => h (d1, kwargs1)) post_update) s2 e s3 ->
       hooked_update do_update pre_update post_update (d, kwargs) s = (s3, d1, Raise e)) /\
    (forall s2 s3 l, do_update (d1, kwargs1) s1 = (s2, Ok tt) -> answers (map (fun h => h (d1, kwargs1)) post_update) s2 l s3 ->
       hooked_update do_update pre_update post_update (d, kwargs) s = (s3, d1, Ok tt)).
Proof.
  intros W do_update pre post d kwargs s news s1 H. apply (update_rest do_update _ post) in H. cbv zeta in H.
  assert (E : with_news news (d, kwargs) =
    (match d with Some d => Some (dupdate d (dict_of (concat news))) | None => None end, dupdate kwargs (dict_of (concat news)))).
  { unfold with_news. destruct (dict_of (concat news)); cbn [fst snd]; [destruct d; reflexivity | destruct d; reflexivity]. }
  rewrite E in H. do 2 eexists. split; [reflexivity|]. split; [reflexivity|]. exact H.
Qed.
Example C107_ex_update :
  hooked_update hx_do [fun _ => say "p" (Some [("a", VInt 2)]); fun _ => say "q" None] [fun _ => say_raise "after" (UserExn 1); fun _ => say "r" None]
    (Some [("a", VInt 1)], []) [] = (["p"; "q"; "update"; "after"], Some [("a", VInt 2)], Raise (UserExn 1)).
Proof. reflexivity. Qed.

(** A batch fails with an exception of a hook before it, and then nothing is updated; with that of an update, and then the updates
    before it are made, the others are not, and the hooks after the batch are not called; or with that of a hook after it, and then
    all updates are made. *)
Theorem C107_batch_raises : forall W upd (step : upd -> M W unit) pre_batch post_batch us s e s',
  hooked_batch step pre_batch post_batch us s = (s', Raise e) <->
  raised (map (fun h => h us) pre_batch) s e s' \/
  (exists lol s1, answers (map (fun h => h us) pre_batch) s lol s1 /\ broke step (concat lol) s1 e s') \/
  (exists lol s1 l s2, answers (map (fun h => h us) pre_batch) s lol s1 /\ done step (concat lol) s1 l s2 /\
     raised (map (fun h => h us) post_batch) s2 e s').
Proof. intros W upd. exact (batch_raises upd). Qed.
(** Otherwise the hooks after the batch are called with the caller's updates, once all are made. *)
Theorem C107_batch : forall W upd (step : upd -> M W unit) pre_batch post_batch us s s',
  hooked_batch step pre_batch post_batch us s = (s', Ok tt) <->
  exists lol s1 l s2 l', answers (map (fun h => h us) pre_batch) s lol s1 /\ done step (concat lol) s1 l s2 /\
    answers (map (fun h => h us) post_batch) s2 l' s'.
Proof. intros W upd. exact (batch_returns upd). Qed.
(** One would think that a batch is made as a whole or not at all, or that the hook after it tells when something was updated. *)
Theorem C107_batch_all_or_nothing_refuted : exists (step : string -> M log unit) pre_batch post_batch,
  hooked_batch step pre_batch post_batch ["a"; "bad"; "c"] [] = (["before"; "a"; "bad"], Raise KeyError) /\
  hooked_batch step pre_batch post_batch ["a"; "c"] [] = (["before"; "a"; "c"; "after"], Ok tt).
Proof. exists hx_step, [fun us => say "before" (Some us)], [fun _ => say "after" None]. split; reflexivity. Qed.

(* ------------------------------------------------------------------ *)
(** * Iterations *)

(** A hook that makes the cases raises: there is no iteration. *)
Theorem C107_cases_raise : forall W conf case defaults get_cases modify_cases (get_defaults : list case -> M W defaults) (confs : list conf) s e s',
  raised (map (fun h => h confs) get_cases) s e s' -> hooked_init get_cases modify_cases get_defaults confs s = (s', Raise e).
Proof. intros W conf case defaults. exact (init_raises conf case defaults). Qed.
Theorem C107_modify_raises : forall W conf case defaults get_cases modify_cases (get_defaults : list case -> M W defaults) (confs : list conf)
    s lol s1 h1 h h2 cs s2 e s',
  answers (map (fun h => h confs) get_cases) s lol s1 -> modify_cases = h1 ++ h :: h2 ->
  modified h1 (concat lol) s1 cs s2 -> h cs s2 = (s', Raise e) ->
  hooked_init get_cases modify_cases get_defaults confs s = (s', Raise e).
Proof. intros W conf case defaults. exact (init_modify_raises conf case defaults). Qed.
(** Otherwise the cases of all hooks are put together in their order, each hook that changes cases gets what the one before it left, and
    the defaults are those of what the last one left. *)
Theorem C107_cases_made : forall W conf case defaults get_cases modify_cases (get_defaults : list case -> M W defaults) (confs : list conf) s cs d s',
  hooked_init get_cases modify_cases get_defaults confs s = (s', Ok (cs, d)) <->
  exists lol s1 s2, answers (map (fun h => h confs) get_cases) s lol s1 /\ modified modify_cases (concat lol) s1 cs s2 /\ get_defaults cs s2 = (s', Ok d).
Proof. intros W conf case defaults. exact (init_returns conf case defaults). Qed.
Example C107_ex_cases_made :
  hooked_init [fun c => say "a" (Some [c ++ ["1"]]); fun c => say "none" None; fun c => say "b" (Some [["2"]])]
    [fun l => say "first" (["3"] :: l); fun l => say "second" (rev l)] (fun l => say "defaults" (length l)) ["0"] [] =
  (["a"; "none"; "b"; "first"; "second"; "defaults"], Ok ([["2"]; ["0"; "1"]; ["3"]], 3)).
Proof. reflexivity. Qed.

(** A hook that updates for a case raises: the items are not run for it, and it is not the last case: the next iteration updates
    as if this one had not been tried, although the hooks before may have updated. *)
Theorem C107_case_hook_raises : forall W case defaults update_for_case (fill : defaults -> case -> res case) (run_all : M W result) set_last
    d c filled s e s',
  fill d c = Ok filled -> raised (map (fun h => h filled) update_for_case) s e s' ->
  hooked_run_case update_for_case fill run_all set_last d c s = (s', Raise e).
Proof. intros W case defaults. exact (case_hook_raises case defaults). Qed.
(** Likewise if the items raise. Only a case that was run is the last case. *)
Theorem C107_case : forall W case defaults update_for_case (fill : defaults -> case -> res case) (run_all : M W result) set_last
    d c filled s l s1,
  fill d c = Ok filled -> answers (map (fun h => h filled) update_for_case) s l s1 ->
  (forall s2 e, run_all s1 = (s2, Raise e) -> hooked_run_case update_for_case fill run_all set_last d c s = (s2, Raise e)) /\
  (forall s2 r s3, run_all s1 = (s2, Ok r) -> set_last filled s2 = (s3, Ok tt) ->
     hooked_run_case update_for_case fill run_all set_last d c s = (s3, Ok r)).
Proof. intros W case defaults. exact (case_rest case defaults). Qed.
(** A case that cannot be filled with the defaults: no hook is called. *)
Theorem C107_case_not_filled : forall W case defaults update_for_case (fill : defaults -> case -> res case) (run_all : M W result) set_last d c s e,
  fill d c = Raise e -> hooked_run_case update_for_case fill run_all set_last d c s = (s, Raise e).
Proof. intros W case defaults. exact (case_not_filled case defaults). Qed.
(** An iteration succeeds exactly if each case that is to be run is run like this; the results are kept under the cases without the defaults. *)
Theorem C107_iteration : forall W case defaults update_for_case (fill : defaults -> case -> res case) should_run (run_all : M W result) set_last d cs s l s',
  hooked_run_cases update_for_case fill should_run run_all set_last d cs s = (s', Ok l) <->
  iterated should_run (case_ran update_for_case fill run_all set_last d) cs s l s'.
Proof. intros W case defaults. exact (run_cases_iterated case defaults). Qed.
(** The first case that fails ends the iteration: the cases before it have been run, and their results are lost. *)
Theorem C107_cases_stop : forall W case defaults update_for_case (fill : defaults -> case -> res case) should_run (run_all : M W result) set_last
    d cs1 c cs2 s l s1 s2 e s',
  hooked_run_cases update_for_case fill should_run run_all set_last d cs1 s = (s1, Ok l) -> should_run c s1 = (s2, Ok true) ->
  hooked_run_case update_for_case fill run_all set_last d c s2 = (s', Raise e) ->
  hooked_run_cases update_for_case fill should_run run_all set_last d (cs1 ++ c :: cs2) s = (s', Raise e).
Proof. intros W case defaults. exact (cases_stop case defaults). Qed.
(** A case for which should_run says no: no hook is called for it, and it has no result. *)
Example C107_ex_cases :
  hooked_run_cases [fun c => if String.eqb c "bad" then say_raise "hook" (UserExn 1) else say "hook" (Some tt)] (fun _ c => Ok c)
    (fun c => ret (negb (String.eqb c "no"))) (say "run" (RVal VNone)) (fun c => say c tt) tt ["1"; "no"; "2"] [] =
    (["hook"; "run"; "1"; "hook"; "run"; "2"], Ok [("1", RVal VNone); ("2", RVal VNone)]) /\
  hooked_run_cases [fun c => if String.eqb c "bad" then say_raise "hook" (UserExn 1) else say "hook" (Some tt)] (fun _ c => Ok c)
    (fun c => ret (negb (String.eqb c "no"))) (say "run" (RVal VNone)) (fun c => say c tt) tt ["1"; "bad"; "2"] [] =
    (["hook"; "run"; "1"; "hook"], Raise (UserExn 1)).
Proof. split; reflexivity. Qed.

(* ------------------------------------------------------------------ *)
(** * Changes of one config *)

(** Nothing would change: no hook is called. *)
Theorem C107_no_change : forall W would change is_loaded apply pre_changed post_changed b (s s1 : W),
  would s = (s1, Ok false) -> hooked_change would change is_loaded apply pre_changed post_changed b s = (s1, Ok tt).
Proof. intros W would change is_loaded apply pre post. exact (no_change would change is_loaded apply pre post). Qed.
(** A hook before the change raises: the config is not changed. *)
Theorem C107_pre_change_raises : forall W would change is_loaded apply pre_changed post_changed (s s1 : W) e s',
  would s = (s1, Ok true) -> raised pre_changed s1 e s' ->
  hooked_change would change is_loaded apply pre_changed post_changed true s = (s', Raise e).
Proof. intros W would change is_loaded apply pre post. exact (change_pre would change is_loaded apply pre post). Qed.
(** Once the config is changed: if the item is not loaded that is all and no hook is told; if it is loaded the object is changed, then the
    hooks are called, and both changes stay when one of them raises. An exception while changing the object leaves the hooks uncalled.
    Without a path there is no hook before the change. *)
Theorem C107_change : forall W would change is_loaded apply pre_changed post_changed (b : bool) (s s1 : W) (l : list unit) s2 s3,
  would s = (s1, Ok true) -> (if b then answers pre_changed s1 l s2 else s2 = s1) -> change s2 = (s3, Ok tt) ->
  let run := hooked_change would change is_loaded apply pre_changed post_changed b s in
  (forall s4, is_loaded s3 = (s4, Ok false) -> run = (s4, Ok tt)) /\
  (forall s4 s5, is_loaded s3 = (s4, Ok true) -> apply s4 = (s5, Ok tt) ->
     (forall e s', raised post_changed s5 e s' -> run = (s', Raise e)) /\
     (forall l' s', answers post_changed s5 l' s' -> run = (s', Ok tt))) /\
  (forall s4 e s', is_loaded s3 = (s4, Ok true) -> apply s4 = (s', Raise e) -> run = (s', Raise e)).
Proof. intros W would change is_loaded apply pre post. exact (change_made would change is_loaded apply pre post). Qed.

(** Configs that depend on the changed one are refreshed by the default hook. Without other hooks this is the model of C38. *)
Theorem C107_same_updates : forall V (u : Deps_Model.user V) n i d persist s,
  dep_update u [] [] n i d persist s = Deps_Model.update u n i d persist s.
Proof. intros V. exact dep_update_is_update. Qed.
(** The user's hooks are called before it. When one of them raises, the config and the object are changed and nothing that depends on them
    is refreshed. *)
Theorem C107_dependents_left : forall V (u : Deps_Model.user V) users installed n i d persist s c o o' e s',
  dget i (Deps_Model.cfgs s) = Some c -> Deps_Model.would_update u (Deps_Model.vals c) (dict_of d) = true ->
  dget i (Deps_Model.objs s) = Some o ->
  let c' := Deps_Model.cfg_update c (dict_of d) persist in
  Deps_Model.u_apply u i o (Deps_Model.vals c') = Ok o' ->
  raised users (Deps_Model.St (dset i c' (Deps_Model.cfgs s)) (dset i o' (Deps_Model.objs s)) (Deps_Model.forced s)) e s' ->
  dep_update u users installed n i d persist s = (s', Raise e).
Proof. intros V. exact dep_update_stops. Qed.
(** One would think that dependents are refreshed after every change of a loaded item. Trying the same update again does not help: there
    is nothing to change, so no hook is called. *)
Theorem C107_dependents_refreshed_refuted : exists users s1, let up := dep_update HooksEx.two users [] 5 "a" [("x", 2)] true in
  dget "b" (Deps_Model.objs HooksEx.start) = Some [("y", 2)] /\
  up HooksEx.start = (s1, Raise (UserExn 1)) /\
  dget "a" (Deps_Model.objs s1) = Some [("x", 2)] /\ dget "b" (Deps_Model.objs s1) = Some [("y", 2)] /\
  up s1 = (s1, Ok tt) /\
  dget "b" (Deps_Model.objs (fst (dep_update HooksEx.two [] [] 5 "a" [("x", 2)] true HooksEx.start))) = Some [("y", 3)].
Proof. exists [raise (UserExn 1)]. eexists. cbv zeta. split; [reflexivity|]. split; [vm_compute; reflexivity|]. repeat split; vm_compute; reflexivity. Qed.

Print Assumptions C107_hooks_return.
Print Assumptions C107_hooks_raise.
Print Assumptions C107_pre_run_raises.
Print Assumptions C107_plain.
Print Assumptions C107_auto_pdb.
Print Assumptions C107_force_continue.
Print Assumptions C107_reported.
Print Assumptions C107_force_left.
Print Assumptions C107_force_only_left.
Print Assumptions C107_force_continue_covers_hooks_refuted.
Print Assumptions C107_results_kept_refuted.
Print Assumptions C107_same_runs.
Print Assumptions C107_pre_update_raises.
Print Assumptions C107_update.
Print Assumptions C107_batch_raises.
Print Assumptions C107_batch.
Print Assumptions C107_batch_all_or_nothing_refuted.
Print Assumptions C107_cases_raise.
Print Assumptions C107_modify_raises.
Print Assumptions C107_cases_made.
Print Assumptions C107_iteration.
Print Assumptions C107_case_hook_raises.
Print Assumptions C107_case.
Print Assumptions C107_case_not_filled.
Print Assumptions C107_cases_stop.
Print Assumptions C107_no_change.
Print Assumptions C107_pre_change_raises.
Print Assumptions C107_change.
Print Assumptions C107_same_updates.
Print Assumptions C107_dependents_left.
Print Assumptions C107_dependents_refreshed_refuted.
