(** Proofs about plugins. *)
From Verif Require Import Config_Proofs Batch_Proofs Iterate_Proofs Iterate_Example.
From Verif Require Import Plugins_Spec.
Local Open Scope string_scope.
Local Open Scope list_scope.
Local Open Scope monad_scope.

Section Order.
Context {A : Type}.
Variable hook : plugin -> option (place * A).
(** the same as [at_place], with the owners *)
Definition impls_at (pl : place) (ps : plm) : list (impl A) :=
  flat_map (fun p => match hook p with Some (q, f) => if same_place q pl then [Impl (pl_name p) q f] else [] | None => [] end) ps.
Lemma impls_at_do pl ps : map im_do (impls_at pl ps) = at_place pl hook ps.
Proof.
  unfold impls_at, at_place. induction ps as [|p ps IH]; [reflexivity|]. cbn [flat_map]. rewrite map_app, IH. f_equal. destruct (hook p) as [[q f]|]; [|reflexivity]. destruct (same_place q pl); reflexivity.
Qed.
Lemma impls_at_first ps i : In i (impls_at First ps) -> is_first i = true.
Proof. intros H. apply in_flat_map in H as (p & _ & H). destruct (hook p) as [[q f]|]; [|contradiction]. destruct q; cbn in H; try contradiction. destruct H as [<-|[]]. reflexivity. Qed.
Lemma impls_at_other pl ps i : pl <> First -> In i (impls_at pl ps) -> is_first i = false.
Proof. intros N H. apply in_flat_map in H as (p & _ & H). destruct (hook p) as [[q f]|]; [|contradiction]. destruct q, pl; cbn in H; try contradiction; try congruence; destruct H as [<-|[]]; reflexivity. Qed.
Lemma insert_rev_app (i : impl A) f r : (forall j, In j f -> is_first j = true) -> (forall j, In j r -> is_first j = false) -> insert_rev i (f ++ r) = f ++ i :: r.
Proof.
  intros Hf Hr. induction f as [|j f IH]; cbn [app insert_rev].
  - destruct r as [|j r]; [reflexivity|]. cbn [insert_rev]. now rewrite (Hr j (or_introl eq_refl)).
  - rewrite (Hf j (or_introl eq_refl)). f_equal. apply IH. intros k Hk. apply Hf. now right.
Qed.
Lemma impls_eq ps : impls hook ps = rev (impls_at Last ps) ++ impls_at Normal ps ++ impls_at First ps.
Proof.
  induction ps as [|p ps IH] using rev_ind; [reflexivity|]. unfold impls. rewrite fold_left_app. fold (impls hook ps). cbn [fold_left].
  assert (S : forall pl, impls_at pl (ps ++ [p]) = impls_at pl ps ++ match hook p with Some (q, f) => if same_place q pl then [Impl (pl_name p) q f] else [] | None => [] end).
  { intros pl. unfold impls_at. rewrite flat_map_app. cbn [flat_map]. now rewrite app_nil_r. }
  rewrite !S. destruct (hook p) as [[q f]|]; [|rewrite !app_nil_r; exact IH]. rewrite IH. unfold add_impl. destruct q; cbn [im_place same_place]; rewrite ?app_nil_r.
  - now rewrite <- !app_assoc.
  - rewrite !rev_app_distr, rev_involutive, <- app_assoc, insert_rev_app.
    + rewrite rev_app_distr, rev_involutive. cbn [rev]. rewrite rev_app_distr, rev_involutive. rewrite <- !app_assoc. reflexivity.
    + intros j Hj. apply in_rev in Hj. now apply impls_at_first in Hj.
    + intros j Hj. apply in_app_iff in Hj as [Hj|Hj]; [apply in_rev in Hj; now apply impls_at_other in Hj|]. now apply impls_at_other in Hj.
  - rewrite rev_app_distr. reflexivity.
Qed.
Lemma calls_eq ps : calls hook ps = rev (at_place First hook ps) ++ rev (at_place Normal hook ps) ++ at_place Last hook ps.
Proof.
  unfold calls. rewrite impls_eq, !rev_app_distr, rev_involutive, <- app_assoc, !map_app, !map_rev, !impls_at_do. reflexivity.
Qed.

Lemma at_place_none pl ps : pl <> Normal -> no_places hook ps -> at_place pl hook ps = [].
Proof.
  intros N H. unfold at_place. induction ps as [|p ps IH]; [reflexivity|]. cbn [flat_map]. rewrite IH by (intros q pl' f Hq; apply H; now right). rewrite app_nil_r.
  destruct (hook p) as [[q f]|] eqn:E; [|reflexivity]. rewrite (H p q f (or_introl eq_refl) E). destruct pl; [reflexivity|contradiction|reflexivity].
Qed.
Lemma at_place_normal ps : no_places hook ps -> at_place Normal hook ps = all_of hook ps.
Proof.
  intros H. unfold at_place, all_of. induction ps as [|p ps IH]; [reflexivity|]. cbn [flat_map]. rewrite IH by (intros q pl' f Hq; apply H; now right). f_equal.
  destruct (hook p) as [[q f]|] eqn:E; [|reflexivity]. now rewrite (H p q f (or_introl eq_refl) E).
Qed.
Lemma calls_normal ps : no_places hook ps -> calls hook ps = rev (all_of hook ps).
Proof.
  intros H. rewrite calls_eq, (at_place_none First), (at_place_none Last), at_place_normal by (congruence || assumption). cbn [rev app]. apply app_nil_r.
Qed.

Lemma filter_flat_map {B C} (p : C -> bool) (f : B -> list C) l : filter p (flat_map f l) = flat_map (fun x => filter p (f x)) l.
Proof. induction l as [|x l IH]; [reflexivity|]. cbn [flat_map]. now rewrite filter_app, IH. Qed.
Lemma impls_at_unregister pl ps n : impls_at pl (unregister ps n) = filter (fun i => negb (String.eqb (im_owner i) n)) (impls_at pl ps).
Proof.
  unfold impls_at, unregister. induction ps as [|p ps IH]; [reflexivity|]. cbn [filter flat_map]. rewrite filter_app, <- IH. destruct (String.eqb (pl_name p) n) eqn:E; cbn [negb flat_map].
  - destruct (hook p) as [[q f]|]; [|reflexivity]. destruct (same_place q pl); [|reflexivity]. cbn [filter im_owner]. now rewrite E.
  - f_equal. destruct (hook p) as [[q f]|]; [|reflexivity]. destruct (same_place q pl); [|reflexivity]. cbn [filter im_owner]. now rewrite E.
Qed.
Lemma filter_rev {B} (p : B -> bool) l : filter p (rev l) = rev (filter p l).
Proof. induction l as [|x l IH]; [reflexivity|]. cbn [rev filter]. rewrite filter_app, IH. cbn [filter]. destruct (p x); cbn [rev]; [reflexivity|apply app_nil_r]. Qed.
Lemma impls_unregister ps n : impls hook (unregister ps n) = filter (fun i => negb (String.eqb (im_owner i) n)) (impls hook ps).
Proof. rewrite !impls_eq, !filter_app, filter_rev, !impls_at_unregister. reflexivity. Qed.
End Order.

(* ------------------------------------------------------------------ *)
(** * Runs *)

Section Run.
Variable its : items.
Variable u : user.
Lemma mapM_strings l s : mapM (run_one_of its u) (map CStr l) s = mapM (run_one its u) l s.
Proof.
  revert s. induction l as [|p l IH]; intros s; [reflexivity|]. cbn [map mapM run_one_of]. unfold bind. destruct (run_one its u p s) as [s1 [r|e]]; [|reflexivity]. now rewrite IH.
Qed.
Lemma runner_run_many l s : runner_run_of its u (inr (map CStr l)) s = runner_run its u (AList l) s.
Proof.
  cbn [runner_run_of]. unfold runner_run, bind. rewrite mapM_strings. destruct (mapM (run_one its u) l s) as [s1 [rs|e]]; [|reflexivity]. cbn.
  destruct (u_post_run u (RList rs)); [now rewrite app_nil_r|reflexivity].
Qed.
Lemma force_many l s : force_loop_of its u (map CStr l) s = (let '(s1, r) := force_loop its u l s in (s1, match r with Ok x => Ok (fst x) | Raise e => Raise e end)).
Proof.
  revert s. induction l as [|p l IH]; intros s; [reflexivity|]. cbn [map force_loop_of force_loop]. unfold bind. cbn [runner_run_of].
  destruct (try_run (runner_run its u (AStr p)) s) as [s1 [[x|e]|e]]; [| |reflexivity]; rewrite IH; destruct (force_loop its u l s1) as [s2 [re|e2]]; reflexivity.
Qed.
Lemma force_one p s : force_continue_of its u (inl (CStr p)) s = (let '(s1, r) := run_with_force_continue its u (AStr p) s in (s1, match r with Ok x => Ok (fst x) | Raise e => Raise e end)).
Proof.
  unfold force_continue_of, run_with_force_continue, bind. rewrite (force_many [p]). destruct (force_loop its u [p] s) as [s1 [re|e]] eqn:E; [|reflexivity].
  destruct (fst re) as [|r [|r2 q]] eqn:F; try reflexivity. exfalso. revert E. cbn [force_loop]. unfold bind, ret. destruct (try_run (runner_run its u (AStr p)) s) as [s2 [[x|e]|e]]; intros E; try discriminate; injection E as <- <-; cbn in F; discriminate.
Qed.
End Run.

Lemma strings_only cs : (forall c, In c cs -> exists s, c = CStr s) -> exists strs, cs = map CStr strs.
Proof.
  induction cs as [|c cs IH]; intros H; [exists []; reflexivity|]. destruct (H c (or_introl eq_refl)) as [s ->]. destruct IH as [strs ->]; [intros d Hd; apply H; now right|]. exists (s :: strs). reflexivity.
Qed.
Lemma run_strings its ps u set a s : contributions ps a = map CStr (u_pre_run u) -> run_with_plugins its ps u set a s = pm_run its (with_plugins ps u) set (as_arg a) s.
Proof.
  intros H. unfold run_with_plugins. fold (contributions ps a). rewrite H. unfold combined. rewrite <- map_app. unfold pm_run. change (u_pre_run (with_plugins ps u)) with (u_pre_run u). cbv zeta.
  assert (C : combine (as_arg a) (u_pre_run u) = match paths_of a ++ u_pre_run u with [p] => AStr p | l => AList l end) by (destruct a; reflexivity). rewrite C.
  set (v := with_plugins ps u). destruct (paths_of a ++ u_pre_run u) as [|p [|q r]]; cbn [map].
  - destruct set; cbv iota; [apply (runner_run_many its v [])| |].
    + cbn [force_continue_of]. unfold run_with_force_continue, bind. pose proof (force_many its v [] s) as F. cbn [map] in F. rewrite F. destruct (force_loop its v [] s) as [s1 [re|e]]; reflexivity.
    + unfold bind, try_run. pose proof (runner_run_many its v [] s) as R. cbn [map] in R. rewrite R. destruct (runner_run its v (AList []) s) as [s1 [x|e]]; [reflexivity|]. destruct (user_interrupt e); reflexivity.
  - destruct set; cbv iota; [reflexivity| |].
    + rewrite force_one. unfold bind. destruct (run_with_force_continue its v (AStr p) s) as [s1 [x|e]]; reflexivity.
    + reflexivity.
  - destruct set; cbv iota; [apply (runner_run_many its v (p :: q :: r))| |].
    + cbn [force_continue_of]. unfold run_with_force_continue, bind. pose proof (force_many its v (p :: q :: r) s) as F. cbn [map] in F. rewrite F. destruct (force_loop its v (p :: q :: r) s) as [s1 [re|e]]; reflexivity.
    + unfold bind, try_run. pose proof (runner_run_many its v (p :: q :: r) s) as R. cbn [map] in R. rewrite R. destruct (runner_run its v (AList (p :: q :: r)) s) as [s1 [x|e]]; [reflexivity|]. destruct (user_interrupt e); reflexivity.
Qed.

Lemma mapM_list_fails its u l1 l rest s : mapM (run_one_of its u) (map CStr l1 ++ CList l :: rest) s =
  match mapM (run_one its u) l1 s with (s1, Ok _) => (s1, Raise AttributeError) | (s1, Raise e) => (s1, Raise e) end.
Proof.
  revert s. induction l1 as [|p l1 IH]; intros s; [reflexivity|]. cbn [map app mapM run_one_of]. unfold bind. destruct (run_one its u p s) as [s1 [r|e]]; [|reflexivity]. rewrite IH.
  destruct (mapM (run_one its u) l1 s1) as [s2 [rs|e]]; reflexivity.
Qed.

(* ------------------------------------------------------------------ *)
(** * Updates *)

Lemma batch_hooks_list hs updates : batch_hooks false hs updates = (updates, map (fun h => bh_fun h (if bh_reads h then updates else [])) hs).
Proof. induction hs as [|h hs IH]; [reflexivity|]. cbn [batch_hooks andb map]. now rewrite IH. Qed.
Lemma chain_list updates outs : chain_of false updates outs = flat_map (fun o => match o with BNone => [] | BSame => updates | BNew l => l end) outs.
Proof. induction outs as [|[| |l] outs IH]; cbn [chain_of flat_map]; rewrite ?IH; reflexivity. Qed.
Lemma all_updates_list ps updates : all_updates ps false updates = flat_map (contributed_updates updates) (calls pl_pre_update_batch ps).
Proof.
  unfold all_updates. rewrite batch_hooks_list, chain_list. induction (calls pl_pre_update_batch ps) as [|h hs IH]; [reflexivity|]. cbn [map flat_map]. now rewrite IH.
Qed.
Lemma batch_hooks_gen_empty hs : batch_hooks true hs [] = ([], map (fun h => bh_fun h []) hs).
Proof. induction hs as [|h hs IH]; [reflexivity|]. cbn [batch_hooks map andb]. replace (if bh_reads h then [] else []) with (@nil upd) by (destruct (bh_reads h); reflexivity). now rewrite IH. Qed.
Lemma batch_hooks_read hs updates : existsb bh_reads hs = true -> fst (batch_hooks true hs updates) = [].
Proof.
  revert updates. induction hs as [|h hs IH]; intros updates H; [discriminate|]. cbn [existsb] in H. cbn [batch_hooks andb]. destruct (bh_reads h).
  - now rewrite batch_hooks_gen_empty.
  - cbn [orb] in H. specialize (IH updates H). destruct (batch_hooks true hs updates) as [l outs]. exact IH.
Qed.
Lemma chain_empty gen outs : chain_of gen [] outs = flat_map own_updates outs.
Proof. induction outs as [|[| |l] outs IH]; cbn [chain_of flat_map own_updates app]; rewrite ?IH; try reflexivity. destruct gen; rewrite IH; reflexivity. Qed.
Lemma batch_hooks_unread hs updates : existsb bh_reads hs = false -> batch_hooks true hs updates = (updates, map (fun h => bh_fun h []) hs).
Proof.
  induction hs as [|h hs IH]; intros H; [reflexivity|]. cbn [existsb] in H. apply orb_false_iff in H as [H1 H2]. cbn [batch_hooks map]. rewrite H1. cbn [andb]. now rewrite IH.
Qed.

(* ------------------------------------------------------------------ *)
(** * Iterations *)

Section Iter.
Variable U : world -> string -> user.
Lemma default_update eps : (forall p, In p eps -> pl_pre_update_batch p = None) -> forall base strip l w,
  batch_with_plugins U (get_plugin_manager eps) false base strip l w = batch_update U [] base strip l w.
Proof.
  intros H base strip l w. unfold batch_with_plugins. rewrite all_updates_list. assert (C : calls pl_pre_update_batch (get_plugin_manager eps) = [BHook false (fun _ => BSame)]).
  { unfold calls, impls, get_plugin_manager. rewrite fold_left_app. replace (fold_left _ eps []) with (@nil (impl bhook)); [reflexivity|]. clear - H. symmetry. induction eps as [|p eps IH]; [reflexivity|]. cbn [fold_left]. rewrite (H p (or_introl eq_refl)). apply IH. intros q Hq. apply H. now right. }
  rewrite C. cbn [flat_map]. rewrite app_nil_r. reflexivity.
Qed.
Lemma run_case_default it c s : run_case_with_plugins U (get_plugin_manager []) it c s = run_case U it c s.
Proof.
  unfold run_case_with_plugins, run_case, bind. destruct (lift (fill_case it c) s) as [s1 [filled|e]]; [|reflexivity].
  change (calls pl_update_for_case (get_plugin_manager [])) with [default_update_for_case]. cbn [iterM]. unfold bind, default_update_for_case, update_for_case, bind.
  destruct (updated_confs (is_last s1) filled) as [confs|e]; [|reflexivity]. unfold on_world. rewrite default_update by (intros p []).
  destruct (batch_update U [] (it_base it) (it_strip it) (map (fun q => (LStr (fst q), snd q)) confs) (is_world s1)) as [w [x|e]]; reflexivity.
Qed.
Lemma run_cases_default it l : forall s, run_cases_with_plugins U (get_plugin_manager []) it l s = run_cases U (fun _ => true) it l s.
Proof.
  induction l as [|c l IH]; intros s; [reflexivity|]. cbn [run_cases_with_plugins run_cases]. unfold bind. rewrite run_case_default. destruct (run_case U it c s) as [s1 [r|e]]; [|reflexivity]. now rewrite IH.
Qed.
Lemma cases_default updates : cases_with_plugins (get_plugin_manager []) updates = get_cases [] (fun l => l) updates.
Proof. unfold cases_with_plugins, get_cases. cbn. now rewrite !app_nil_r. Qed.

Lemma defaults_loop_keys fps : forall acc w w' d, defaults_loop U fps acc w = (w', Ok d) -> forall k, In k (dkeys d) -> In k (dkeys acc) \/ In k fps.
Proof.
  induction fps as [|fp fps IH]; intros acc w w' d H k Hk; cbn [defaults_loop] in H; [injection H as <- <-; now left|]. unfold bind in H. destruct (default_for_path U fp w) as [w1 [o|e]]; [|discriminate].
  destruct (IH _ _ _ _ H k Hk) as [K|K]; [|right; now right]. destruct o as [d0|]; [|now left]. apply In_dkeys_dset in K as [->|K]; [right; now left|now left].
Qed.
Lemma fill_case_missing it c p b : In (p, b) c -> dget (full_path (it_base it) p) (it_defaults it) = None -> fill_case it c = Raise KeyError.
Proof.
  induction c as [|q c IH]; intros H N; [contradiction|]. cbn [fill_case]. destruct H as [->|H]; [cbn [fst]; now rewrite N|]. destruct (dget (full_path (it_base it) (fst q)) (it_defaults it)); [|reflexivity]. now rewrite IH.
Qed.
End Iter.
