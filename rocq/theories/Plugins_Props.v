(** C84: plugins. *)
From Verif Require Import ConfigTree_Spec Config_Proofs ConfigTree_Proofs Batch_Proofs Iterate_Proofs Iterate_Example Plugins_Spec Plugins_Proofs.
Local Open Scope string_scope.
Local Open Scope list_scope.
Local Open Scope monad_scope.

(* ------------------------------------------------------------------ *)
(** * What is called *)

(** Of those that want to be first and of those that do not care, the one registered last is called first; of those that want to
    be last, the one registered last is called last. *)
Theorem C84_order_of_calls : forall A (hook : plugin -> option (place * A)) ps,
  calls hook ps = rev (at_place First hook ps) ++ rev (at_place Normal hook ps) ++ at_place Last hook ps.
Proof. intros A hook ps. apply calls_eq. Qed.
(** The default plugin is called after those registered by the user and before those of installed packages. *)
Theorem C84_default_in_between : forall A (hook : plugin -> option (place * A)) eps us, no_places hook (get_plugin_manager eps ++ us) ->
  calls hook (get_plugin_manager eps ++ us) = rev (all_of hook us) ++ all_of hook [default_plugin] ++ rev (all_of hook eps).
Proof.
  intros A hook eps us H. rewrite calls_normal by exact H. unfold get_plugin_manager, all_of. rewrite !flat_map_app, !rev_app_distr. f_equal. f_equal.
  cbn [flat_map]. destruct (hook default_plugin) as [[pl f]|]; reflexivity.
Qed.
(** Registering a name twice raises; removing a plugin removes its implementations and nothing else. *)
Theorem C84_register : forall ps p, register ps p = if registered ps (pl_name p) then Raise ValueError else Ok (ps ++ [p]).
Proof. reflexivity. Qed.
Theorem C84_unregister : forall A (hook : plugin -> option (place * A)) ps n,
  registered (unregister ps n) n = false /\ (forall p, In p (unregister ps n) <-> In p ps /\ pl_name p <> n) /\
  impls hook (unregister ps n) = filter (fun i => negb (String.eqb (im_owner i) n)) (impls hook ps).
Proof.
  intros A hook ps n. assert (I : forall p, In p (unregister ps n) <-> In p ps /\ pl_name p <> n).
  { intros p. unfold unregister. rewrite filter_In, negb_true_iff. destruct (String.eqb_spec (pl_name p) n); intuition congruence. }
  split; [|split; [exact I|apply impls_unregister]]. unfold registered. apply Bool.not_true_iff_false. intros H. apply existsb_exists in H as (p & Hp & E). apply String.eqb_eq in E. now apply I in Hp as [_ N].
Qed.
(** Removing the default plugins removes the one plugin with the name of the module default_hooks. *)
Theorem C84_default_removed : forall ps p, In p (remove_default_plugins ps) <-> In p ps /\ pl_name p <> "pyfileconf.plugin.default_hooks".
Proof. intros ps p. apply (C84_unregister _ (fun _ => None : option (place * unit)) ps). Qed.
Theorem C84_only_default_removed : forall eps, (forall p, In p eps -> pl_name p <> "pyfileconf.plugin.default_hooks") -> remove_default_plugins (get_plugin_manager eps) = eps.
Proof.
  intros eps H. unfold remove_default_plugins, get_plugin_manager, unregister. rewrite filter_app. cbn [filter pl_name default_plugin]. rewrite String.eqb_refl. cbn [negb]. rewrite app_nil_r.
  induction eps as [|p eps IH]; [reflexivity|]. cbn [filter]. destruct (String.eqb_spec (pl_name p) default_name) as [E|_]; [exfalso; apply (H p); [now left|exact E]|]. cbn [negb]. rewrite IH; [reflexivity|]. intros q I. apply H. now right.
Qed.
(** Resetting forgets the user's plugins and brings the default one back. *)
Theorem C84_reset : forall eps ps, reset_plugins eps ps = get_plugin_manager eps /\ registered (reset_plugins eps ps) default_name = true /\
  forall eps', reset_plugins eps (remove_default_plugins (reset_plugins eps' ps)) = get_plugin_manager eps.
Proof.
  intros eps ps. split; [reflexivity|]. split; [|reflexivity]. unfold reset_plugins, get_plugin_manager, registered. rewrite existsb_app. cbn. now rewrite Bool.orb_true_r.
Qed.

(* ------------------------------------------------------------------ *)
(** * Runs *)

(** Plugins that contribute nothing or single paths: their paths are run after the caller's, in the order the plugins are called. *)
Theorem C84_paths_contributed : forall its ps u set a s, contributions ps a = map CStr (u_pre_run u) ->
  run_with_plugins its ps u set a s = pm_run its (with_plugins ps u) set (as_arg a) s.
Proof. exact run_strings. Qed.
(** Only what is returned counts: what plugins do to the list in place has no effect on what is run, *)
Theorem C84_in_place : forall its ps ps' u set a s, contributions ps a = contributions ps' a -> calls pl_post_run ps = calls pl_post_run ps' ->
  run_with_plugins its ps u set a s = run_with_plugins its ps' u set a s.
Proof. intros its ps ps' u set a s H E. unfold run_with_plugins. fold (contributions ps a) (contributions ps' a). rewrite H. unfold with_plugins. now rewrite E. Qed.
(** although the documentation of the hook says "it can also be modified in place". *)
Theorem C84_in_place_refuted : exists f, f (UMany [UStr "f"]) = (UMany [UStr "f"; UStr "g"], CNone) /\
  snd (run_with_plugins pg_items [pre_run_plugin "p" Normal f] pg_user Plain (UMany [UStr "f"]) pg_rs) = Ok (RVal (VList [VInt 1])) /\
  snd (run_with_plugins pg_items [] pg_user Plain (UMany [UStr "f"; UStr "g"]) pg_rs) = Ok (RList [RVal (VList [VInt 1]); RVal (VList [VInt 2])]).
Proof.
  exists (fun a => (match a with UMany l => UMany (l ++ [UStr "g"]) | _ => a end, CNone)). split; [reflexivity|]. split; vm_compute; reflexivity.
Qed.

(** although the plugins called later see it. *)
Theorem C84_later_hooks : forall h1 h2 a, pre_run_hooks (h1 ++ h2) a =
  (fst (pre_run_hooks h2 (fst (pre_run_hooks h1 a))), snd (pre_run_hooks h1 a) ++ snd (pre_run_hooks h2 (fst (pre_run_hooks h1 a)))).
Proof.
  induction h1 as [|h h1 IH]; intros h2 a; cbn [app pre_run_hooks fst snd].
  - now destruct (pre_run_hooks h2 a).
  - destruct (h a) as [a1 c]. rewrite IH. destruct (pre_run_hooks h1 a1) as [a2 cs]. cbn [fst snd]. now destruct c.
Qed.
(** A view is run by its path without the name of the manager. *)
Theorem C84_views_run : forall m p, has_char dot m = false -> uitem_path (UView (m ++ "." ++ p)) = p.
Proof. intros m p H. exact (proj2 (manager_of_app m p H)). Qed.

(** A plugin that returns a list: everything before it is run, then the run fails. *)
Theorem C84_list_contributed : forall its ps u a l1 l rest s, paths_of a <> [] -> contributions ps a = map CStr l1 ++ CList l :: rest ->
  run_with_plugins its ps u Plain a s =
  match mapM (run_one its (with_plugins ps u)) (paths_of a ++ l1) s with
  | (s1, Ok _) => (s1, Raise AttributeError)
  | (s1, Raise e) => (s1, Raise e)
  end.
Proof.
  intros its ps u a l1 l rest s N H. unfold run_with_plugins. fold (contributions ps a). rewrite H. unfold combined. rewrite app_assoc, <- map_app.
  assert (L : match map CStr (paths_of a ++ l1) ++ CList l :: rest with [c] => inl c | q => inr q end = @inr contrib _ (map CStr (paths_of a ++ l1) ++ CList l :: rest)).
  { destruct (paths_of a) as [|p ps']; [contradiction|]. cbn [app map]. destruct (map CStr (ps' ++ l1)); reflexivity. }
  rewrite L. cbn [runner_run_of]. unfold bind. rewrite mapM_list_fails. destruct (mapM (run_one its (with_plugins ps u)) (paths_of a ++ l1) s) as [s1 [rs|e]]; reflexivity.
Qed.
(** The documentation says "additional sections/functions to run". *)
Theorem C84_list_contributed_refuted : exists its ps u s, contributions ps (UOne (UStr "f")) = [CList ["g"]] /\
  (exists r, snd (run_with_plugins its [] u Plain (UOne (UStr "f")) s) = Ok r) /\ (exists r, snd (run_with_plugins its [] u Plain (UOne (UStr "g")) s) = Ok r) /\
  snd (run_with_plugins its ps u Plain (UOne (UStr "f")) s) = Raise AttributeError /\
  length (r_calls (fst (run_with_plugins its ps u Plain (UOne (UStr "f")) s))) = 1.
Proof.
  exists pg_items, [pre_run_plugin "p" Normal (fun a => (a, CList ["g"]))], pg_user, pg_rs. split; [reflexivity|]. split; [eexists; vm_compute; reflexivity|]. split; [eexists; vm_compute; reflexivity|]. split; vm_compute; reflexivity.
Qed.
(** With force_continue the list is run, as one item; and so it is if nothing else is run. *)
Theorem C84_list_as_one_item : forall its ps u s l, 
  (contributions ps (UMany []) = [CList l] -> run_with_plugins its ps u Plain (UMany []) s = runner_run its (with_plugins ps u) (AList l) s) /\
  (forall p, contributions ps (UOne (UStr p)) = [CList l] ->
     run_with_plugins its ps u ForceContinue (UOne (UStr p)) s =
     (x <- try_run (runner_run its (with_plugins ps u) (AStr p)) ;;
      y <- try_run (runner_run its (with_plugins ps u) (AList l)) ;;
      ret (RList (match x with inl r => [r] | inr _ => [] end ++ match y with inl r => [r] | inr _ => [] end))) s).
Proof.
  intros its ps u s l. split.
  - intros H. unfold run_with_plugins. fold (contributions ps (UMany [])). now rewrite H.
  - intros p H. unfold run_with_plugins. fold (contributions ps (UOne (UStr p))). rewrite H. cbn [combined paths_of uitem_path map app force_continue_of force_loop_of runner_run_of]. unfold bind, ret.
    destruct (try_run (runner_run its (with_plugins ps u) (AStr p)) s) as [s1 [[x|e]|e]]; [| |reflexivity]; destruct (try_run (runner_run its (with_plugins ps u) (AList l)) s1) as [s2 [[y|e2]|e2]]; reflexivity.
Qed.

(** What plugins add to results: one element each. With force_continue they are called for every item, not "at the end of
    PipelineManager.run". *)
Theorem C84_results_added : forall its ps u l rs s s1, length l <> 1 -> contributions ps (UMany (map UStr l)) = [] ->
  mapM (run_one its (with_plugins ps u)) l s = (s1, Ok rs) ->
  run_with_plugins its ps u Plain (UMany (map UStr l)) s =
  (s1, Ok (RList (rs ++ flat_map (fun h => match h (RList rs) with Some x => [x] | None => [] end) (calls pl_post_run ps)))).
Proof.
  intros its ps u l rs s s1 L H M. unfold run_with_plugins. fold (contributions ps (UMany (map UStr l))). rewrite H. unfold combined. rewrite app_nil_r. cbn [paths_of]. rewrite (map_map UStr uitem_path), (map_ext _ (fun x : string => x)), map_id by reflexivity.
  assert (E : match map CStr l with [c] => inl c | q => inr q end = @inr contrib _ (map CStr l)) by (destruct l as [|p [|q r]]; [reflexivity|exfalso; apply L; reflexivity|reflexivity]).
  rewrite E. cbn [runner_run_of]. unfold bind. rewrite mapM_strings, M. reflexivity.
Qed.
Theorem C84_post_run_at_the_end_refuted : exists its ps u s a r1 r2 x,
  snd (run_with_plugins its ps u Plain a s) = Ok (RList [r1; r2; x]) /\
  snd (run_with_plugins its ps u ForceContinue a s) = Ok (RList [RList [r1; x]; RList [r2; x]]).
Proof.
  exists pg_items, [post_run_plugin "p" Normal (fun _ => Some (RVal (VStr "extra")))], pg_user, pg_rs, (UMany [UStr "f"; UStr "g"]). do 3 eexists. split; vm_compute; reflexivity.
Qed.

(* ------------------------------------------------------------------ *)
(** * Updates *)

(** If no plugin wants to be first or last, the value of the one registered first goes into an update. *)
Theorem C84_value_in_update : forall ps d kw k, no_places pl_pre_update ps ->
  (forall h x, In h (all_of pl_pre_update ps) -> h d kw = Some x -> dwf x) ->
  dget k (dict_of (concat (update_contributions ps d kw))) =
  first_of k (flat_map (fun h => match h d kw with Some x => [x] | None => [] end) (all_of pl_pre_update ps)).
Proof.
  intros ps d kw k N W. assert (R : forall (l : list (option (dict pyval) -> dict pyval -> option (dict pyval))), flat_map (fun h => match h d kw with Some x => [x] | None => [] end) (rev l) = rev (flat_map (fun h => match h d kw with Some x => [x] | None => [] end) l)).
  { induction l as [|h l IH]; [reflexivity|]. cbn [rev flat_map]. rewrite flat_map_app, IH, rev_app_distr. cbn [flat_map]. rewrite app_nil_r. f_equal. destruct (h d kw); reflexivity. }
  unfold update_contributions. rewrite calls_normal by exact N. rewrite dget_contributed.
  - rewrite R. now rewrite rev_involutive.
  - rewrite R. apply Forall_rev. apply Forall_forall. intros x Hx. apply in_flat_map in Hx as (h & Hh & Hx). destruct (h d kw) as [y|] eqn:E; [|contradiction]. destruct Hx as [<-|[]]. exact (W h y Hh E).
Qed.
(** Wanting to be first means to lose. *)
Theorem C84_first_wins_refuted : exists ps k v w, ps = [update_plugin "a" First (fun _ _ => Some [(k, v)]); update_plugin "b" Normal (fun _ _ => Some [(k, w)])] /\ v <> w /\
  dget k (dict_of (concat (update_contributions ps None []))) = Some w.
Proof. exists [update_plugin "a" First (fun _ _ => Some [("k", VInt 1)]); update_plugin "b" Normal (fun _ _ => Some [("k", VInt 2)])], "k", (VInt 1), (VInt 2). split; [reflexivity|]. split; [discriminate|reflexivity]. Qed.

(** A batch given as a list: what the plugins return, in the order they are called; what is returned as it is, is applied each time. *)
Theorem C84_batch_of_list : forall ps updates, all_updates ps false updates = flat_map (contributed_updates updates) (calls pl_pre_update_batch ps).
Proof. exact all_updates_list. Qed.
(** So user plugins' updates come before the caller's, which may replace them, and those of installed packages after. *)
Theorem C84_batch_order : forall eps us updates, no_places pl_pre_update_batch (eps ++ us) ->
  all_updates (get_plugin_manager eps ++ us) false updates =
  flat_map (contributed_updates updates) (rev (all_of pl_pre_update_batch us)) ++ updates ++ flat_map (contributed_updates updates) (rev (all_of pl_pre_update_batch eps)).
Proof.
  intros eps us updates H. rewrite all_updates_list, C84_default_in_between.
  - rewrite !flat_map_app. f_equal. f_equal. cbn. now rewrite app_nil_r.
  - intros p pl f Hp. unfold get_plugin_manager in Hp. rewrite <- app_assoc in Hp. apply in_app_iff in Hp as [Hp|[<-|Hp]]; [apply H, in_app_iff; now left|intros [= <- _]; reflexivity|apply H, in_app_iff; now right].
Qed.

(** A batch given as a generator: if a plugin iterates over it, nothing is left for the default plugin, whatever the order; only
    the plugins' own updates are made. *)
Theorem C84_batch_of_generator_read : forall ps updates, existsb bh_reads (calls pl_pre_update_batch ps) = true ->
  all_updates ps true updates = flat_map own_updates (snd (batch_hooks true (calls pl_pre_update_batch ps) updates)).
Proof.
  intros ps updates H. unfold all_updates. pose proof (batch_hooks_read _ updates H) as E. destruct (batch_hooks true (calls pl_pre_update_batch ps) updates) as [r outs]. cbn [fst snd] in *. subst r. apply chain_empty.
Qed.
(** If none does, it is like a list, except that only the first plugin that returns it makes the updates. *)
Theorem C84_batch_of_generator_unread : forall ps updates l1 h l2, existsb bh_reads (calls pl_pre_update_batch ps) = false ->
  calls pl_pre_update_batch ps = l1 ++ h :: l2 -> (forall h', In h' l1 -> bh_fun h' [] <> BSame) -> bh_fun h [] = BSame ->
  all_updates ps true updates = flat_map (contributed_updates updates) l1 ++ updates ++ flat_map own_updates (map (fun h => bh_fun h []) l2).
Proof.
  intros ps updates l1 h l2 R E N S. unfold all_updates. rewrite batch_hooks_unread by exact R. rewrite E in *. rewrite map_app. cbn [map]. rewrite S.
  assert (R1 : forall h', In h' l1 -> bh_reads h' = false). { intros h' Hh. destruct (bh_reads h') eqn:X; [|reflexivity]. rewrite existsb_app in R. apply orb_false_iff in R as [R _]. rewrite <- R. symmetry. apply existsb_exists. eauto. }
  clear R E. induction l1 as [|g l1 IH]; cbn [map app chain_of flat_map].
  - now rewrite chain_empty.
  - unfold contributed_updates at 1. rewrite (R1 g (or_introl eq_refl)). pose proof (N g (or_introl eq_refl)) as Ng.
    assert (IH' := IH (fun h' Hh => N h' (or_intror Hh)) (fun h' Hh => R1 h' (or_intror Hh))).
    destruct (bh_fun g []); [exact IH'|contradiction|]. rewrite IH'. now rewrite <- app_assoc.
Qed.
(** The documentation of the hook only asks for an iterable. *)
Theorem C84_generator_refuted : exists ps updates, all_updates ps false updates = updates /\ all_updates ps true updates = [] /\ updates <> [].
Proof.
  exists (get_plugin_manager [] ++ [batch_plugin "p" Normal (BHook true (fun _ => BNone))]), [(LStr "f", Body None [])]. split; [reflexivity|]. split; [reflexivity|discriminate].
Qed.

(* ------------------------------------------------------------------ *)
(** * Without the default plugin *)

(** With the default plugin alone, batches and iterations are those of C28-C31. *)
Theorem C84_default_only : forall U name paths updates w,
  (forall base strip l, batch_with_plugins U (get_plugin_manager []) false base strip l w = batch_update U [] base strip l w) /\
  product_with_plugins U (get_plugin_manager []) name paths updates w = run_product U name paths updates true w.
Proof.
  intros U name paths updates w. split; [intros; apply default_update; intros p []|]. unfold product_with_plugins, run_product, iter_with_plugins, iter_new, bind. cbv zeta. rewrite cases_default.
  destruct (lift (list_from_ambiguous paths (Some name) true) w) as [w1 [items|e]]; [|reflexivity]. destruct (get_defaults U (Some name) (get_cases [] (fun l => l) updates) w1) as [w2 [d|e]]; [|reflexivity].
  cbn [ret it_cases]. unfold ret. rewrite run_cases_default. unfold iter_run, bind. cbn [it_cases]. destruct (run_cases U (fun _ => true) _ _ (IS w2 None)) as [s [l|e]]; reflexivity.
Qed.
(** Without it, a batch of updates does nothing, *)
Theorem C84_batch_without_default : forall U eps base strip l w, (forall p, In p eps -> pl_pre_update_batch p = None) ->
  batch_with_plugins U (remove_default_plugins (get_plugin_manager eps)) false base strip l w = (w, Ok tt).
Proof.
  intros U eps base strip l w H. unfold batch_with_plugins. rewrite all_updates_list. unfold remove_default_plugins.
  assert (C : calls pl_pre_update_batch (unregister (get_plugin_manager eps) default_name) = []).
  { rewrite calls_normal.
    - assert (A : all_of pl_pre_update_batch (unregister (get_plugin_manager eps) default_name) = []); [|now rewrite A]. unfold all_of, unregister, get_plugin_manager. rewrite filter_app, flat_map_app. cbn. rewrite app_nil_r.
      clear - H. induction eps as [|p eps IH]; [reflexivity|]. cbn [filter]. destruct (negb (String.eqb (pl_name p) default_name)); cbn [flat_map]; [rewrite (H p (or_introl eq_refl))|]; apply IH; intros q Hq; apply H; now right.
    - intros p pl f Hp E. apply (C84_unregister unit (fun _ => None)) in Hp as [Hp Np]. unfold get_plugin_manager in Hp. apply in_app_iff in Hp as [Hp|[<-|[]]]; [rewrite (H p Hp) in E; discriminate|exfalso; apply Np; reflexivity]. }
  rewrite C. reflexivity.
Qed.
(** and iterations raise IndexError, as they do whenever the plugins leave no case. *)
Theorem C84_no_cases : forall U ps name paths updates items w, list_from_ambiguous paths (Some name) true = Ok items ->
  cases_with_plugins ps updates = [] -> product_with_plugins U ps name paths updates w = (w, Raise IndexError).
Proof. intros U ps name paths updates items w H E. unfold product_with_plugins, iter_with_plugins, bind, lift. rewrite H. cbv zeta. rewrite E. reflexivity. Qed.
Example C84_without_default_example : cases_with_plugins (remove_default_plugins (get_plugin_manager [])) [("f", Body None [])] = [].
Proof. reflexivity. Qed.
Theorem C84_removing_is_harmless_refuted : exists w updates, 
  (exists r, snd (product_with_plugins ex_U (get_plugin_manager []) "m" [LStr "f"] updates w) = Ok r) /\
  snd (product_with_plugins ex_U (remove_default_plugins (get_plugin_manager [])) "m" [LStr "f"] updates w) = Raise IndexError.
Proof. exists pg_world, [("f", Body None [("a", VInt 3)])]. split; [eexists; vm_compute; reflexivity|vm_compute; reflexivity]. Qed.

(* ------------------------------------------------------------------ *)
(** * Cases of plugins *)

(** The cases of plugins registered by the user, the product, and the cases of plugins of installed packages; then all
    modifications, in the order the plugins are called. *)
Theorem C84_cases : forall eps us updates, no_places pl_get_cases (eps ++ us) ->
  cases_with_plugins (get_plugin_manager eps ++ us) updates =
  fold_left (fun cases h => h cases) (calls pl_modify_cases (get_plugin_manager eps ++ us))
    (flat_map (fun h => match h updates with Some l => l | None => [] end) (rev (all_of pl_get_cases us)) ++ get_config_product updates ++
     flat_map (fun h => match h updates with Some l => l | None => [] end) (rev (all_of pl_get_cases eps))).
Proof.
  intros eps us updates H. unfold cases_with_plugins. f_equal. rewrite C84_default_in_between.
  - rewrite !flat_map_app. f_equal. f_equal. cbn. now rewrite app_nil_r.
  - intros p pl f Hp. unfold get_plugin_manager in Hp. rewrite <- app_assoc in Hp. apply in_app_iff in Hp as [Hp|[<-|Hp]]; [apply H, in_app_iff; now left|intros [= <- _]; reflexivity|apply H, in_app_iff; now right].
Qed.
(** A case that updates something the first case does not update raises KeyError before anything is updated or run. *)
Theorem C84_case_of_another_item : forall U ps paths updates base strip w w' it first rest c p b s,
  iter_with_plugins U ps paths updates base strip w = (w', Ok it) -> it_cases it = first :: rest ->
  In (p, b) c -> (forall q, In q first -> full_path base (fst q) <> full_path base p) ->
  run_case_with_plugins U ps it c s = (s, Raise KeyError).
Proof.
  intros U ps paths updates base strip w w' it first rest c p b s H C Hin N. unfold iter_with_plugins, bind in H. destruct (lift (list_from_ambiguous paths base strip) w) as [w1 [items|e]]; [|discriminate]. cbv zeta in H.
  destruct (get_defaults U base (cases_with_plugins ps updates) w1) as [w2 [d|e]] eqn:G; [|discriminate]. injection H as <- <-. cbn [it_cases] in C. unfold get_defaults in G. rewrite C in G.
  unfold run_case_with_plugins, bind, lift. rewrite (fill_case_missing _ c p b Hin); [reflexivity|]. cbn [it_base it_defaults]. apply dget_None. intros K. apply (defaults_loop_keys _ _ _ _ _ _ G) in K as [[]|K].
  apply in_map_iff in K as (q & E & Hq). exact (N q Hq E).
Qed.
(** Plugins may contribute cases for items of their own, but not together with others. *)
Theorem C84_cases_of_plugins_refuted : exists ps ps2 w updates,
  ps = get_plugin_manager [] ++ [case_plugin "p" Normal (fun _ => Some [[("g", Body None [("a", VInt 5)])]])] /\
  ps2 = [case_plugin "p" Normal (fun _ => Some [[("g", Body None [("a", VInt 5)])]])] /\
  (exists r, snd (product_with_plugins ex_U (get_plugin_manager []) "m" [LStr "f"] updates w) = Ok r) /\
  (exists r, snd (product_with_plugins ex_U ps2 "m" [LStr "f"] updates w) = Ok r) /\
  snd (product_with_plugins ex_U ps "m" [LStr "f"] updates w) = Raise KeyError.
Proof.
  do 2 eexists. exists pg_world, [("f", Body None [("a", VInt 3)])]. split; [reflexivity|]. split; [reflexivity|]. split; [eexists; vm_compute; reflexivity|]. split; [eexists; vm_compute; reflexivity|vm_compute; reflexivity].
Qed.

(* ------------------------------------------------------------------ *)
(** * Examples *)

Example C84_path_example :
  contributions [pre_run_plugin "p" Normal (fun a => (a, CStr "g"))] (UOne (UStr "f")) = [CStr "g"] /\
  snd (run_with_plugins pg_items [pre_run_plugin "p" Normal (fun a => (a, CStr "g"))] pg_user Plain (UOne (UStr "f")) pg_rs) = Ok (RList [RVal (VList [VInt 1]); RVal (VList [VInt 2])]).
Proof. split; vm_compute; reflexivity. Qed.
Example C84_order_example :
  map (fun h => h (UMany [])) (calls pl_pre_run [pre_run_plugin "a" Normal (fun a => (a, CStr "a")); pre_run_plugin "b" Last (fun a => (a, CStr "b"));
                                  pre_run_plugin "c" Normal (fun a => (a, CStr "c")); pre_run_plugin "d" First (fun a => (a, CStr "d"))]) =
  map (fun x => (UMany [], CStr x)) ["d"; "c"; "a"; "b"].
Proof. reflexivity. Qed.
Example C84_generator_example :
  all_updates (get_plugin_manager [] ++ [batch_plugin "p" Normal (BHook false (fun _ => BNew [(LStr "g", Body None [])]))]) true [(LStr "f", Body None [])] =
  [(LStr "g", Body None []); (LStr "f", Body None [])].
Proof. reflexivity. Qed.
Example C84_doubled_example :
  all_updates (get_plugin_manager [] ++ [batch_plugin "p" Normal (BHook false (fun _ => BSame))]) false [(LStr "f", Body None [])] = [(LStr "f", Body None []); (LStr "f", Body None [])].
Proof. reflexivity. Qed.

Print Assumptions C84_order_of_calls.
Print Assumptions C84_default_in_between.
Print Assumptions C84_register.
Print Assumptions C84_unregister.
Print Assumptions C84_default_removed.
Print Assumptions C84_only_default_removed.
Print Assumptions C84_reset.
Print Assumptions C84_paths_contributed.
Print Assumptions C84_in_place.
Print Assumptions C84_in_place_refuted.
Print Assumptions C84_later_hooks.
Print Assumptions C84_views_run.
Print Assumptions C84_list_contributed.
Print Assumptions C84_list_contributed_refuted.
Print Assumptions C84_list_as_one_item.
Print Assumptions C84_results_added.
Print Assumptions C84_post_run_at_the_end_refuted.
Print Assumptions C84_value_in_update.
Print Assumptions C84_first_wins_refuted.
Print Assumptions C84_batch_of_list.
Print Assumptions C84_batch_order.
Print Assumptions C84_batch_of_generator_read.
Print Assumptions C84_batch_of_generator_unread.
Print Assumptions C84_generator_refuted.
Print Assumptions C84_default_only.
Print Assumptions C84_batch_without_default.
Print Assumptions C84_no_cases.
Print Assumptions C84_removing_is_harmless_refuted.
Print Assumptions C84_cases.
Print Assumptions C84_case_of_another_item.
Print Assumptions C84_cases_of_plugins_refuted.
