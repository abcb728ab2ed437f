(** C85: the configs of sections as dependents of items. *)
From Verif Require Import SectionPath_Proofs ConfigTree_Proofs ConfigOps_Proofs ConfigLoad_Proofs Registry_Props SectionDeps_Spec SectionDeps_Proofs Iterate_Example.
Local Open Scope string_scope.
Local Open Scope list_scope.
Local Open Scope monad_scope.

(* ------------------------------------------------------------------ *)
(** * Under which path it is recorded *)

(** What a section.py depends on is recorded for the path [manager.section path.section], for the project's own section.py for
    [manager.section]. *)
Theorem C85_recorded_path : forall cwd r m s, startswith cwd "/" = true ->
  (forall part, In part (sections (mk_sp s)) -> part <> "" /\ has_char "/" part = false) ->
  get_manager_by_filepath cwd r (to_filepath (mk_sp (s ++ ".section")) (default_config_path m) ++ ".py") = Ok m ->
  frame_section_path_of_file cwd r (to_filepath (mk_sp (s ++ ".section")) (default_config_path m) ++ ".py") = Ok (mk_sp (m_name m ++ "." ++ s ++ ".section")).
Proof.
  intros cwd r m s Hc Hs H. apply C05_config_file_names_its_item; [exact Hc| |exact H]. intros part Hp. change (s ++ ".section")%string with (s ++ "." ++ "section")%string in Hp.
  rewrite <- sp_join_mk in Hp. rewrite sp_join_sections in Hp. apply in_app_iff in Hp as [Hp|[<-|[]]]; [now apply Hs|split; [discriminate|reflexivity]].
Qed.
Theorem C85_recorded_project : forall cwd r m, startswith cwd "/" = true ->
  get_manager_by_filepath cwd r (to_filepath (mk_sp "section") (default_config_path m) ++ ".py") = Ok m ->
  frame_section_path_of_file cwd r (to_filepath (mk_sp "section") (default_config_path m) ++ ".py") = Ok (mk_sp (m_name m ++ ".section")).
Proof. intros cwd r m Hc H. apply (C05_config_file_names_its_item cwd r m "section"); [exact Hc| |exact H]. intros part [<-|[]]. split; [discriminate|reflexivity]. Qed.

(* ------------------------------------------------------------------ *)
(** * What is found under this path *)

(** Usually nothing: KeyError. If the section itself is called [section], its own config; if it has a section called [section],
    that one's. *)
Theorem C85_found : forall base disk st p s, dir_ok disk -> cm_load base disk = Ok st -> p <> [] -> lookup_at st p = Ok (LSec s) ->
  (last p "" <> "section" \/ s_cfg s = None -> find_dir disk (p ++ ["section"]) = None -> lookup_at st (p ++ ["section"]) = Raise KeyError) /\
  (forall c, last p "" = "section" -> s_cfg s = Some c -> lookup_at st (p ++ ["section"]) = Ok (LSelf c) /\ target st (p ++ ["section"]) = Some (CSec p)) /\
  (forall d, last p "" <> "section" \/ s_cfg s = None -> find_dir disk (p ++ ["section"]) = Some d ->
     exists s', from_files "section" (p ++ ["section"]) d = Ok s' /\ lookup_at st (p ++ ["section"]) = Ok (LSec s') /\ target st (p ++ ["section"]) = Some (CSec (p ++ ["section"]))).
Proof.
  intros base disk st p s Hd L N G. unfold cm_load, from_files_at in L. cbn [find_dir last] in L. destruct (from_files base [] disk) as [root|e] eqn:F; [|discriminate]. injection L as <-.
  unfold lookup_at in *. cbn [cs_root] in *. destruct (nested_from_files p _ _ _ _ _ _ Hd F G) as (d' & E1 & Hd' & F'). cbn [app] in F'. rewrite (last_any p base "" N) in F'.
  pose proof (section_child _ _ _ _ Hd' F') as C. pose proof (get_nested_app mgr_reserved root p ["section"] s G) as A. destruct p as [|x p]; [contradiction|]. cbn [get_nested] in A.
  assert (D : find_dir disk ((x :: p) ++ ["section"]) = dget "section" (dir_subs d')). { rewrite find_dir_app, E1. cbn [find_dir]. now destruct (dget "section" (dir_subs d')). }
  assert (Own : last (x :: p) "" <> "section" \/ s_cfg s = None -> (if String.eqb (last (x :: p) "") "section" then s_cfg s else None) = None).
  { intros [H|H]; [apply String.eqb_neq in H; now rewrite H|destruct (String.eqb (last (x :: p) "") "section"); [exact H|reflexivity]]. }
  split; [|split].
  - intros H E. rewrite (Own H) in C. rewrite D in E. rewrite E in C. now rewrite A, C.
  - intros c H E. rewrite H, E in C. change (String.eqb "section" "section") with true in C. cbv iota in C. rewrite A, C. cbn [leaf_getattrs]. split; [reflexivity|].
    unfold target. rewrite see_eq. unfold lookup_at. cbn [cs_root]. rewrite A, C. cbn [leaf_getattrs see_l]. now rewrite removelast_last.
  - intros d0 H E. rewrite (Own H) in C. rewrite D in E. rewrite E in C. cbn [app] in F'.
    destruct (from_files "section" ((x :: p) ++ ["section"]) d0) as [s'|e] eqn:F2.
    + exists s'. rewrite A, C. split; [reflexivity|]. split; [reflexivity|]. unfold target. rewrite see_eq. unfold lookup_at. cbn [cs_root]. now rewrite A, C.
    + exfalso. destruct (from_files_inv _ _ _ _ F') as (secs & Hs & Es). destruct Hd' as [files subs Wf Ws Hsub]. cbn [dir_subs] in *. pose proof (sub_sections_named _ _ _ "section" Ws Hs) as Q.
      change (hidden "section") with false in Q. cbv iota in Q. rewrite E in Q. destruct Q as (s2 & Q & _). congruence.
Qed.

(** Then refreshing does nothing but raise. *)
Theorem C85_refresh_raises : forall u path p e s, p <> [] -> path_parts path = p ++ ["section"] -> lookup_at (r_cms s) (p ++ ["section"]) = Raise e ->
  runner_refresh_at u path s = (s, Raise e).
Proof.
  intros u path p e [st lo ne ca] N P L. cbn [r_cms] in L. unfold runner_refresh_at, bind, on_cms, cm_refresh_at, bind, stored_config_at, stored_config. cbn [r_cms]. rewrite P, field_other by (exact N || discriminate).
  unfold get_func_or_section_configs. rewrite L. reflexivity.
Qed.
(** The project's own section.py is found, because [section] is an attribute of the config manager. Its config is read again;
    what is loaded is not told. *)
Theorem C85_refresh_project : forall st, stored_config_at "section" st = (st, Ok (project_ref st)) /\
  (s_cfg (cs_root st) = None -> cm_refresh_at "section" st = (st, Raise not_loaded)) /\
  (forall c ref content changes, s_cfg (cs_root st) = Some c -> c_file c = Some ref -> read_file (cs_disk st) ref = Ok content -> change_from_refresh c content = Ok changes -> changes <> [] ->
     forall c' ups, cfg_refresh c content = Ok (c', ups) ->
     exists st', cm_refresh_at "section" st = (st', Ok (CSec [], true, ups)) /\ s_cfg (cs_root st') = Some c' /\ s_items (cs_root st') = s_items (cs_root st) /\ s_attrs (cs_root st') = s_attrs (cs_root st)).
Proof.
  intros st. split; [reflexivity|]. split.
  - intros H. unfold cm_refresh_at, bind. change (stored_config_at "section" st) with (st, Ok (project_ref st)). unfold project_ref. rewrite H. reflexivity.
  - intros c ref content changes Hc Hr Hf Hch Nch c' ups Hcf. unfold cm_refresh_at, bind at 1. change (stored_config_at "section" st) with (st, Ok (project_ref st)). cbv beta iota.
    assert (R : project_ref st = Some (CSec [])) by (unfold project_ref; now rewrite Hc). rewrite R. unfold refresh_found, bind at 1, deref, read_cref, lookup_at. cbn [get_nested]. rewrite Hc.
    unfold bind at 1, reread. rewrite Hr, Hf. unfold bind at 1, lift. rewrite Hch. destruct changes as [|ch changes]; [contradiction|]. unfold bind at 1, emit, modify. cbv beta iota. unfold bind at 1. rewrite Hcf. cbn [fst snd].
    eexists. split; [reflexivity|]. cbn [cs_root map_sec set_cfg s_cfg s_items s_attrs with_root]. auto.
Qed.
Theorem C85_loaded_items_not_told : forall u path s, dget path (r_loaded s) = None -> r_loaded (fst (runner_refresh_at u path s)) = r_loaded s.
Proof.
  intros u path [st lo ne ca] H. unfold runner_refresh_at, bind, on_cms, loaded_at, gets. cbn [r_cms r_loaded] in *. destruct (cm_refresh_at path st) as [st' [[[r b] ups]|e]]; cbn [r_loaded fst]; [|reflexivity].
  rewrite H. reflexivity.
Qed.

(* ------------------------------------------------------------------ *)
(** * Updates of items that a section depends on *)

(** Dependents are refreshed if and only if the hooks for changed configs were called meanwhile, *)
Theorem C85_dependents_refreshed : forall U files forced order n name path d persist kw full w,
  (forall w1, on_mgr U files name (fun _ u => runner_update u d (Some path) persist kw) w = (w1, Ok false) -> update_item U files forced order n name path d persist kw w = (w1, Ok tt)) /\
  (forall w1, on_mgr U files name (fun _ u => runner_update u d (Some path) persist kw) w = (w1, Ok true) ->
     update_item U files forced order n name path d persist kw w = iterM (refresh_path U files forced order n) (dependents forced order (path_str (sp_join (mk_sp name) (mk_sp path)))) w1) /\
  (forall w1, on_mgr U files (manager_of (mk_sp full)) (fun _ u => runner_refresh_at u (relative (mk_sp full))) w = (w1, Ok false) -> refresh_path U files forced order (S n) full w = (w1, Ok tt)) /\
  (forall w1, on_mgr U files (manager_of (mk_sp full)) (fun _ u => runner_refresh_at u (relative (mk_sp full))) w = (w1, Ok true) ->
     refresh_path U files forced order (S n) full w = iterM (refresh_path U files forced order n) (dependents forced order full) w1).
Proof. intros U files forced order n name path d persist kw full w. unfold update_item. cbn [refresh_path]. unfold bind. repeat split; intros w1 ->; reflexivity. Qed.
(** and they are called if and only if the new part of the trace shows one that comes after a change. *)
Theorem C85_hooks_called : forall U files name f w w1 b p, dget name w = Some p -> on_mgr U files name f w = (w1, Ok b) ->
  exists s', w1 = set_rs name p s' w /\ f p (U w name) (with_disk (files w name) (pm_rs p)) = (s', Ok tt) /\
    forall l, cs_trace (r_cms s') = cs_trace (r_cms (pm_rs p)) ++ l -> (b = true <-> exists path ups, In (EvPost path ups) l).
Proof.
  intros U files name f w w1 b p M H. unfold on_mgr in H. rewrite M in H. destruct (f p (U w name) (with_disk (files w name) (pm_rs p))) as [s' [[]|e]]; [|discriminate]. injection H as <- <-.
  exists s'. split; [reflexivity|]. split; [reflexivity|]. intros l E. unfold posted. cbn [with_disk r_cms cs_trace]. rewrite E, skipn_app, skipn_all, Nat.sub_diag. cbn [app skipn].
  rewrite existsb_exists. split.
  - intros (x & Hx & Ex). destruct x as [q u|q u]; [discriminate|]. now exists q, u.
  - intros (q & u & Hin). exists (EvPost q u). now split.
Qed.
Theorem C85_unknown_manager : forall U files forced order n name path d persist kw full w,
  (dget name w = None -> update_item U files forced order n name path d persist kw w = (w, Raise (LibExn "NoPipelineManagerForSectionPathException"))) /\
  (dget (manager_of (mk_sp full)) w = None -> refresh_path U files forced order (S n) full w = (w, Raise (LibExn "NoPipelineManagerForSectionPathException"))).
Proof. intros U files forced order n name path d persist kw full w. unfold update_item. cbn [refresh_path]. unfold bind, on_mgr. split; intros ->; reflexivity. Qed.

(** If a dependent cannot be found, the update raises, but only after the item and the dependents before were changed; the
    dependents after it are not refreshed. *)
Theorem C85_update_stops : forall U files forced order n name path d persist kw w w1 l1 bad l2 w2 p q e,
  on_mgr U files name (fun _ u => runner_update u d (Some path) persist kw) w = (w1, Ok true) ->
  dependents forced order (path_str (sp_join (mk_sp name) (mk_sp path))) = l1 ++ bad :: l2 ->
  iterM (refresh_path U files forced order (S n)) l1 w1 = (w2, Ok tt) ->
  dget (manager_of (mk_sp bad)) w2 = Some p -> q <> [] -> path_parts (relative (mk_sp bad)) = q ++ ["section"] ->
  lookup_at (r_cms (pm_rs p)) (q ++ ["section"]) = Raise e ->
  update_item U files forced order (S n) name path d persist kw w =
  (set_rs (manager_of (mk_sp bad)) p (with_disk (files w2 (manager_of (mk_sp bad))) (pm_rs p)) w2, Raise e).
Proof.
  intros U files forced order n name path d persist kw w w1 l1 bad l2 w2 p q e H D I M N P L. unfold update_item, bind. rewrite H, D. clear H D. revert w1 I.
  induction l1 as [|x l1 IH]; intros w1 I; cbn [app iterM] in *.
  - injection I as ->. unfold bind at 1. cbn [refresh_path]. unfold bind, on_mgr. rewrite M. rewrite (C85_refresh_raises _ _ q e) by assumption. reflexivity.
  - unfold bind in *. destruct (refresh_path U files forced order (S n) x w1) as [w' [[]|e']]; [|discriminate]. exact (IH w' I).
Qed.
(** An update fails in no other way than this: its own change fails, that of a dependent does, or the dependents are nested too deep. *)
Theorem C85_update_fails : forall U files forced order n name path d persist kw w w' e,
  update_item U files forced order n name path d persist kw w = (w', Raise e) ->
  on_mgr U files name (fun _ u => runner_update u d (Some path) persist kw) w = (w', Raise e) \/ e = RecursionError \/
  exists full w1, on_mgr U files (manager_of (mk_sp full)) (fun p u => runner_refresh_at u (relative (mk_sp full))) w1 = (w', Raise e).
Proof.
  intros U files forced order n name path d persist kw w w' e H. unfold update_item, bind in H.
  destruct (on_mgr U files name _ w) as [w1 [b|e1]] eqn:O; [|left; injection H as <- <-; reflexivity]. right. destruct b; [|discriminate]. clear O.
  exact (refreshes_fail U files forced order n _ w1 w' e H).
Qed.
(** "this config depends on the attribute of some other config which was updated" (main.py:396-404): a change does not reach
    all dependents if one is a section.py; it raises KeyError. *)
Theorem C85_update_reaches_dependents_refuted : exists U files w n d,
  (exists w', update_item U files [("a.f", ["b.sec.g"])] (fun l => l) n "a" "f" None true d w = (w', Ok tt) /\ sd_config w' "b" (CItem ["sec"; "g"]) <> sd_config w "b" (CItem ["sec"; "g"])) /\
  (exists w', update_item U files [("a.f", ["b.sec.section"; "b.sec.g"])] (fun l => l) n "a" "f" None true d w = (w', Raise KeyError) /\
     sd_config w' "a" (CItem ["f"]) = Some d /\ sd_config w "a" (CItem ["f"]) <> Some d /\
     sd_config w' "b" (CItem ["sec"; "g"]) = sd_config w "b" (CItem ["sec"; "g"]) /\ sd_config w' "b" (CSec ["sec"]) = sd_config w "b" (CSec ["sec"])).
Proof.
  exists ex_U, sd_files, sd_world, 5, [("x", VInt 7)]. split; eexists.
  - split; [vm_compute; reflexivity|vm_compute; discriminate].
  - split; [vm_compute; reflexivity|]. split; [vm_compute; reflexivity|]. split; [vm_compute; discriminate|]. split; vm_compute; reflexivity.
Qed.
(** Python's order of a set of strings changes from one start to the next. Whether a project setting that depends on an item
    reaches another dependent of this item depends on it. *)
Theorem C85_order_does_not_matter_refuted : exists U files w n d w1 w2,
  update_item U files [("a.f", ["b.section"; "b.sec.g"])] (fun l => l) n "a" "f" None true d w = (w1, Ok tt) /\
  update_item U files [("a.f", ["b.section"; "b.sec.g"])] (@rev string) n "a" "f" None true d w = (w2, Ok tt) /\
  sd_config w1 "b" (CItem ["sec"; "g"]) = Some [("z", VInt 7); ("v", VInt 7); ("y", VInt 1)] /\
  sd_config w2 "b" (CItem ["sec"; "g"]) = Some [("z", VInt 7); ("v", VInt 1); ("y", VInt 1)].
Proof. exists ex_U, sd_files, sd_world, 5, [("x", VInt 7)]. eexists. eexists. split; [vm_compute; reflexivity|]. split; [vm_compute; reflexivity|]. split; vm_compute; reflexivity. Qed.

(* ------------------------------------------------------------------ *)
(** * Attributes that hold configs *)

(** [sec.config] is another path for the config of the section [sec], and [local_config] one for the local config; updates by
    these paths are the same except for what hooks are told. *)
Theorem C85_other_paths : forall st, 
  (forall path path0 s c, path_parts path = path_parts path0 ++ ["config"] -> lookup_at st (path_parts path0) = Ok (LSec s) -> s_cfg s = Some c ->
     stored_config_at path st = stored_config (Some path0) st /\ stored_config (Some path0) st = (st, Ok (Some (CSec (path_parts path0))))) /\
  stored_config_at "local_config" st = stored_config None st /\
  stored_config_at "config" st = match project_ref st with Some r => (st, Ok (Some r)) | None => (st, Raise ValueError) end.
Proof.
  intros st. split; [|split].
  - intros path path0 s c P L C. assert (S : stored_config (Some path0) st = (st, Ok (Some (CSec (path_parts path0))))). { cbn [stored_config]. unfold get_func_or_section_configs. now rewrite L, C. }
    split; [|exact S]. rewrite S. unfold stored_config_at. rewrite P. assert (F : field_ref st (path_parts path0 ++ ["config"]) = Some (Some (CSec (path_parts path0)))); [|now rewrite F].
    assert (K : config_field st (path_parts path0 ++ ["config"]) = Some (Some (CSec (path_parts path0)))). { unfold config_field. rewrite last_last, removelast_last. change (String.eqb "config" "config") with true. cbv iota. now rewrite L, C. }
    unfold field_ref. pose proof (path_parts_nonempty path0) as N. destruct (path_parts path0) as [|x [|y l]]; [contradiction|exact K|exact K].
  - reflexivity.
  - unfold stored_config_at. change (path_parts "config") with ["config"]. cbn [field_ref]. change (String.eqb "config" "section") with false. change (String.eqb "config" "local_config") with false. cbv iota.
    unfold config_field, project_ref, lookup_at. cbn [last removelast get_nested]. change (String.eqb "config" "config") with true. cbv iota. destruct (s_cfg (cs_root st)); reflexivity.
Qed.
Theorem C85_same_operations : forall d path persist kw,
  (forall st, cm_update d (Some path) persist kw st = (r <- stored_config (Some path) ;; update_found d path persist kw r) st) /\
  (forall st, cm_refresh path st = (r <- stored_config (Some path) ;; refresh_found path r) st) /\
  (forall st, field_ref st (path_parts path) = None -> cm_update_at d path persist kw st = cm_update d (Some path) persist kw st /\ cm_refresh_at path st = cm_refresh path st) /\
  (forall u s, field_ref (r_cms s) (path_parts path) = None -> runner_refresh_at u path s = runner_refresh u path s).
Proof.
  intros d path persist kw. split; [reflexivity|]. split; [reflexivity|]. split.
  - intros st H. unfold cm_update_at, cm_refresh_at, stored_config_at, bind. rewrite H. split; reflexivity.
  - intros u [st lo ne ca] H. cbn [r_cms] in H. unfold runner_refresh_at, runner_refresh, bind, on_cms, cm_refresh_at, stored_config_at, bind. cbn [r_cms]. rewrite H. reflexivity.
Qed.

(* ------------------------------------------------------------------ *)
(** * Examples *)

Example C85_found_example : exists st s, cm_load "defaults" (sd_disk_b (VInt 1)) = Ok st /\ dir_ok (sd_disk_b (VInt 1)) /\ lookup_at st ["sec"] = Ok (LSec s) /\ last ["sec"] "" <> "section" /\
  find_dir (sd_disk_b (VInt 1)) ["sec"; "section"] = None.
Proof.
  eexists. eexists. split; [vm_compute; reflexivity|]. split; [|split; [vm_compute; reflexivity|split; [discriminate|reflexivity]]].
  repeat (constructor; cbn; try (intuition discriminate)). intros n d [[= <- <-]|[]]. repeat (constructor; cbn; try (intuition discriminate)); intuition.
Qed.
Example C85_stops_example : exists w1 p, on_mgr ex_U sd_files "a" (fun _ u => runner_update u None (Some "f") true [("x", VInt 7)]) sd_world = (w1, Ok true) /\
  dget (manager_of (mk_sp "b.sec.section")) w1 = Some p /\ path_parts (relative (mk_sp "b.sec.section")) = ["sec"] ++ ["section"] /\ lookup_at (r_cms (pm_rs p)) (["sec"] ++ ["section"]) = Raise KeyError.
Proof. eexists. eexists. split; [vm_compute; reflexivity|]. split; [reflexivity|]. split; vm_compute; reflexivity. Qed.

Print Assumptions C85_recorded_path.
Print Assumptions C85_recorded_project.
Print Assumptions C85_found.
Print Assumptions C85_refresh_raises.
Print Assumptions C85_refresh_project.
Print Assumptions C85_loaded_items_not_told.
Print Assumptions C85_dependents_refreshed.
Print Assumptions C85_hooks_called.
Print Assumptions C85_unknown_manager.
Print Assumptions C85_update_stops.
Print Assumptions C85_update_fails.
Print Assumptions C85_update_reaches_dependents_refuted.
Print Assumptions C85_order_does_not_matter_refuted.
Print Assumptions C85_other_paths.
Print Assumptions C85_same_operations.
