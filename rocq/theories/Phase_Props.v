(** C109: item views over the life of their managers. *)
From Verif Require Import Phase_Model Phase_Spec Phase_Proofs View_Proofs Selector_Proofs Selector_Props GetAttr_Proofs.
From Verif Require Setup_Model Setup_Props.
Local Open Scope string_scope.
Local Open Scope list_scope.

(** As long as the last load of every manager has succeeded, everything is as in C65 to C67. *)
Theorem C109_loaded_managers : forall u sub ua w,
  p_selector (after_loads w) = make_selector w /\
  (forall path, p_item u (after_loads w) path = (let '(w1, o) := real_item u w path in (after_loads w1, o))) /\
  (forall sel path x, p_read u ua sel path x (after_loads w) = (let '(w1, o) := view_getattr u ua sel path x w in (after_loads w1, o))) /\
  (forall sel path args kwargs, p_call u sub ua sel path args kwargs (after_loads w) = (let '(w1, o) := view_call u sub ua sel path args kwargs w in (after_loads w1, o))) /\
  (forall path key v, p_write u path key v (after_loads w) = (let '(w1, o) := view_setattr u path key v w in (after_loads w1, o))).
Proof.
  intros u sub ua w. split; [apply selector_after|]. split; [intros; apply item_after|]. split; [intros; apply read_after|]. split; [intros; apply call_after|]. intros. apply write_after.
Qed.

(** A manager of which no load has succeeded yet (it is new, its first load is going on, or its loads failed): items cannot be got,
    called or set through views, old or new, and this is said. *)
Theorem C109_not_loaded : forall u sub ua sel w path n below m args kwargs key v,
  path_parts path = n :: below -> dget n w = Some m -> g_runner m = None ->
  (~ own_of_new m (first_name below) ->
   p_item u w path = (w, Raise (LibExn "PipelineManagerNotLoadedException")) /\
   p_call u sub ua sel path args kwargs w = (w, Raise (LibExn "PipelineManagerNotLoadedException"))) /\
  (mem key iv_set_attrs = false -> p_write u path key v w = (w, Raise (LibExn "PipelineManagerNotLoadedException"))).
Proof.
  intros u sub ua sel w path n below m args kwargs key v Hp Hn Hr. split.
  - intros Ho. assert (T : is_there m (first_name below) = false).
    { destruct (is_there m (first_name below)) eqn:E; [|reflexivity]. elim Ho. now apply there_new. }
    assert (I := item_new u w path n below m Hp Hn Hr). rewrite T in I. split; [exact I|]. unfold p_call. now rewrite I.
  - intros Hk. unfold p_write. now rewrite Hk, Hp, Hn, Hr.
Qed.

(** Reading is different. What the selector knows, from whichever manager had the name before, still gives views; for everything else the
    reader is told that there is no such item. That the manager is not loaded is never the answer. *)
Theorem C109_read_not_loaded : forall u ua sel w path x n below m,
  path_parts path = n :: below -> dget n w = Some m -> g_runner m = None -> ~ own_of_new m (first_name below) -> mem x view_names = false ->
  p_read u ua sel path x w =
  (w, match sel_contains (vs_struct sel) (p_smgrs w) (IStr (path ++ "." ++ x)%string) with
      | Ok (true, _) => Ok (RView (path ++ "." ++ x)%string)
      | Ok (false, _) => Raise (LibExn "ItemNotFoundException")
      | Raise e => Raise e
      end).
Proof.
  intros u ua sel w path x n below m Hp Hn Hr Ho Hx. unfold p_read, iv_getattr. change iv_attrs with view_names. rewrite Hx.
  destruct (sel_contains (vs_struct sel) (p_smgrs w) (IStr (path ++ "." ++ x)%string)) as [[[|] b]|e]; try reflexivity.
  assert (T : is_there m (first_name below) = false).
  { destruct (is_there m (first_name below)) eqn:E; [|reflexivity]. elim Ho. now apply there_new. }
  rewrite (item_new u w path n below m Hp Hn Hr), T. destruct (path_head path x n below Hp) as [rest Eq].
  rewrite (lookup_known w _ n rest); [reflexivity|exact Eq|]. unfold dmem. now rewrite Hn.
Qed.
Theorem C109_never_said_when_reading : forall u ua sel w path x n below m,
  path_parts path = n :: below -> (dget n w = Some m /\ g_runner m = None \/ dget n w = None) ->
  snd (p_read u ua sel path x w) <> Raise (LibExn "PipelineManagerNotLoadedException").
Proof.
  intros u ua sel w path x n below m Hp H. unfold p_read, iv_getattr. destruct (mem x iv_attrs); [discriminate|].
  destruct (path_head path x n below Hp) as [rest Eq].
  destruct (sel_contains (vs_struct sel) (p_smgrs w) (IStr (path ++ "." ++ x)%string)) as [[[|] b]|e] eqn:E; [discriminate| |].
  - destruct H as [[Hn Hr]|Hn].
    + rewrite (item_new u w path n below m Hp Hn Hr). destruct (is_there m (first_name below)); [discriminate|].
      rewrite (lookup_known w _ n rest); [discriminate|exact Eq|]. unfold dmem. now rewrite Hn.
    + cbn [sel_contains] in E. unfold locate in E. rewrite Eq, dget_psmgrs, Hn in E. discriminate.
  - intros [= ->]. revert E. cbn [sel_contains]. intros E.
    destruct (locate (vs_struct sel) (p_smgrs w) (path ++ "." ++ x)) as [[c|g c parts]|e'] eqn:Lo; [discriminate| |].
    + destruct (coll_get c parts) as [[c'|t|]|[]] eqn:G; try discriminate. injection E as ->. now apply coll_get_raises in G.
    + injection E as ->. unfold locate in Lo. rewrite Eq in Lo. destruct (dget n (p_smgrs w)) as [m'|]; [|discriminate]. destruct rest as [|y rest]; [discriminate|].
      destruct (mem y (g_names m')).
      * destruct rest as [|z rest].
        -- destruct (dget n (vs_struct sel)) as [d'|]; [destruct (dget y d')|]; discriminate.
        -- destruct (dget n (vs_struct sel)) as [d'|]; [destruct (dget y d')|]; discriminate.
      * destruct (dget n (vs_struct sel)) as [d'|]; [destruct (dget general_name d')|]; discriminate.
Qed.

(** The names that such a manager has itself are found; calling them is refused unless the load has got to its registrars. *)
Theorem C109_own_names : forall u sub ua sel w path n below m args kwargs,
  path_parts path = n :: below -> dget n w = Some m -> g_runner m = None -> own_of_new m (first_name below) ->
  p_item u w path = (w, Ok (ADefined, tl below)) /\
  (below <> [] -> p_call u sub ua sel path args kwargs w = (w, match g_regs m with None => Raise ValueError | Some _ => Ok VOther end)).
Proof.
  intros u sub ua sel w path n below m args kwargs Hp Hn Hr Ho. assert (I := item_new u w path n below m Hp Hn Hr). rewrite (proj2 (there_new m _ Hr) Ho) in I.
  split; [exact I|]. intros Hne. unfold p_call. rewrite I, Hp. destruct below as [|x below]; [congruence|]. rewrite Hn. unfold p_specific. destruct (g_regs m) as [[i ks]|]; [|reflexivity].
  cbn [tl]. now destruct below as [|? [|? ?]].
Qed.

(** Reading through a view whose manager is gone. *)
Theorem C109_gone : forall u ua sel w path x n below, path_parts path = n :: below -> dget n w = None -> mem x view_names = false ->
  p_read u ua sel path x w = (w, Raise KeyError).
Proof.
  intros u ua sel w path x n below Hp Hn Hx. unfold p_read, iv_getattr. change iv_attrs with view_names. rewrite Hx. cbn [sel_contains]. unfold locate.
  destruct (path_head path x n below Hp) as [rest Eq]. now rewrite Eq, dget_psmgrs, Hn.
Qed.

(** A selector cannot be made while any active manager has no registrars yet, whichever managers are of interest. *)
Theorem C109_selector : forall w,
  (exists sel, p_selector w = Ok sel) /\ (forall n m, In (n, m) w -> g_regs m <> None) \/
  p_selector w = Raise AttributeError /\ exists n m, In (n, m) w /\ g_regs m = None.
Proof.
  intros w. unfold p_selector. destruct (C54_needs_all_managers_loaded (p_smgrs w)) as [[H [sel E]]|[(n & sm & Hi & Hg) E]]; rewrite E.
  - left. split; [eauto|]. intros n m Hi X. apply (H n (p_smgr m)); [|cbn; now rewrite X]. unfold p_smgrs. apply in_map_iff. exists (n, m). auto.
  - right. split; [reflexivity|]. unfold p_smgrs in Hi. apply in_map_iff in Hi as ([n' m] & [= -> <-] & Hi). exists n, m. split; [exact Hi|]. cbn in Hg. now destruct (g_regs m).
Qed.

(** With a selector older than the manager, which names are those of class dicts is decided by the manager, but their items are looked
    for in what the selector knows. *)
Theorem C109_class_dict_of_new_manager : forall u ua sel w n m x, has_char dot n = false -> has_char dot x = false -> dget n w = Some m -> In x (g_class_names m) ->
  (forall d, dget n (vs_struct sel) = Some d -> dget x d = None) -> mem x view_names = false ->
  p_read u ua sel n x w = (w, Raise KeyError).
Proof.
  intros u ua sel w n m x Hd Hx Hn Hi Hs Hv. unfold p_read, iv_getattr. change iv_attrs with view_names. rewrite Hv. cbn [sel_contains]. unfold locate.
  assert (P : path_parts n = [n]) by (unfold path_parts, mk_sp; cbn; now apply split_no_sep). rewrite (parts_snoc n x [n] P Hx). cbn [app]. rewrite dget_psmgrs, Hn. cbn [option_map p_smgr g_names].
  rewrite (proj2 (mem_In _ _) Hi). destruct (dget n (vs_struct sel)) as [d|]; [|reflexivity]. now rewrite (Hs d eq_refl).
Qed.

(** Once a load has succeeded, what views reach is decided by the runner alone: by what was there at the last load that succeeded,
    whatever the registrars are now. *)
Theorem C109_runner_decides : forall u w path n below m its s ks v,
  path_parts path = n :: below -> dget n w = Some m -> has_loaded m -> g_runner m = Some (its, s) -> dget n v = Some (VMgr its ks s) ->
  exists s1, real_item u v path = (dset n (VMgr its ks s1) v, snd (real_item u v path)) /\
             p_item u w path = (dset n (with_runner m its s1) w, snd (real_item u v path)).
Proof. exact item_runner. Qed.
(** A load that fails keeps the runner, or its absence (C71). *)
Theorem C109_failed_load : forall parse view inst cfg config_dir st next f p l p' e m m',
  Setup_Model.pm_load parse view inst cfg config_dir st next f p = (l, p', Raise e) -> shows p m -> shows p' m' ->
  option_map (fun r => (fst r, g_rs (snd r))) (g_runner m') = option_map (fun r => (fst r, g_rs (snd r))) (g_runner m).
Proof.
  intros parse view inst cfg config_dir st next f p l p' e m m' H [_ S1] [_ S2]. apply Setup_Props.C71_runner_kept in H. congruence.
Qed.

(** So an item that a failed load has added is in new selectors, but calling or reading it raises AttributeError, and after that
    no item of the manager can be reached through a view. *)
Theorem C109_added_by_failed_load : forall u sub ua sel w path n secs x m its s c ks args kwargs t,
  path_parts path = n :: secs ++ [x] -> dget n w = Some m -> has_loaded m -> g_runner m = Some (its, s) -> g_full s = "" ->
  mgr_ok (as_smgr (VMgr its ks s)) -> usable (secs ++ [x]) -> section_of (VMgr its ks s) secs c -> (forall z, In z (names_in c) -> startswith z x = false) ->
  mgrs_ok (p_smgrs w) -> p_selector w = Ok sel ->
  (exists g c' parts y, in_collection (p_smgr m) g c' parts (secs ++ [x]) /\ leads c' parts (EItem y t)) ->
  sel_contains (vs_struct sel) (p_smgrs w) (IStr path) = Ok (true, true) /\
  exists w1, p_call u sub ua sel path args kwargs w = (w1, Raise AttributeError) /\
  forall path2 below, path_parts path2 = n :: below -> below <> [] -> usable below -> snd (p_item u w1 path2) = Raise AttributeError.
Proof.
  intros u sub ua sel w path n secs x m its s c ks args kwargs t Hp Hn Hl Hr Hq Hm Hu Hsec Hz Hw Hsel (g & c' & parts & y & Hc & Hle). split.
  - unfold p_selector in Hsel. destruct (new_selector (p_smgrs w)) as [st|] eqn:Es; [|discriminate]. injection Hsel as <-. cbn [vs_struct].
    apply (C54_contains (p_smgrs w) st path n (secs ++ [x]) (p_smgr m) true Hw Es Hp); [rewrite dget_psmgrs, Hn; reflexivity|]. now apply (st_item _ g c' parts _ y t).
  - destruct (item_unknown u w path n secs x m its s c ks Hp Hn Hl Hr Hq Hm Hu Hsec Hz) as [I D].
    eexists. split; [unfold p_call; rewrite I; reflexivity|]. intros path2 below Hp2 Hne Hu2.
    destruct (item_dead u (dset n (with_runner m its (GS (join sdot (secs ++ [x])) (g_rs s))) w) path2 n below (with_runner m its (GS (join sdot (secs ++ [x])) (g_rs s))) its (GS (join sdot (secs ++ [x])) (g_rs s)) Hp2
               (dget_dset_eq _ _ _) (has_loaded_with _ _ _ Hl) eq_refl D Hne Hu2) as (s1 & E & _). now rewrite E.
Qed.

(** What is contained in a new selector can therefore not always be called, *)
Theorem C109_contained_can_be_called_refuted : exists u sub ua sel w path ok o, p_selector w = Ok sel /\
  sel_contains (vs_struct sel) (p_smgrs w) (IStr path) = Ok (true, true) /\
  snd (p_call u sub ua sel path [] [] w) = Raise AttributeError /\
  snd (p_call u sub ua sel ok [] [] w) = Ok (VCalls o None [] []) /\
  snd (p_call u sub ua sel ok [] [] (fst (p_call u sub ua sel path [] [] w))) = Raise AttributeError.
Proof.
  exists vx_user, vx_sub, vx_ua, px_failed_sel, px_failed, "p.a.qq", "p.a.b.f". eexists. split; [reflexivity|]. split; [reflexivity|]. split; [vm_compute; reflexivity|]. split; vm_compute; reflexivity.
Qed.
(** and reading an item of a manager that is not loaded does not say so. *)
Theorem C109_not_loaded_is_said_refuted : exists u sub ua sel w path x, p_selector (after_loads vx_w) = Ok sel /\
  snd (p_call u sub ua sel path [] [] w) = Raise (LibExn "PipelineManagerNotLoadedException") /\
  snd (p_read u ua sel path x w) = Raise (LibExn "ItemNotFoundException").
Proof.
  exists vx_user, vx_sub, vx_ua, px_sel, px_new, "p.a.b.f", "keywords". split; [reflexivity|]. split; vm_compute; reflexivity.
Qed.
Example C109_example :
  snd (p_read vx_user vx_ua px_sel "p.a.b" "f" px_new) = Ok (RView "p.a.b.f") /\
  snd (p_read vx_user vx_ua px_sel "p.a" "nope" px_new) = Raise (LibExn "ItemNotFoundException") /\
  snd (p_write vx_user "p.a.b.f" "own" (VInt 1) px_new) = Raise (LibExn "PipelineManagerNotLoadedException") /\
  snd (p_item vx_user px_new "p.folder") = Ok (ADefined, []) /\
  snd (p_call vx_user vx_sub vx_ua px_sel "p.folder" [] [] px_new) = Raise ValueError /\
  p_selector px_new = Raise AttributeError /\
  snd (p_read vx_user vx_ua px_sel "p" "a" px_other) = Raise KeyError /\
  snd (p_read vx_user vx_ua px_sel "p.a" "b" px_new) = Ok (RView "p.a.b") /\
  has_loaded (after_load vx_p) /\ own_of_new (PMgr [] None None []) "run" /\ ~ own_of_new (PMgr [] None None []) "config".
Proof.
  repeat match goal with |- _ /\ _ => split end; try (vm_compute; reflexivity).
  - apply has_loaded_after.
  - left. cbn. tauto.
  - intros [H|[_ []]]. cbn in H. intuition discriminate.
Qed.

Example C109_premises_example : let m := PMgr ["kls"; "klt"] (Some (px_items, v_klasses vx_p)) (Some (v_items vx_p, v_gs vx_p)) ["_import_tracker"; "config"; "_loaded_modules"] in
  path_parts "p.a.qq" = "p" :: ["a"] ++ ["qq"] /\ dget "p" px_failed = Some m /\ has_loaded m /\ mgr_ok (as_smgr (VMgr (v_items vx_p) (v_klasses vx_p) (v_gs vx_p))) /\
  usable (["a"] ++ ["qq"]) /\ (exists c, section_of (VMgr (v_items vx_p) (v_klasses vx_p) (v_gs vx_p)) ["a"] c /\ (forall z, In z (names_in c) -> startswith z "qq" = false)) /\
  mgrs_ok (p_smgrs px_failed) /\
  (exists g c' parts y, in_collection (p_smgr m) g c' parts (["a"] ++ ["qq"]) /\ leads c' parts (EItem y (TFunc (Fn "qq" [])))).
Proof. exact px_premises. Qed.

Print Assumptions C109_loaded_managers.
Print Assumptions C109_not_loaded.
Print Assumptions C109_read_not_loaded.
Print Assumptions C109_never_said_when_reading.
Print Assumptions C109_own_names.
Print Assumptions C109_gone.
Print Assumptions C109_selector.
Print Assumptions C109_class_dict_of_new_manager.
Print Assumptions C109_runner_decides.
Print Assumptions C109_failed_load.
Print Assumptions C109_added_by_failed_load.
Print Assumptions C109_contained_can_be_called_refuted.
Print Assumptions C109_not_loaded_is_said_refuted.
