(** Proofs about item views over the life of the managers. *)
From Verif Require Import Phase_Model Phase_Spec View_Proofs Selector_Proofs GetAttr_Proofs.
Local Open Scope string_scope.
Local Open Scope list_scope.

Lemma dget_psmgrs w n : dget n (p_smgrs w) = option_map p_smgr (dget n w).
Proof. unfold p_smgrs. induction w as [|[k m] w IH]; [reflexivity|]. cbn. destruct (String.eqb n k); [reflexivity|exact IH]. Qed.
Lemma dget_after w n : dget n (after_loads w) = option_map after_load (dget n w).
Proof. unfold after_loads. induction w as [|[k m] w IH]; [reflexivity|]. cbn. destruct (String.eqb n k); [reflexivity|exact IH]. Qed.
Lemma after_dset w n v : after_loads (dset n v w) = dset n (after_load v) (after_loads w).
Proof. unfold after_loads. induction w as [|[k m] w IH]; [reflexivity|]. cbn. destruct (String.eqb n k); cbn; [reflexivity|now rewrite IH]. Qed.
Lemma smgrs_after w : p_smgrs (after_loads w) = smgrs w.
Proof. unfold p_smgrs, after_loads, smgrs. rewrite map_map. reflexivity. Qed.
Lemma with_runner_same m its s : g_runner m = Some (its, s) -> with_runner m its s = m.
Proof. destruct m as [a b c d]. cbn. intros ->. reflexivity. Qed.

Lemma late_names x : mem x late_attrs = true <-> x = "config" \/ x = "runner" \/ x = "_import_tracker" \/ x = "_loaded_modules".
Proof. rewrite mem_In. unfold late_attrs. cbn [In]. intuition congruence. Qed.
Lemma there_loaded m x : has_loaded m -> is_there m x = mem x pm_attrs.
Proof.
  intros (Hr & H1 & H2 & H3). unfold is_there. destruct (String.eqb x "runner") eqn:E.
  - apply String.eqb_eq in E. subst x. destruct (g_runner m); [reflexivity|congruence].
  - destruct (mem x late_attrs) eqn:L; [|reflexivity]. apply late_names in L as [-> |[-> |[-> | ->]]]; [|discriminate| |];
      (rewrite (proj2 (mem_In _ _)) by assumption); reflexivity.
Qed.
Lemma access_loaded u m its s x : has_loaded m -> g_runner m = Some (its, s) ->
  mgr_access u m x = (let '(s1, o) := do_access its u (OnManager x) s in (with_runner m its s1, o)).
Proof.
  intros H Hr. unfold mgr_access. rewrite (there_loaded m x H), Hr. cbn [do_access]. destruct (mem x pm_attrs).
  - now rewrite (with_runner_same m its s Hr).
  - reflexivity.
Qed.
Lemma with_runner_twice m its s its' s' : with_runner (with_runner m its s) its' s' = with_runner m its' s'.
Proof. reflexivity. Qed.
Lemma chain_loaded u m its s names : has_loaded m -> g_runner m = Some (its, s) ->
  p_chain u m names = (let '(s1, o) := vchain u its true names s in (with_runner m its s1, o)).
Proof.
  intros H Hr. destruct names as [|x rest]; cbn [p_chain vchain].
  - now rewrite (with_runner_same m its s Hr).
  - rewrite (access_loaded u m its s x H Hr). destruct (do_access its u (OnManager x) s) as [s1 o].
    destruct o as [[|g|]|e]; try reflexivity. destruct rest as [|y rest]; [reflexivity|]. cbn [g_runner with_runner].
    destruct (vchain u its false (y :: rest) s1) as [s2 o2]. reflexivity.
Qed.
Lemma has_loaded_after v : has_loaded (after_load v).
Proof. repeat split; cbn; intuition congruence. Qed.
Lemma has_loaded_with m its s : has_loaded m -> has_loaded (with_runner m its s).
Proof. intros (A & B & C & D). repeat split; try assumption. cbn. discriminate. Qed.

Lemma item_after u w path : p_item u (after_loads w) path = (let '(w1, o) := real_item u w path in (after_loads w1, o)).
Proof.
  unfold p_item, real_item. destruct (path_parts path) as [|n below]; [reflexivity|]. rewrite dget_after. destruct (dget n w) as [v|]; [|reflexivity]. cbn [option_map].
  rewrite (chain_loaded u (after_load v) (v_items v) (v_gs v) _ (has_loaded_after v) eq_refl).
  destruct (vchain u (v_items v) true (path_parts (join sdot below)) (v_gs v)) as [s o]. now rewrite after_dset.
Qed.
Lemma p_specific_after v x : p_specific (after_load v) x = Ok (counts_as_specific v x).
Proof. reflexivity. Qed.
Lemma call_runner_after u sub sel v : p_call_runner u sub sel (v_items v) (v_gs v) = call_runner u sub sel v.
Proof. reflexivity. Qed.
Lemma call_after u sub ua sel path args kwargs w :
  p_call u sub ua sel path args kwargs (after_loads w) = (let '(w1, o) := view_call u sub ua sel path args kwargs w in (after_loads w1, o)).
Proof.
  unfold p_call, view_call. rewrite item_after. destruct (real_item u w path) as [w1 [[a rest]|e]]; [|reflexivity].
  destruct (path_parts path) as [|n [|x below]]; [reflexivity..|]. rewrite dget_after. destruct (dget n w1) as [v|]; [|reflexivity]. cbn [option_map]. rewrite p_specific_after.
  destruct a as [|[ [i f b kw|i kk calls]|l|d]|].
  - cbn [g_runner after_load]. rewrite call_runner_after. destruct (call_runner u sub sel v) as [s r]. now rewrite after_dset.
  - destruct rest as [|y [|z rest]]; try reflexivity. destruct (ua (LPartial i f b kw) y); try reflexivity; now destruct (is_specific sub sel (LPartial i f b kw)).
  - destruct rest as [|y [|z rest]]; try reflexivity.
    + cbv zeta. destruct (counts_as_specific v x && is_specific sub sel (LInst i kk calls)); [|reflexivity]. destruct (class_map_get kk (vs_klasses sel)) as [method|]; [|reflexivity].
      now destruct (ua (LInst i kk calls) method).
    + destruct (ua (LInst i kk calls) y); try reflexivity; now destruct (is_specific sub sel (LInst i kk calls)).
  - now destruct rest as [|? [|? ?]].
  - now destruct rest as [|? [|? ?]].
  - reflexivity.
Qed.
Lemma write_after u path key v w : p_write u path key v (after_loads w) = (let '(w1, o) := view_setattr u path key v w in (after_loads w1, o)).
Proof.
  unfold p_write, view_setattr. destruct (mem key iv_set_attrs); [reflexivity|]. destruct (path_parts path) as [|n below]; [reflexivity|]. rewrite dget_after.
  destruct (dget n w) as [m|]; [|reflexivity]. cbn [option_map after_load g_runner]. destruct (runner_update u (Some [(key, v)]) (Some (join sdot below)) true [] (g_rs (v_gs m))) as [r o].
  now rewrite after_dset.
Qed.

(** the manager that was looked at is among the known ones *)
Lemma lookup_known w path n below e : path_parts path = n :: below -> dmem n w = true -> p_lookup_error w path e = lookup_error e.
Proof. intros Hp Hn. unfold p_lookup_error, lookup_error. rewrite Hp, Hn. destruct e; reflexivity. Qed.
Lemma path_head path x n below : path_parts path = n :: below -> exists rest, path_parts (path ++ "." ++ x)%string = n :: rest.
Proof.
  intros H. unfold path_parts, mk_sp in *. cbn [sections] in *. unfold section_path_str_to_section_strs in *.
  change ("." ++ x)%string with (String dot x). rewrite split_app, H. cbn [app]. eauto.
Qed.
Lemma item_raise_known u w path w1 e n below : p_item u w path = (w1, Raise e) -> path_parts path = n :: below -> dget n w <> None -> dmem n w1 = true.
Proof.
  unfold p_item. intros H Hp Hn. rewrite Hp in H. destruct (dget n w) as [m|]; [|congruence]. destruct (p_chain u m _) as [m1 o]. injection H as <- _. unfold dmem. now rewrite dget_dset_eq.
Qed.
Lemma read_after u ua sel path x w : p_read u ua sel path x (after_loads w) = (let '(w1, o) := view_getattr u ua sel path x w in (after_loads w1, o)).
Proof.
  unfold p_read, view_getattr. rewrite smgrs_after. destruct (iv_getattr (vs_struct sel) (smgrs w) path x) as [[q| |q y]|e]; try reflexivity.
  pose proof (item_after u w path) as I. destruct (real_item u w path) as [w1 r] eqn:R. rewrite I. destruct r as [[a rest]|e].
  - destruct a as [|[o|l|d]|].
    + destruct (path_parts path) as [|n below]; [reflexivity|]. rewrite dget_after. destruct (dget n w1) as [m|]; [|reflexivity]. cbn [option_map after_load g_runner].
      destruct (do_access (v_items m) u (OnRunner x) (v_gs m)) as [s o]. rewrite after_dset. destruct rest; reflexivity.
    + destruct rest; [|reflexivity]. now destruct (ua o x).
    + now destruct rest.
    + now destruct rest.
    + now destruct rest.
  - f_equal. f_equal. destruct (path_parts path) as [|n below] eqn:Ep; [now apply path_parts_ne in Ep|].
    destruct (path_head path x n below Ep) as [rest Eq]. destruct (dget n w) as [m|] eqn:En.
    + apply (lookup_known _ _ n rest); [exact Eq|]. apply (item_raise_known u (after_loads w) path _ e n below I Ep). rewrite dget_after, En. discriminate.
    + unfold real_item in R. rewrite Ep, En in R. injection R as <- <-. reflexivity.
Qed.
Lemma selector_after w : p_selector (after_loads w) = make_selector w.
Proof.
  unfold p_selector, make_selector. rewrite smgrs_after. destruct (new_selector (smgrs w)); [|reflexivity]. f_equal. f_equal. unfold after_loads.
  induction w as [|[n m] w IH]; [reflexivity|]. cbn [map flat_map fst snd after_load g_regs]. f_equal. exact IH.
Qed.

(** * Managers without runner *)
Lemma early_spec x : In x early_names <-> mem x pm_attrs = true /\ mem x late_attrs = false.
Proof.
  rewrite <- (mem_In x early_names). split.
  - intros H. apply mem_In in H. unfold early_names in H. cbn [In] in H.
    repeat (destruct H as [H|H]; [subst x; split; reflexivity|]). destruct H.
  - intros [H1 H2]. apply mem_In in H1. unfold pm_attrs in H1. cbn [In] in H1.
    repeat (destruct H1 as [H1|H1]; [subst x; first [reflexivity|discriminate H2]|]). destruct H1.
Qed.
Lemma there_new m x : g_runner m = None -> is_there m x = true <-> own_of_new m x.
Proof.
  intros Hr. unfold is_there, own_of_new. rewrite Hr. destruct (String.eqb x "runner") eqn:E.
  - apply String.eqb_eq in E. subst x. split; [discriminate|]. intros [H|[[H|[H|H]] _]]; try discriminate. apply early_spec in H as [_ H]. discriminate H.
  - apply String.eqb_neq in E. destruct (mem x late_attrs) eqn:L.
    + rewrite mem_In. split.
      * intros H. right. split; [|exact H]. apply late_names in L. tauto.
      * intros [H|[_ H]]; [|exact H]. apply early_spec in H as [_ H]. congruence.
    + split.
      * intros H. left. apply early_spec. auto.
      * intros [H|[H _]]; [exact (proj1 (proj1 (early_spec x) H))|]. assert (mem x late_attrs = true) by (apply late_names; tauto). congruence.
Qed.
Lemma parts_first path n below : path_parts path = n :: below -> exists rest, path_parts (join sdot below) = first_name below :: rest /\ rest = tl below.
Proof.
  intros Hp. destruct below as [|x below]; [exists []; split; reflexivity|]. rewrite (parts_join (x :: below)); [eexists; split; reflexivity|discriminate|now apply (parts_of_tail path n)].
Qed.
Lemma item_new u w path n below m : path_parts path = n :: below -> dget n w = Some m -> g_runner m = None ->
  p_item u w path = (w, if is_there m (first_name below) then Ok (ADefined, tl below) else Raise pm_not_loaded).
Proof.
  intros Hp Hn Hr. unfold p_item. rewrite Hp, Hn. destruct (parts_first path n below Hp) as (rest & E & ->). rewrite E. cbn [p_chain]. unfold mgr_access. rewrite Hr.
  destruct (is_there m (first_name below)); now rewrite (dset_same n m w Hn).
Qed.

(** * The runner decides *)
Lemma item_runner u w path n below m its s ks v : path_parts path = n :: below -> dget n w = Some m -> has_loaded m -> g_runner m = Some (its, s) ->
  dget n v = Some (VMgr its ks s) ->
  exists s1, real_item u v path = (dset n (VMgr its ks s1) v, snd (real_item u v path)) /\
             p_item u w path = (dset n (with_runner m its s1) w, snd (real_item u v path)).
Proof.
  intros Hp Hn Hl Hr Hv. unfold p_item, real_item. rewrite Hp, Hn, Hv. rewrite (chain_loaded u m its s _ Hl Hr). cbn [v_items v_klasses v_gs].
  destruct (vchain u its true (path_parts (join sdot below)) s) as [s1 o]. exists s1. split; reflexivity.
Qed.
Lemma vchain_app u its : forall secs first s s1 y names, secs <> [] -> vchain u its first secs s = (s1, Ok (ASelf, [])) ->
  vchain u its first (secs ++ y :: names) s = vchain u its false (y :: names) s1.
Proof.
  induction secs as [|z secs IH]; intros first s s1 y names Hne H; [congruence|]. change ((z :: secs) ++ y :: names) with (z :: (secs ++ y :: names)).
  cbn [vchain] in H. unfold vchain at 1. fold (vchain u its). destruct (do_access its u (if first then OnManager z else OnRunner z) s) as [s2 o]. destruct o as [[|g|]|e]; try (injection H as _ H; discriminate); try discriminate.
  destruct secs as [|z2 secs].
  - injection H as <-. reflexivity.
  - cbn [app]. apply (IH false s2 s1 y names); [discriminate|exact H].
Qed.
(** a name that the section does not have *)
Lemma item_unknown u w path n secs x m its s c ks : path_parts path = n :: secs ++ [x] -> dget n w = Some m -> has_loaded m -> g_runner m = Some (its, s) -> g_full s = "" ->
  mgr_ok (as_smgr (VMgr its ks s)) -> usable (secs ++ [x]) -> section_of (VMgr its ks s) secs c -> (forall z, In z (names_in c) -> startswith z x = false) ->
  p_item u w path = (dset n (with_runner m its (GS (join sdot (secs ++ [x])) (g_rs s))) w, Raise AttributeError) /\
  dead its AttributeError (join sdot (secs ++ [x])).
Proof.
  intros Hp Hn Hl Hr Hq Hm Hu Hsec Hz. assert (Hd := parts_of_tail _ _ _ Hp). apply Forall_app in Hd as [Hd Hdx]. inversion Hdx as [|? ? Hx _]; subst.
  apply Forall_app in Hu as [Hu Hux]. inversion Hux as [|? ? [Hpx Hxn] _]; subst.
  assert (Sec : secs <> []) by (destruct Hsec as [(r & -> & _)|(g & c0 & parts & Hc & _)]; [discriminate|intros ->; inversion Hc]).
  assert (D := dead_below (VMgr its ks s) secs c x Hm Hsec Hd Hx Hxn Hz). cbn [v_items] in D. split; [|exact D].
  unfold p_item. rewrite Hp, Hn. rewrite (parts_join (secs ++ [x])); [|destruct secs; discriminate|apply Forall_app; auto]. rewrite (chain_loaded u m its s _ Hl Hr).
  destruct (section_gfc (VMgr its ks s) secs c Hm Hsec Hu Hd) as [_ P]. cbn [v_items] in P.
  rewrite (vchain_app u its secs true s _ x [] Sec (vchain_section its u secs "" true s Hq Sec ltac:(eapply Forall_impl; [|exact Hu]; now intros a [H _]) P)).
  cbn [vchain]. rewrite (do_access_plain its u _ x) by auto. unfold runner_getattr. cbn [g_full g_rs append].
  assert (J : ((join sdot secs ++ ".") ++ x)%string = join sdot (secs ++ [x])) by (apply join_snoc; exact Sec). rewrite J.
  pose proof (proj2 D "") as D0. rewrite app_nil_r_s in D0. now rewrite D0.
Qed.
Lemma item_dead u w path n below m its s : path_parts path = n :: below -> dget n w = Some m -> has_loaded m -> g_runner m = Some (its, s) ->
  dead its AttributeError (g_full s) -> below <> [] -> usable below ->
  exists s1, p_item u w path = (dset n (with_runner m its s1) w, Raise AttributeError) /\ dead its AttributeError (g_full s1).
Proof.
  intros Hp Hn Hl Hr D Hne Hu. unfold p_item. rewrite Hp, Hn, (chain_loaded u m its s _ Hl Hr). rewrite (parts_join below Hne (parts_of_tail _ _ _ Hp)).
  pose proof (vchain_dead its u below true s Hne D) as V. destruct (vchain u its true below s) as [s1 o]. destruct V as (V1 & V2 & _). exists s1. rewrite V2; [auto|].
  eapply Forall_impl; [|exact Hu]. now intros a [X _].
Qed.

Lemma px_premises : let m := PMgr ["kls"; "klt"] (Some (px_items, v_klasses vx_p)) (Some (v_items vx_p, v_gs vx_p)) ["_import_tracker"; "config"; "_loaded_modules"] in
  path_parts "p.a.qq" = "p" :: ["a"] ++ ["qq"] /\ dget "p" px_failed = Some m /\ has_loaded m /\ mgr_ok (as_smgr (VMgr (v_items vx_p) (v_klasses vx_p) (v_gs vx_p))) /\
  usable (["a"] ++ ["qq"]) /\ (exists c, section_of (VMgr (v_items vx_p) (v_klasses vx_p) (v_gs vx_p)) ["a"] c /\ (forall z, In z (names_in c) -> startswith z "qq" = false)) /\
  mgrs_ok (p_smgrs px_failed) /\
  (exists g c' parts y, in_collection (p_smgr m) g c' parts (["a"] ++ ["qq"]) /\ leads c' parts (EItem y (TFunc (Fn "qq" [])))).
Proof.
  intros m. split; [reflexivity|]. split; [reflexivity|]. split; [repeat split; cbn; intuition congruence|].
  split; [exact (world_mgr vx_w "p" vx_p vx_w_ok eq_refl)|].
  split; [repeat (apply Forall_cons; [split; [split; apply not_listed; reflexivity|discriminate]|]); apply Forall_nil|].
  split; [|split].
  - eexists. split; [exact (proj1 vx_section)|]. intros z Hz. assert (H : forallb (fun z => negb (startswith z "qq")) (names_in (Coll "a" [EColl (Coll "b" [EItem "f" (TFunc Runner_Example.ex_f)]); EItem "g" (TFunc Runner_Example.ex_g)])) = true) by reflexivity.
    rewrite forallb_forall in H. specialize (H z Hz). now apply negb_true_iff in H.
  - split; [repeat constructor; cbn; intuition discriminate|]. intros n sm. rewrite dget_psmgrs. unfold px_failed. cbn [dset after_loads vx_w map fst snd]. cbn [String.eqb Ascii.eqb Bool.eqb dget].
    destruct (String.eqb n "p"); [|destruct (String.eqb n "q"); [|discriminate]].
    + cbn [option_map]. intros [= <-]. exists px_items. split; [reflexivity|]. split; [reflexivity|]. split; [repeat constructor; cbn; intuition discriminate|]. cbn. intuition discriminate.
    + cbn [option_map]. intros [= <-]. eexists. split; [reflexivity|]. split; [reflexivity|]. split; [repeat constructor; cbn; intuition discriminate|]. cbn. intuition discriminate.
  - exists true, (i_general px_items), ["a"; "qq"], "qq". split; [apply (in_general _ px_items); [reflexivity|apply not_in_list; reflexivity]|].
    eapply leads_below; [apply not_in_list; reflexivity|apply is_entry_check; reflexivity|]. apply leads_here; [apply not_in_list; reflexivity|apply is_entry_check; reflexivity].
Qed.
