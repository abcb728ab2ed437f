(** C65: acting on an item through a view; C66: the method that runs an item of a class dict; C67: mistakes in selectors. *)
From Verif Require Import Runner_Model View_Model View_Spec View_Proofs Selector_Proofs Selector_Props GetAttr_Proofs ConfigTree_Spec Runner_Spec Runner_Props Config_Spec.
Local Open Scope string_scope.
Local Open Scope list_scope.

(** Calling the view of a function calls the object that [pm.get] gives, with the arguments of the call. *)
Theorem C65_call_of_function : forall u sub ua sel w path n below m f args kwargs r i b bound,
  world_ok w -> path_parts path = n :: below -> dget n w = Some m -> quiet m -> usable below -> item_of m below (TFunc f) ->
  runner_get (v_items m) u (join sdot below) (g_rs (v_gs m)) = (r, Ok (GObj (LPartial i f b bound))) ->
  let m' := VMgr (v_items m) (v_klasses m) (GS "" r) in
  view_call u sub ua sel path args kwargs w = (dset n m' w, Ok (VCalls (LPartial i f b bound) None args kwargs)) /\
  dget (join sdot below) (r_loaded r) = Some (LPartial i f b bound).
Proof.
  intros u sub ua sel w path n below m f args kwargs r i b bound Hw Hp Hn Hq Hu Hi G m'. split.
  - pose proof (real_item_of u w path n below m (TFunc f) Hw Hp Hn Hq Hu Hi ltac:(discriminate)) as R. unfold after_get in R. rewrite G in R. cbn [fst snd] in R. fold m' in R.
    unfold view_call. rewrite R, Hp. assert (Hne : below <> []) by (destruct Hi as (g & c & parts & nm & Hc & _); intros ->; inversion Hc).
    destruct below as [|x below]; [congruence|]. now rewrite dget_dset_eq.
  - exact (proj1 (C18_get_gives_the_loaded_object _ _ _ _ _ _ G)).
Qed.

(** If [pm.get] raises, so does the call. *)
Theorem C65_call_fails : forall u sub ua sel w path n below m t args kwargs r e,
  world_ok w -> path_parts path = n :: below -> dget n w = Some m -> quiet m -> usable below -> item_of m below t -> (forall e', t <> TBroken e') ->
  runner_get (v_items m) u (join sdot below) (g_rs (v_gs m)) = (r, Raise e) ->
  view_call u sub ua sel path args kwargs w = (dset n (VMgr (v_items m) (v_klasses m) (GS "" r)) w, Raise e).
Proof.
  intros u sub ua sel w path n below m t args kwargs r e Hw Hp Hn Hq Hu Hi Ht G.
  pose proof (real_item_of u w path n below m t Hw Hp Hn Hq Hu Hi Ht) as R. unfold after_get in R. rewrite G in R. cbn [fst snd] in R. unfold view_call. now rewrite R.
Qed.

(** Calling the view of a class does not call anything: the configured object is returned, and the arguments are ignored. *)
Theorem C65_call_of_class : forall u sub ua sel w path n x below m k args kwargs r i calls,
  world_ok w -> path_parts path = n :: x :: below -> dget n w = Some m -> quiet m -> usable (x :: below) -> item_of m (x :: below) (TClass k) ->
  ~ In x (map reg_name (i_specific (v_items m))) -> x <> "general" ->
  runner_get (v_items m) u (join sdot (x :: below)) (g_rs (v_gs m)) = (r, Ok (GObj (LInst i k calls))) ->
  view_call u sub ua sel path args kwargs w = (dset n (VMgr (v_items m) (v_klasses m) (GS "" r)) w, Ok (VReturns (LInst i k calls) None)).
Proof.
  intros u sub ua sel w path n x below m k args kwargs r i calls Hw Hp Hn Hq Hu Hi Hx Hg G.
  pose proof (real_item_of u w path n (x :: below) m (TClass k) Hw Hp Hn Hq Hu Hi ltac:(discriminate)) as R. unfold after_get in R. rewrite G in R. cbn [fst snd] in R.
  unfold view_call. rewrite R, Hp, dget_dset_eq. cbv zeta. unfold counts_as_specific. cbn [v_items]. apply String.eqb_neq in Hg. rewrite Hg, (proj2 (mem_false _ _) Hx). reflexivity.
Qed.
Theorem C65_arguments_reach_the_item_refuted : exists u sub ua sel w path o, world_ok w /\ make_selector w = Ok sel /\
  (forall args kwargs, snd (view_call u sub ua sel path args kwargs w) = Ok (VReturns o None)).
Proof.
  exists vx_user, vx_sub, vx_ua, vx_sel, vx_w, "p.x.y". eexists. split; [exact vx_w_ok|]. split; [reflexivity|]. intros args kwargs. vm_compute. reflexivity.
Qed.

(** Calling the view of an item of a class dict calls a method of the object that [pm.get] gives (C66 says which). *)
Theorem C65_call_of_instance : forall u sub ua sel w path n below m rg k x args kwargs r i calls,
  world_ok w -> path_parts path = n :: reg_name rg :: below -> dget n w = Some m -> quiet m -> usable (reg_name rg :: below) ->
  In rg (i_specific (v_items m)) -> item_of m (reg_name rg :: below) (TInst k) ->
  (forall k', sub k' k' = true) -> class_map_get k (vs_klasses sel) = Some x -> ua (LInst i k calls) x <> UMissing ->
  runner_get (v_items m) u (join sdot (reg_name rg :: below)) (g_rs (v_gs m)) = (r, Ok (GObj (LInst i k calls))) ->
  view_call u sub ua sel path args kwargs w = (dset n (VMgr (v_items m) (v_klasses m) (GS "" r)) w, Ok (VCalls (LInst i k calls) (Some x) args kwargs)).
Proof.
  intros u sub ua sel w path n below m rg k x args kwargs r i calls Hw Hp Hn Hq Hu Hr Hi Hs Hk Ha G.
  pose proof (real_item_of u w path n (reg_name rg :: below) m (TInst k) Hw Hp Hn Hq Hu Hi ltac:(discriminate)) as R. unfold after_get in R. rewrite G in R. cbn [fst snd] in R.
  unfold view_call. rewrite R, Hp, dget_dset_eq. cbv zeta. unfold counts_as_specific. cbn [v_items]. rewrite (proj2 (mem_In _ _) (in_map reg_name _ _ Hr)), orb_true_r.
  assert (E : is_specific sub sel (LInst i k calls) = true).
  { cbn [is_specific]. apply existsb_exists. apply class_map_spec in Hk as (l1 & l2 & -> & _). exists (k, x). split; [apply in_app_iff; right; now left|apply Hs]. }
  rewrite E. cbn [andb]. rewrite Hk. destruct (ua (LInst i k calls) x); [congruence|reflexivity..].
Qed.

(** A method of a loaded object can be called by its path; methods of other objects than those of class dicts are rejected. *)
Theorem C65_call_of_method : forall u sub ua sel w path n x y rest m o args kwargs w1,
  path_parts path = n :: x :: rest -> real_item u w path = (w1, Ok (AGot (GObj o), [y])) -> dget n w1 = Some m -> ua o y = UMethod ->
  view_call u sub ua sel path args kwargs w = (w1, if is_specific sub sel o then Ok (VCalls o (Some y) args kwargs) else Raise ValueError).
Proof.
  intros u sub ua sel w path n x y rest m o args kwargs w1 Hp R Hn Ha. unfold view_call. rewrite R, Hp, Hn. destruct o as [i f b kw|i k calls]; rewrite Ha; now destruct (is_specific sub sel _).
Qed.

(** Names that a manager uses itself stand in the way. *)
Theorem C65_every_contained_item_can_be_called_refuted : exists u sub ua w sel path, world_ok w /\ make_selector w = Ok sel /\
  sel_contains (vs_struct sel) (smgrs w) (IStr path) = Ok (true, true) /\ (forall n m, dget n w = Some m -> quiet m) /\
  snd (view_call u sub ua sel path [] [] w) = Ok VOther.
Proof.
  exists vx_user, vx_sub, vx_ua, vx_run. eexists. exists "p.run.e". split; [exact vx_run_ok|]. split; [reflexivity|]. split; [reflexivity|]. split; [|reflexivity].
  intros n m. cbn [vx_run dget]. destruct (String.eqb n "p"); [|discriminate]. intros [= <-]. reflexivity.
Qed.

(** Setting an attribute is the update of one entry; the names a view keeps for itself only change the view. *)
Theorem C65_set_is_update : forall u path key v w n below m, path_parts path = n :: below -> dget n w = Some m -> mem key iv_set_attrs = false ->
  exists r o, runner_update u (Some [(key, v)]) (Some (join sdot below)) true [] (g_rs (v_gs m)) = (r, o) /\
  view_setattr u path key v w = (dset n (VMgr (v_items m) (v_klasses m) (GS (g_full (v_gs m)) r)) w, match o with Ok _ => Ok path | Raise e => Raise e end).
Proof.
  intros u path key v w n below m Hp Hn Hk. unfold view_setattr. rewrite Hk, Hp, Hn. destruct (runner_update u (Some [(key, v)]) (Some (join sdot below)) true [] (g_rs (v_gs m))) as [r o]. exists r, o. auto.
Qed.
Theorem C65_set_on_the_view : forall u path key v w, mem key iv_set_attrs = true ->
  fst (view_setattr u path key v w) = w /\ (key <> "section_path_str" -> snd (view_setattr u path key v w) = Ok path) /\
  (forall q, snd (view_setattr u path "section_path_str" (VStr q) w) = Ok q).
Proof.
  intros u path key v w Hk. unfold view_setattr. rewrite Hk. split; [reflexivity|]. split; [|reflexivity]. intros H. apply String.eqb_neq in H. cbn [snd]. now rewrite H.
Qed.

(** These names are the following. *)
Theorem C65_names_of_the_view : forall key, mem key iv_set_attrs = true <->
  key = "section_path_str" \/ key = "selector" \/ key = "_is_item_view" \/ key = "_section_path_str".
Proof. intros key. rewrite mem_In. unfold iv_set_attrs. cbn [In]. intuition congruence. Qed.

(** The view of a manager cannot be called, and nothing can be done with a view whose manager is gone. *)
Theorem C65_call_of_manager : forall u sub ua sel path n args kwargs w, path_parts path = [n] ->
  exists w1 e, view_call u sub ua sel path args kwargs w = (w1, Raise e) /\ fst (real_item u w path) = w1 /\
    (forall r, snd (real_item u w path) = Ok r -> e = IndexError) /\ forall e', snd (real_item u w path) = Raise e' -> e = e'.
Proof.
  intros u sub ua sel path n args kwargs w Hp. unfold view_call. destruct (real_item u w path) as [w1 [[a rest]|e]] eqn:R.
  - rewrite Hp. exists w1, IndexError. cbn. repeat split. discriminate.
  - exists w1, e. cbn. repeat split; [discriminate|congruence].
Qed.
Theorem C65_manager_gone : forall u sub ua sel path n below args kwargs key v w, path_parts path = n :: below -> dget n w = None ->
  real_item u w path = (w, Raise (LibExn "NoPipelineManagerForSectionPathException")) /\
  view_call u sub ua sel path args kwargs w = (w, Raise (LibExn "NoPipelineManagerForSectionPathException")) /\
  (mem key iv_set_attrs = false -> view_setattr u path key v w = (w, Raise KeyError)).
Proof.
  intros u sub ua sel path n below args kwargs key v w Hp Hn. unfold view_call, view_setattr, real_item. rewrite Hp, Hn. repeat split. now intros ->.
Qed.

(** After [view.k = v] on a loaded function, [view()] calls the same object with the new value. *)
Theorem C65_set_then_call : forall u sub ua sel w path n below m f i b bound old own k v args kwargs w1 o,
  world_ok w -> path_parts path = n :: below -> dget n w = Some m -> quiet m -> usable below -> item_of m below (TFunc f) ->
  let p := join sdot below in let s := g_rs (v_gs m) in
  cms_wf (r_cms s) -> own_values (r_cms s) below = Some own -> dget p (r_loaded s) = Some (LPartial i f b bound) -> dget k bound = Some old ->
  mem k iv_set_attrs = false -> comparable own [(k, v)] -> really_changes own [(k, v)] ->
  view_setattr u path k v w = (w1, o) ->
  o = Ok path /\ exists w2 bound', view_call u sub ua sel path args kwargs w1 = (w2, Ok (VCalls (LPartial i f b bound') None args kwargs)) /\ dget k bound' = Some v /\ dkeys bound' = dkeys bound.
Proof.
  intros u sub ua sel w path n below m f i b bound old own k v args kwargs w1 o Hw Hp Hn Hq Hu Hi p s Wf Ho Hl Hb Hk Hc Hr H.
  assert (Hd := parts_of_tail _ _ _ Hp). assert (Hne : below <> []) by (destruct Hi as (g & c & parts & nm & Hc' & _); intros ->; inversion Hc').
  assert (Pp : path_parts p = below) by (now apply parts_join).
  destruct (C65_set_is_update u path k v w n below m Hp Hn Hk) as (r & o' & U & E). rewrite E in H. injection H as <- <-. fold p s in U.
  assert (W1 : dwf (opt_dict (Some [(k, v)]))) by (repeat constructor; cbn; tauto). assert (W2 : dwf (@nil (string * pyval))) by constructor.
  destruct (C19_update_reaches_loaded_function u (Some [(k, v)]) p true [] s r o' own i f b bound) as (-> & bound' & L & K & V); auto.
  { now rewrite Pp. } { intros x Hx. reflexivity. }
  split; [reflexivity|]. set (m1 := VMgr (v_items m) (v_klasses m) (GS (g_full (v_gs m)) r)).
  assert (G : runner_get (v_items m) u p r = (r, Ok (GObj (LPartial i f b bound')))).
  { unfold runner_get, bind at 1, lift. destruct Hi as (g & c & parts & nm & Hc' & Hle & Hrp). unfold p. rewrite (gfc_in m g c parts below (mgr_nodup m (world_mgr w n m Hw Hn)) Hc' Hd).
    - rewrite (proj2 (coll_get_thing c parts (TFunc f)) (ex_intro _ nm Hle)). fold p. destruct g; cbn [snd]; unfold get_one_func_with_config, bind, gets; rewrite L, dget_dset_eq; reflexivity.
    - intros X. apply (usable_parts m g c parts _ Hc' Hu). rewrite X. now left.
    - exact Hrp. }
  assert (Hn1 : dget n (dset n m1 w) = Some m1) by apply dget_dset_eq.
  destruct (C65_call_of_function u sub ua sel (dset n m1 w) path n below m1 f args kwargs r i b bound' (world_ok_set w n m m1 Hw Hn eq_refl) Hp Hn1 Hq Hu Hi G) as [C _].
  eexists. exists bound'. split; [exact C|]. split; [|exact K]. rewrite (V k old Hb). cbn. now rewrite eqb_refl_s.
Qed.

(** The value that was set cannot be read from the view of a function. *)
Theorem C65_set_can_be_read_refuted : exists u sub ua sel w path k v, world_ok w /\ make_selector w = Ok sel /\
  snd (vops_run u sub ua sel [OpSet path k v; OpRead path k] w) = [Done; Failed AttributeError].
Proof. exists vx_user, vx_sub, vx_ua, vx_sel, vx_w, "p.a.b.f", "own", (VInt 77). split; [exact vx_w_ok|]. split; reflexivity. Qed.

Example C65_example : snd (vops_run vx_user vx_sub vx_ua vx_sel
    [OpCall "p.a.b.f" [VInt 1] []; OpSet "p.a.b.f" "own" (VInt 77); OpCall "p.a.b.f" [] [("z", VInt 5)]; OpCall "p.kls.one" [] []; OpCall "p.kls.one.run" [] []] vx_w) =
  [Called (VCalls (LPartial 8 Runner_Example.ex_f false [("k", VInt 3); ("own", VInt 9); ("z", VInt 2)]) None [VInt 1] []); Done;
   Called (VCalls (LPartial 8 Runner_Example.ex_f false [("k", VInt 3); ("own", VInt 77); ("z", VInt 2)]) None [] [("z", VInt 5)]);
   Called (VCalls vx_one (Some "go") [] []); Called (VCalls vx_one (Some "run") [] [])].
Proof. vm_compute. reflexivity. Qed.
Example C65_premises_example : world_ok vx_w /\ quiet vx_p /\ usable ["a"; "b"; "f"] /\ item_of vx_p ["a"; "b"; "f"] (TFunc Runner_Example.ex_f) /\
  item_of vx_p ["kls"; "one"] (TInst vx_k) /\ item_of vx_p ["x"; "y"] (TClass Runner_Example.ex_k).
Proof. exact vx_premises. Qed.

(** * C66 *)
(** [pm.run] executes the method of the last class dict of the manager that is for the class of the item. *)
Theorem C66_method_of_run : forall m k x, run_executes m k = Ok x <->
  exists l1 name l2, v_klasses m = l1 ++ (name, (k, x)) :: l2 /\ forall name' x', ~ In (name', (k, x')) l2.
Proof.
  intros m k x. unfold run_executes. split.
  - destruct (class_map_get k (map snd (v_klasses m))) as [y|] eqn:E; [|discriminate]. intros [= ->]. apply class_map_spec in E as (l1 & l2 & E & N).
    apply map_eq_app in E as (a1 & a2 & -> & <- & E). apply map_eq_cons in E as ([name ky] & a3 & -> & E1 & <-). cbn in E1. subst ky. exists a1, name, a3. split; [reflexivity|].
    intros name' x' I. apply (N x'). now apply (in_map snd) in I.
  - intros (l1 & name & l2 & E & N). replace (class_map_get k (map snd (v_klasses m))) with (Some x); [reflexivity|]. symmetry. apply class_map_spec. exists (map snd l1), (map snd l2).
    rewrite E, map_app. split; [reflexivity|]. intros x' I. apply in_map_iff in I as ([name' [k' y]] & [= -> ->] & I). now apply (N name' x').
Qed.
(** A view executes the method of the last class dict for this class, in the order of the managers in which the selector found them. *)
Theorem C66_method_of_view : forall w sel k x, make_selector w = Ok sel ->
  (class_map_get k (vs_klasses sel) = Some x <-> exists l1 l2, flat_map (fun nm => map snd (v_klasses (snd nm))) w = l1 ++ (k, x) :: l2 /\ forall x', ~ In (k, x') l2).
Proof.
  intros w sel k x H. unfold make_selector in H. destruct (new_selector (smgrs w)); [|discriminate]. injection H as <-. cbn [vs_klasses]. apply class_map_spec.
Qed.
(** So both execute the method given with the item's own class dict if all class dicts for the class name the same method. *)
Theorem C66_own_method : forall w sel n m name k x, make_selector w = Ok sel -> dget n w = Some m -> In (name, (k, x)) (v_klasses m) ->
  (forall n' m' name' x', In (n', m') w -> In (name', (k, x')) (v_klasses m') -> x' = x) ->
  run_executes m k = Ok x /\ class_map_get k (vs_klasses sel) = Some x.
Proof.
  intros w sel n m name k x H Hn Hi Hu. split.
  - unfold run_executes. rewrite (class_map_one k x); [reflexivity|]. split; [now apply (in_map snd) in Hi|]. intros x' I. apply in_map_iff in I as ([name' [k' y]] & [= -> ->] & I).
    apply (Hu n m name' x'); [now apply dget_Some_In|exact I].
  - unfold make_selector in H. destruct (new_selector (smgrs w)); [|discriminate]. injection H as <-. cbn [vs_klasses]. apply class_map_one. split.
    + apply in_flat_map. exists (n, m). split; [now apply dget_Some_In|]. now apply (in_map snd) in Hi.
    + intros x' I. apply in_flat_map in I as ([n' m'] & I1 & I2). apply in_map_iff in I2 as ([name' [k' y]] & [= -> ->] & I2). now apply (Hu n' m' name' x').
Qed.
(** An item whose class is only a subclass of the class of its dict can be got but neither run nor called. *)
Theorem C66_subclass : forall m sel k, (forall x, ~ In (k, x) (vs_klasses sel)) -> (forall name x, ~ In (name, (k, x)) (v_klasses m)) ->
  run_executes m k = Raise KeyError /\
  forall u sub ua w path n x rest i calls args kwargs w1, path_parts path = n :: x :: rest -> real_item u w path = (w1, Ok (AGot (GObj (LInst i k calls)), [])) -> dget n w1 = Some m ->
    counts_as_specific m x = true -> is_specific sub sel (LInst i k calls) = true ->
    view_call u sub ua sel path args kwargs w = (w1, Raise KeyError).
Proof.
  intros m sel k H1 H2. split.
  - unfold run_executes. rewrite (proj2 (class_map_None k _)); [reflexivity|]. intros x I. apply in_map_iff in I as ([name [k' y]] & [= -> ->] & I). now apply (H2 name x).
  - intros u sub ua w path n x rest i calls args kwargs w1 Hp R Hn Hc Hs. unfold view_call. rewrite R, Hp, Hn. cbv zeta. rewrite Hc, Hs. cbn [andb]. now rewrite (proj2 (class_map_None k _) H1).
Qed.
(** An object counts as specific exactly if it is an instance of a class, or of a subclass of one, that some manager has a class dict
    for. *)
Theorem C66_specific : forall sub w sel o, make_selector w = Ok sel ->
  (is_specific sub sel o = true <-> exists i k calls n m name k' x, o = LInst i k calls /\ In (n, m) w /\ In (name, (k', x)) (v_klasses m) /\ sub k k' = true).
Proof.
  intros sub w sel o H. unfold make_selector in H. destruct (new_selector (smgrs w)); [|discriminate]. injection H as <-. destruct o as [i f b kw|i k calls]; cbn [is_specific].
  - split; [discriminate|]. now intros (i' & k & calls & n & m & name & k' & x & [=] & _).
  - rewrite existsb_exists. cbn [vs_klasses]. split.
    + intros ([k' x] & I & S). apply in_flat_map in I as ([n m] & I1 & I2). apply in_map_iff in I2 as ([name [k2 y]] & [= -> ->] & I2).
      exists i, k, calls, n, m, name, k', x. repeat split; assumption.
    + intros (i' & k2 & calls' & n & m & name & k' & x & [= <- <- <-] & I1 & I2 & S). exists (k', x). split; [|exact S].
      apply in_flat_map. exists (n, m). split; [exact I1|]. exact (in_map snd _ _ I2).
Qed.

(** Two class dicts of a manager for the same class: the items of the first are run with the method of the second. *)
Theorem C66_run_uses_own_method_refuted : exists m name k x y, In (name, (k, x)) (v_klasses m) /\ NoDup (map fst (v_klasses m)) /\ run_executes m k = Ok y /\ x <> y.
Proof.
  exists vx_p, "kls", vx_k, "run", "execute". split; [now left|]. split; [repeat constructor; cbn; intuition discriminate|]. split; [reflexivity|discriminate].
Qed.
(** Another manager that uses the class changes what calling a view does. *)
Theorem C66_view_and_run_agree_refuted : exists w sel m k x y, world_ok w /\ make_selector w = Ok sel /\ dget "p" w = Some m /\ run_executes m k = Ok x /\
  snd (view_call vx_user vx_sub vx_ua sel "p.kls.one" [] [] w) = Ok (VCalls vx_one (Some y) [] []) /\ x <> y.
Proof. exists vx_w, vx_sel, vx_p, vx_k, "execute", "go". split; [exact vx_w_ok|]. repeat split; try reflexivity. discriminate. Qed.
Example C66_example : one_method vx_k "go" (map snd (v_klasses vx_q)) /\ run_executes vx_q vx_k = Ok "go" /\ run_executes vx_p vx_k = Ok "execute".
Proof. split; [|split; reflexivity]. split; [now left|]. intros x' [[= <-]|[]]. reflexivity. Qed.

(** * C67 *)
(** A wrong name below a section, [s.n.sections.x]: the error is AttributeError, and the manager keeps the whole path. *)
Theorem C67_wrong_name : forall u ua w sel path n secs m c x, world_ok w -> make_selector w = Ok sel -> path_parts path = n :: secs -> dget n w = Some m -> quiet m -> usable secs ->
  section_of m secs c -> accessible x -> plain_name x -> x <> "" -> (forall z, In z (names_in c) -> startswith z x = false) ->
  view_getattr u ua sel path x w = (dset n (VMgr (v_items m) (v_klasses m) (GS (join sdot (secs ++ [x])) (g_rs (v_gs m)))) w, Raise AttributeError) /\
  dead (v_items m) AttributeError (join sdot (secs ++ [x])).
Proof.
  intros u ua w sel path n secs m c x Hw Hs Hp Hn Hq Hu Hsec [Hx Hxi] Hpl Hxn Hz. assert (Hd := parts_of_tail _ _ _ Hp). assert (Hm := world_mgr w n m Hw Hn).
  assert (D := dead_below m secs c x Hm Hsec Hd Hx Hxn Hz). split; [|exact D].
  assert (Sec : secs <> []) by (destruct Hsec as [(r & -> & _)|(g & c0 & parts & Hc & _)]; [discriminate|intros ->; inversion Hc]).
  unfold make_selector in Hs. destruct (new_selector (smgrs w)) as [st|] eqn:Es; [|discriminate]. injection Hs as <-. cbn [vs_struct].
  unfold view_getattr, iv_getattr. cbn [vs_struct]. change iv_attrs with view_names. rewrite Hxi.
  assert (Sm : dget n (smgrs w) = Some (as_smgr m)) by (rewrite dget_smgrs, Hn; reflexivity).
  rewrite (proj2 (C54_contains (smgrs w) st (path ++ "." ++ x)%string n (secs ++ [x]) (as_smgr m) true Hw Es (parts_snoc path x _ Hp Hx) Sm)) by (apply (not_standing m secs c x); assumption).
  rewrite (real_item_section u w path n secs m c Hw Hp Hn Hq Hu Hsec), Hp, dget_dset_eq. cbn [v_items v_gs].
  rewrite (do_access_plain _ _ _ x) by auto. unfold runner_getattr. cbn [g_full g_rs].
  assert (J : ((join sdot secs ++ ".") ++ x)%string = join sdot (secs ++ [x])) by (apply join_snoc; exact Sec).
  rewrite J.
  assert (E2 := dead_attribute_error m secs c x Hm Hsec Hd Hx Hxn Hz). rewrite E2. cbn [v_items v_klasses]. now rewrite dset_dset.
Qed.
(** After that no view of the manager reaches its item any more, whatever is done. *)
Theorem C67_nothing_works_afterwards : forall u sub ua sel n m w ops, dget n w = Some m -> dead (v_items m) AttributeError (g_full (v_gs m)) ->
  Forall2 (fun o r => on_manager n o -> reaches_nothing o r) ops (snd (vops_run u sub ua sel ops w)).
Proof. intros u sub ua sel n m w ops Hn D. apply (vops_dead u sub ua sel n (v_items m)). exists m. auto. Qed.
(** Looking at the real item of a section ([view.item]), or calling its view, leaves its path behind. *)
Theorem C67_section_leaves_its_path : forall u w path n secs m c, world_ok w -> path_parts path = n :: secs -> dget n w = Some m -> quiet m -> usable secs -> section_of m secs c ->
  real_item u w path = (dset n (VMgr (v_items m) (v_klasses m) (GS (join sdot secs ++ ".") (g_rs (v_gs m)))) w, Ok (ASelf, [])).
Proof. exact real_item_section. Qed.
Theorem C67_call_of_section : forall u sub ua sel w path n secs m c args kwargs, world_ok w -> path_parts path = n :: secs -> dget n w = Some m -> quiet m -> usable secs ->
  section_of m secs c -> (forall z, In z (names_in c) -> startswith z "__self__" = false) ->
  view_call u sub ua sel path args kwargs w = (dset n (VMgr (v_items m) (v_klasses m) (GS (join sdot (secs ++ ["__self__"])) (g_rs (v_gs m)))) w, Ok VRunner) /\
  dead (v_items m) AttributeError (join sdot (secs ++ ["__self__"])).
Proof.
  intros u sub ua sel w path n secs m c args kwargs Hw Hp Hn Hq Hu Hsec Hz. assert (Hd := parts_of_tail _ _ _ Hp). assert (Hm := world_mgr w n m Hw Hn).
  split; [|apply (dead_below m secs c); auto; discriminate].
  assert (Sec : secs <> []) by (destruct Hsec as [(r & -> & _)|(g & c0 & parts & Hc & _)]; [discriminate|intros ->; inversion Hc]).
  unfold view_call. rewrite (real_item_section u w path n secs m c Hw Hp Hn Hq Hu Hsec), Hp. destruct secs as [|x secs]; [congruence|]. rewrite dget_dset_eq. cbn [v_items v_klasses].
  unfold call_runner, runner_getattr. cbn [v_items v_gs g_full g_rs]. rewrite (join_snoc (x :: secs) "__self__" Sec).
  rewrite (dead_attribute_error m (x :: secs) c "__self__" Hm Hsec Hd) by (auto; discriminate). now rewrite dset_dset.
Qed.
(** In general calling the view of a section gives the runner exactly if looking for [__self__] in it raises AttributeError; other
    errors come through. *)
Theorem C67_call_of_any_section : forall u sub ua sel w path n x below w1 rest m s e args kwargs, path_parts path = n :: x :: below ->
  real_item u w path = (w1, Ok (ASelf, rest)) -> dget n w1 = Some m -> runner_getattr (v_items m) u "__self__" (v_gs m) = (s, Raise e) ->
  view_call u sub ua sel path args kwargs w =
    (dset n (VMgr (v_items m) (v_klasses m) s) w1, match e with AttributeError => Ok VRunner | _ => Raise e end).
Proof.
  intros u sub ua sel w path n x below w1 rest m s e args kwargs Hp R Hn G. unfold view_call. rewrite R, Hp, Hn. unfold call_runner. rewrite G. now destruct e, rest.
Qed.
(** If an item or a section is found under [__self__], the section is taken for a method of it: ValueError, unless it is an instance of
    a class dict's class; then it is tried to call the runner. *)
Theorem C67_section_taken_for_a_method : forall u sub ua sel w path n x below w1 rest m s a args kwargs, path_parts path = n :: x :: below ->
  real_item u w path = (w1, Ok (ASelf, rest)) -> dget n w1 = Some m -> runner_getattr (v_items m) u "__self__" (v_gs m) = (s, Ok a) ->
  let r := view_call u sub ua sel path args kwargs w in
  fst r = dset n (VMgr (v_items m) (v_klasses m) s) w1 /\
  ((exists o, a = AGot (GObj o) /\ is_specific sub sel o = true) -> snd r = Ok VOther) /\
  ((forall o, a = AGot (GObj o) -> is_specific sub sel o = false) -> snd r = Raise ValueError).
Proof.
  intros u sub ua sel w path n x below w1 rest m s a args kwargs Hp R Hn G. unfold view_call. rewrite R, Hp, Hn. unfold call_runner. rewrite G.
  destruct a as [|[o| |]|]; destruct rest; cbn; (split; [reflexivity|]; split; [intros (o' & E & S)|intros S]; try discriminate; try reflexivity);
    try (injection E as <-; now rewrite S); now rewrite (S o eq_refl).
Qed.

Theorem C67_wrong_name_is_harmless_refuted : exists u sub ua sel w path ok o, world_ok w /\ make_selector w = Ok sel /\
  snd (vops_run u sub ua sel [OpCall ok [] []] w) = [Called (VCalls o None [] [])] /\
  snd (vops_run u sub ua sel [OpRead path "wrong"; OpCall ok [] []] w) = [Failed AttributeError; Failed AttributeError] /\
  snd (vops_run u sub ua sel [OpItem path; OpCall ok [] []] w) = [Item ASelf []; Failed AttributeError] /\
  snd (vops_run u sub ua sel [OpCall path [] []; OpCall ok [] []] w) = [Called VRunner; Failed AttributeError].
Proof.
  exists vx_user, vx_sub, vx_ua, vx_sel, vx_w, "p.a", "p.a.b.f". eexists. split; [exact vx_w_ok|]. split; [reflexivity|]. split; [vm_compute; reflexivity|]. split; [vm_compute; reflexivity|]. split; vm_compute; reflexivity.
Qed.
(** A wrong name directly below the manager is harmless (no item can have the empty name, which is what the last premise says). *)
Theorem C67_wrong_name_below_manager : forall u ua w sel n m x e e', world_ok w -> make_selector w = Ok sel -> dget n w = Some m -> quiet m -> has_char dot n = false -> accessible x ->
  (forall b, ~ stands_for (as_smgr m) [x] b) -> get_func_or_collection (v_items m) "" = Raise e -> read_error e e' ->
  snd (view_getattr u ua sel n x w) = Raise e' /\ exists m', dget n (fst (view_getattr u ua sel n x w)) = Some m' /\ quiet m' /\ g_rs (v_gs m') = g_rs (v_gs m).
Proof.
  intros u ua w sel n m x e e' Hw Hs Hn Hq Hd [Hx Hxi] Hno He Hr. apply read_error_fun in Hr. subst e'.
  unfold make_selector in Hs. destruct (new_selector (smgrs w)) as [st|] eqn:Es; [|discriminate]. injection Hs as <-.
  assert (P : path_parts n = [n]) by (unfold path_parts, mk_sp; cbn; now apply split_no_sep).
  unfold view_getattr, iv_getattr. cbn [vs_struct]. change iv_attrs with view_names. rewrite Hxi.
  assert (Sm : dget n (smgrs w) = Some (as_smgr m)) by (rewrite dget_smgrs, Hn; reflexivity).
  rewrite (proj2 (C54_contains (smgrs w) st (n ++ "." ++ x)%string n [x] (as_smgr m) true Hw Es (parts_snoc n x _ P Hx) Sm) Hno).
  unfold real_item. rewrite P, Hn. change (path_parts (join sdot [])) with [""]. cbn [vchain]. rewrite (do_access_plain (v_items m) u _ "") by (auto; split; apply not_listed; reflexivity).
  unfold runner_getattr. assert (X : (g_full (v_gs m) ++ "")%string = "") by (unfold quiet in Hq; now rewrite Hq). rewrite X, He.
  destruct e; cbn [fst snd]; (split; [reflexivity|]; eexists; split; [apply dget_dset_eq|]; split; reflexivity).
Qed.
Example C67_example : section_of vx_p ["a"] (Coll "a" [EColl (Coll "b" [EItem "f" (TFunc Runner_Example.ex_f)]); EItem "g" (TFunc Runner_Example.ex_g)]) /\
  accessible "wrong" /\ plain_name "wrong" /\ on_manager "p" (OpCall "p.a.b.f" [] []).
Proof. exact vx_section. Qed.
Example C67_below_manager_example : get_func_or_collection (v_items vx_p) "" = Raise AttributeError /\ get_func_or_collection (v_items vx_q) "" = Raise AttributeError.
Proof. split; reflexivity. Qed.

Print Assumptions C65_call_of_function.
Print Assumptions C65_call_fails.
Print Assumptions C65_call_of_class.
Print Assumptions C65_arguments_reach_the_item_refuted.
Print Assumptions C65_call_of_instance.
Print Assumptions C65_call_of_method.
Print Assumptions C65_every_contained_item_can_be_called_refuted.
Print Assumptions C65_set_is_update.
Print Assumptions C65_set_on_the_view.
Print Assumptions C65_set_then_call.
Print Assumptions C65_set_can_be_read_refuted.
Print Assumptions C66_method_of_run.
Print Assumptions C66_method_of_view.
Print Assumptions C66_own_method.
Print Assumptions C66_subclass.
Print Assumptions C66_run_uses_own_method_refuted.
Print Assumptions C66_view_and_run_agree_refuted.
Print Assumptions C67_wrong_name.
Print Assumptions C67_nothing_works_afterwards.
Print Assumptions C67_section_leaves_its_path.
Print Assumptions C67_call_of_section.
Print Assumptions C67_wrong_name_is_harmless_refuted.
Print Assumptions C67_wrong_name_below_manager.
Print Assumptions C65_names_of_the_view.
Print Assumptions C65_call_of_manager.
Print Assumptions C65_manager_gone.
Print Assumptions C66_specific.
Print Assumptions C67_call_of_any_section.
Print Assumptions C67_section_taken_for_a_method.
