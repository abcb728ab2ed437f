(** C87: class checks on views, and what giving views to the library does. *)
From Verif Require Import Runner_Model View_Model View_Spec View_Proofs Selector_Proofs Selector_Props GetAttr_Proofs Report_Proofs SectionPath_Proofs Config_Model ViewClass_Model ViewClass_Spec ViewClass_Proofs.
Local Open Scope string_scope.
Local Open Scope list_scope.

(** The class a view claims to be of, for a selector that knows the item: a function (not a partial, as which it is run), the class
    for items that are classes and for items of class dicts. Finding it imports the module of the item, nothing else. If this raises
    an exception, so does the class check, except that after an AttributeError the view is of no class. *)
Theorem C87_class_of_item : forall u sel bc w path n below m t, world_ok w -> make_selector w = Ok (sel path) -> path_parts path = n :: below -> dget n w = Some m ->
  item_of m below t ->
  match t with
  | TFunc _ => claims_class u sel bc w path (Some KFunction)
  | TClass k | TInst k => claims_class u sel bc w path (Some (KClass k))
  | TOther => claims_class u sel bc w path (Some KElse)
  | TBroken AttributeError => claims_class u sel bc w path None
  | TBroken e => class_raises u sel bc w path e
  end.
Proof.
  intros u sel bc w path n below m t Hw Hs Hp Hn (g & c & parts & x & Hc & Hl & Hr). apply make_selector_struct in Hs.
  assert (Hn' : dget n (smgrs w) = Some (as_smgr m)) by (rewrite dget_smgrs, Hn; reflexivity).
  destruct (C54_types (smgrs w) (vs_struct (sel path)) path n below (as_smgr m) g c parts Hw Hs Hp Hn' Hc) as (_ & T & _). specialize (T x t Hl).
  unfold claims_class, class_raises, view_class. rewrite T. destruct t as [| | | |e]; try reflexivity. destruct e; try reflexivity.
  rewrite (contained_class u sel bc path w); [reflexivity|]. exists true.
  apply (C54_contains (smgrs w) (vs_struct (sel path)) path n below (as_smgr m) true Hw Hs Hp Hn').
  now apply (st_item (as_smgr m) g c parts below x (TBroken AttributeError)).
Qed.

(** A view of a section claims to be a collection; one of a manager or of a class dict has no class. *)
Theorem C87_class_of_section : forall u sel bc w path n below m, world_ok w -> make_selector w = Ok (sel path) -> path_parts path = n :: below -> dget n w = Some m ->
  (forall g c parts c', in_collection (as_smgr m) g c parts below -> leads c parts (EColl c') -> claims_class u sel bc w path (Some KCollection)) /\
  (below = [] \/ (exists r, In r (i_specific (v_items m)) /\ below = [reg_name r]) -> claims_class u sel bc w path None).
Proof.
  intros u sel bc w path n below m Hw Hs Hp Hn. apply make_selector_struct in Hs.
  assert (Hn' : dget n (smgrs w) = Some (as_smgr m)) by (rewrite dget_smgrs, Hn; reflexivity). split.
  - intros g c parts c' Hc Hl. destruct (C54_types (smgrs w) (vs_struct (sel path)) path n below (as_smgr m) g c parts Hw Hs Hp Hn' Hc) as (T & _). specialize (T c' Hl).
    unfold claims_class, view_class. now rewrite T.
  - intros H. unfold claims_class, view_class, get_type. pose proof (locate_spec (smgrs w) (vs_struct (sel path)) path n below (as_smgr m) Hw Hs Hp Hn') as L.
    destruct (locate (vs_struct (sel path)) (smgrs w) path) as [[c|g c parts]|e]; [reflexivity| |contradiction]. exfalso. destruct L as (L & Hne & _).
    inversion L as [i r rest Hi Hr Hx E1 E2 E3 E4|i x rest Hi Hx E1 E2 E3 E4]; subst; destruct H as [H|(r' & Hr' & H)]; try discriminate; injection H as H1 H2; [congruence|].
    apply Hx. rewrite H1. cbn [g_names as_smgr]. now apply in_map.
Qed.

(** If the manager of a view is gone, every class check raises a KeyError. *)
Theorem C87_class_without_manager : forall u sel bc w path n below, path_parts path = n :: below -> dget n w = None -> class_raises u sel bc w path KeyError.
Proof. intros u sel bc w path n below Hp Hn. unfold class_raises, view_class, get_type, locate. rewrite Hp, dget_smgrs, Hn. reflexivity. Qed.

(** [isinstance] with one class and with several *)
Theorem C87_isinstance : forall u sel bc t w path w1 r, view_class u sel bc path w = (w1, r) ->
  view_isinstance u sel bc t path w = (w1, match r with Ok (Some c) => Ok (t c) | Ok None => Ok false | Raise e => Raise e end).
Proof. intros u sel bc t w path w1 r H. unfold view_isinstance. rewrite H. now destruct r as [[c|]|e]. Qed.
Theorem C87_isinstance_any : forall u sel bc ts w path c, claims_class u sel bc w path c ->
  view_isinstance_any u sel bc ts path w = (w, Ok match c with Some k => existsb (fun t => t k) ts | None => false end).
Proof.
  intros u sel bc ts w path c Hc. induction ts as [|t ts IH]; cbn [view_isinstance_any]; [now destruct c|].
  rewrite (C87_isinstance u sel bc t w path w (Ok c) Hc). destruct c as [k|]; [|exact IH]. cbn [existsb]. destruct (t k); [reflexivity|exact IH].
Qed.

(** A selector made before the item existed: the class check gets the item as [pm.get] does, and the view is of the class of what it
    gives: a partial for a function. *)
Theorem C87_old_selector : forall u sel bc w path n below m t, world_ok w -> path_parts path = n :: below -> dget n w = Some m -> quiet m -> usable below ->
  item_of m below t -> (forall e, t <> TBroken e) -> get_type (vs_struct (sel path)) (smgrs w) path = Raise AttributeError ->
  sel_contains (vs_struct (sel path)) (smgrs w) (IStr path) = Ok (false, false) ->
  fst (view_class u sel bc path w) = dset n (after_get u m (join sdot below)) w /\
  (forall o, snd (runner_get (v_items m) u (join sdot below) (g_rs (v_gs m))) = Ok (GObj o) ->
    snd (view_class u sel bc path w) = Ok (Some match o with LPartial _ _ _ _ => KPartial | LInst _ k _ => KClass k end)) /\
  (forall e e', snd (runner_get (v_items m) u (join sdot below) (g_rs (v_gs m))) = Raise e -> read_error e e' ->
    snd (view_class u sel bc path w) = match e with AttributeError => Ok None | _ => Raise e' end).
Proof.
  intros u sel bc w path n below m t Hw Hp Hn Hq Hu Hi Ht G Hc. pose proof (real_item_of u w path n below m t Hw Hp Hn Hq Hu Hi Ht) as R.
  destruct (not_contained u sel bc path w Hc) as [V|(g & c & parts & L & F)].
  2:{ unfold get_type in G. rewrite L, F in G. discriminate. }
  rewrite V, R. destruct (runner_get (v_items m) u (join sdot below) (g_rs (v_gs m))) as [r [[o|l|d]|e]]; cbn [fst snd].
  - destruct o; repeat split; try discriminate; intros ? [= <-]; reflexivity.
  - repeat split; discriminate.
  - repeat split; discriminate.
  - destruct e; (split; [reflexivity|split; [discriminate|]]); intros ? e' [= <-] Hr; apply read_error_fun in Hr; subst e'; reflexivity.
Qed.
(** The view of a section that the selector does not know claims to be a runner, and the check leaves the manager with part of a path
    that falsifies the next access (C26). *)
Theorem C87_old_selector_section : forall u sel bc w path n below m c', world_ok w -> path_parts path = n :: below -> dget n w = Some m -> quiet m -> usable below ->
  section_of m below c' -> get_type (vs_struct (sel path)) (smgrs w) path = Raise AttributeError ->
  sel_contains (vs_struct (sel path)) (smgrs w) (IStr path) = Ok (false, false) ->
  view_class u sel bc path w = (dset n (VMgr (v_items m) (v_klasses m) (GS (join sdot below ++ ".") (g_rs (v_gs m)))) w, Ok (Some KRunner)).
Proof.
  intros u sel bc w path n below m c' Hw Hp Hn Hq Hu Hs G Hc. pose proof (real_item_section u w path n below m c' Hw Hp Hn Hq Hu Hs) as R.
  destruct (not_contained u sel bc path w Hc) as [V|(g & c & parts & L & F)].
  2:{ unfold get_type in G. rewrite L, F in G. discriminate. }
  now rewrite V, R.
Qed.
Theorem C87_class_checks_have_no_effect_refuted : exists u sel bc w path q, world_ok w /\ make_selector vc_old = Ok (sel path) /\
  loaded_of w "p" = ["kls.one"] /\ loaded_of (fst (view_isinstance u sel bc (fun _ => false) path w)) "p" = ["kls.one"; "a.b.f"] /\
  snd (real_item u w "p.a.g") <> snd (real_item u (fst (view_isinstance u sel bc (fun _ => false) q w)) "p.a.g").
Proof.
  exists vx_user, vc_old_sel, vc_below, vc_w, "p.a.b.f", "p.a". split; [exact vc_w_ok|]. split; [reflexivity|]. split; [reflexivity|]. split; [vm_compute; reflexivity|].
  vm_compute. discriminate.
Qed.

(** [pm.run(view)]: the class check comes first; then the path of the view without its manager is run. *)
Theorem C87_run_view : forall u sel bc is_list n s path m w w1 r, dget n w = Some m -> view_class u sel bc path w = (w1, r) ->
  run_given u sel bc is_list n s (GOne (GView path)) w =
  match r with
  | Raise e => (w1, Raise e)
  | Ok (Some c) => if is_list c then (w1, Raise TypeError) else on_runner n (pm_run (v_items m) u s (AStr (join sdot (tl (path_parts path))))) w1
  | Ok None => on_runner n (pm_run (v_items m) u s (AStr (join sdot (tl (path_parts path))))) w1
  end.
Proof.
  intros u sel bc is_list n s path m w w1 r Hn V. unfold run_given. rewrite Hn. cbn [convert_args]. rewrite (C87_isinstance u sel bc is_list w path w1 r V).
  destruct r as [[c|]|e]; [|reflexivity..]. destruct (is_list c); reflexivity.
Qed.
(** So it is the run of this path, whichever manager the view belongs to. *)
Theorem C87_run_view_is_run_of_path : forall u sel bc is_list n s path x below w, path_parts path = x :: below -> is_none_of u sel bc [is_list] w path ->
  run_given u sel bc is_list n s (GOne (GView path)) w = run_given u sel bc is_list n s (GOne (GStr (join sdot below))) w.
Proof.
  intros u sel bc is_list n s path x below w Hp H. destruct (dget n w) as [m|] eqn:Hn; [|unfold run_given; now rewrite Hn].
  destruct H as (c & Hc & H). rewrite (C87_run_view u sel bc is_list n s path m w w (Ok c) Hn Hc), Hp. unfold run_given. rewrite Hn. cbn [convert_args arg_str tl].
  destruct c as [k|]; [|reflexivity]. now rewrite (H is_list k (or_introl eq_refl) eq_refl).
Qed.
Theorem C87_run_runs_the_item_of_the_view_refuted : exists u sel bc is_list w, world_ok w /\ make_selector w = Ok (sel "q.a.b.f") /\
  let '(w1, r) := run_given u sel bc is_list "p" Plain (GOne (GView "q.a.b.f")) w in
  (exists v, r = Ok v) /\ calls_of w1 "q" = calls_of w "q" /\ calls_of w1 "p" = S (calls_of w "p").
Proof.
  exists vx_user, vc_sel, vc_below, vc_no, vc_w. split; [exact vc_w_ok|]. split; [reflexivity|]. vm_compute. split; [eexists; reflexivity|]. split; reflexivity.
Qed.
(** If the class check raises, [run] does, with every setting, and nothing is run. *)
Theorem C87_run_view_raises : forall u sel bc is_list n s path m w e, dget n w = Some m -> class_raises u sel bc w path e ->
  run_given u sel bc is_list n s (GOne (GView path)) w = (w, Raise e).
Proof. intros u sel bc is_list n s path m w e Hn H. exact (C87_run_view u sel bc is_list n s path m w w (Raise e) Hn H). Qed.
Theorem C87_force_continue_catches_everything_refuted : exists u sel bc is_list w e, world_ok w /\ make_selector w = Ok (sel "p.broken") /\
  snd (run_given u sel bc is_list "p" ForceContinue (GOne (GStr "broken")) w) = Ok (RList []) /\
  (forall s, run_given u sel bc is_list "p" s (GOne (GView "p.broken")) w = (w, Raise e)) /\
  snd (run_given u sel bc is_list "p" ForceContinue (GMany [GView "p.broken"]) w) = Ok (RList []).
Proof.
  exists vx_user, vc_sel, vc_below, vc_no, vc_w, (UserExn 4). split; [exact vc_w_ok|]. split; [reflexivity|]. split; [vm_compute; reflexivity|]. split.
  - intros s. apply (C87_run_view_raises _ _ _ _ _ _ _ vc_p); [reflexivity|]. unfold class_raises. vm_compute. reflexivity.
  - vm_compute. reflexivity.
Qed.
(** Lists of strings and views are run by their paths, without class checks; with anything else in the list nothing is run. *)
Theorem C87_run_list : forall u sel bc is_list n s l ss m w, dget n w = Some m -> Forall2 names_path l ss ->
  run_given u sel bc is_list n s (GMany l) w = on_runner n (pm_run (v_items m) u s (AList ss)) w.
Proof. intros u sel bc is_list n s l ss m w Hn H. unfold run_given. rewrite Hn. cbn [convert_args]. now rewrite (arg_strs_paths l ss H). Qed.
Theorem C87_run_something_else : forall u sel bc is_list n s l m w, dget n w = Some m -> In GElse l ->
  run_given u sel bc is_list n s (GMany l) w = (w, Raise ValueError) /\ run_given u sel bc is_list n s (GOne GElse) w = (w, Raise ValueError).
Proof.
  intros u sel bc is_list n s l m w Hn H. unfold run_given. rewrite Hn. cbn [convert_args arg_str]. split; [|reflexivity]. rewrite arg_strs_else; [reflexivity|exact H|].
  intros [x|p|] _; cbn [arg_str]; [right; now exists x|right; eexists; reflexivity|now left].
Qed.

(** Conversion of views to section paths: that of C01 and C02, unless the view claims to be a string or a SectionPath. *)
Theorem C87_from_ambiguous : forall u sel bc is_str is_sp path strip base w, is_none_of u sel bc [is_sp; is_str] w path ->
  view_from_ambiguous u sel bc is_str is_sp path strip base w = (w, match from_ambiguous (LView path) strip base with Ok sp => Ok (Path sp) | Raise e => Raise e end).
Proof.
  intros u sel bc is_str is_sp path strip base w H. unfold view_from_ambiguous. rewrite (isinstance_none u sel bc is_sp _ w path H) by now left.
  rewrite (isinstance_none u sel bc is_str _ w path H) by (right; now left). cbn [from_ambiguous]. destruct strip, base; reflexivity.
Qed.
Theorem C87_list_from_ambiguous : forall u sel bc is_list is_tuple is_str is_sp path strip base w, is_none_of u sel bc [is_list; is_tuple; is_sp; is_str] w path ->
  exists sp, list_from_ambiguous [LView path] base strip = Ok [sp] /\
  view_list_from_ambiguous u sel bc is_list is_tuple is_str is_sp path base strip w = (w, Ok (Path sp)).
Proof.
  intros u sel bc is_list is_tuple is_str is_sp path strip base w H. unfold view_list_from_ambiguous.
  rewrite (isinstance_any_none u sel bc [is_list; is_tuple] w path) by (apply (none_of_incl u sel bc [is_list; is_tuple; is_sp; is_str]); [intros t; cbn [In]; tauto|exact H]).
  rewrite C87_from_ambiguous by (apply (none_of_incl u sel bc [is_list; is_tuple; is_sp; is_str]); [intros t; cbn [In]; tauto|exact H]).
  cbn [list_from_ambiguous from_ambiguous]. destruct strip, base; eexists; split; reflexivity.
Qed.
Theorem C87_conversion_raises : forall u sel bc is_list is_tuple is_str is_sp path strip base w w1 e, view_class u sel bc path w = (w1, Raise e) ->
  view_from_ambiguous u sel bc is_str is_sp path strip base w = (w1, Raise e) /\
  view_list_from_ambiguous u sel bc is_list is_tuple is_str is_sp path base strip w = (w1, Raise e).
Proof.
  intros u sel bc is_list is_tuple is_str is_sp path strip base w w1 e H. unfold view_from_ambiguous, view_list_from_ambiguous. split.
  - now rewrite (isinstance_raises u sel bc is_sp w w1 path e H).
  - now rewrite (isinstance_any_raises u sel bc [is_list; is_tuple] w w1 path e ltac:(discriminate) H).
Qed.
(** A view of an object of a subclass of list or tuple cannot be given where one path or a list of paths is expected. *)
Theorem C87_view_of_a_list : forall u sel bc is_list is_tuple is_str is_sp path strip base w k, claims_class u sel bc w path (Some k) -> is_list k = true \/ is_tuple k = true ->
  view_list_from_ambiguous u sel bc is_list is_tuple is_str is_sp path base strip w = (w, Raise TypeError).
Proof.
  intros u sel bc is_list is_tuple is_str is_sp path strip base w k H K. unfold view_list_from_ambiguous. rewrite (C87_isinstance_any u sel bc _ w path (Some k) H). cbn [existsb].
  destruct K as [-> | ->]; [reflexivity|]. now destruct (is_list k).
Qed.

(** Comparison of config values: that of C09, unless a view's class cannot be found or is a frame. *)
Theorem C87_comparison : forall u sel bc is_frame is_series equals w x y, frames_apart equals w ->
  compares_as_itself u sel bc is_frame is_series w x -> compares_as_itself u sel bc is_frame is_series w y ->
  values_are_equal_v u sel bc is_frame is_series equals x y w = (w, values_are_equal x y).
Proof.
  intros u sel bc is_frame is_series equals w x y Hf Hx Hy.
  assert (V : forall p, y = VView p -> view_isinstance_any u sel bc [is_frame; is_series] p w = (w, Ok false)) by (intros p E; apply isinstance_any_none; now apply Hy).
  destruct x; cbn [values_are_equal_v];
    try (destruct y; try reflexivity; now rewrite (V _ eq_refl)).
  - rewrite (isinstance_any_none u sel bc [is_frame; is_series] w path (Hx path eq_refl)). destruct y; try reflexivity. now rewrite (V _ eq_refl).
  - destruct y; try reflexivity. rewrite Hf. reflexivity.
Qed.
Theorem C87_would_update : forall u sel bc is_frame is_series equals w vals updates, frames_apart equals w ->
  Forall (fun kv => compares_as_itself u sel bc is_frame is_series w (snd kv)) vals -> Forall (fun kv => compares_as_itself u sel bc is_frame is_series w (snd kv)) updates ->
  would_update_loop_v u sel bc is_frame is_series equals vals updates w = (w, would_update_loop vals updates).
Proof.
  intros u sel bc is_frame is_series equals w vals updates Hf Hv Hu. induction Hu as [|[k v] updates Hk Hu IH]; [reflexivity|]. cbn [would_update_loop_v would_update_loop].
  destruct (dget k vals) as [orig|] eqn:G; [|exact IH]. apply dget_Some_In in G. rewrite Forall_forall in Hv. specialize (Hv _ G). cbn [snd] in *.
  rewrite (C87_comparison u sel bc is_frame is_series equals w orig v Hf Hv Hk). destruct (values_are_equal orig v) as [[]|e]; [exact IH|reflexivity|reflexivity].
Qed.
(** If it cannot be found, the comparison raises, although comparisons that fail are caught. *)
Theorem C87_comparison_raises : forall u sel bc is_frame is_series equals w p y e, class_raises u sel bc w p e ->
  values_are_equal_v u sel bc is_frame is_series equals (VView p) y w = (w, Raise e) /\
  ((forall i c, y <> VFrame i c) -> compares_as_itself u sel bc is_frame is_series w y -> values_are_equal_v u sel bc is_frame is_series equals y (VView p) w = (w, Raise e)).
Proof.
  intros u sel bc is_frame is_series equals w p y e H.
  assert (R := isinstance_any_raises u sel bc [is_frame; is_series] w w p e ltac:(discriminate) H). split; [cbn [values_are_equal_v]; now rewrite R|].
  intros Hy Hc. destruct y; cbn [values_are_equal_v]; try (now rewrite R); [|now destruct (Hy id content)].
  rewrite (isinstance_any_none u sel bc [is_frame; is_series] w path (Hc path eq_refl)). now rewrite R.
Qed.
(** A view of a frame differs from everything that is no frame; compared with anything else than itself pandas decides. *)
Theorem C87_view_of_a_frame : forall u sel bc is_frame is_series equals w p k x, claims_class u sel bc w p (Some k) -> is_frame k = true \/ is_series k = true ->
  (forall q, x <> VView q) -> (forall i c, x <> VFrame i c) -> values_are_equal_v u sel bc is_frame is_series equals x (VView p) w = (w, Ok false).
Proof.
  intros u sel bc is_frame is_series equals w p k x H K Hv Hf.
  assert (R : view_isinstance_any u sel bc [is_frame; is_series] p w = (w, Ok true)).
  { rewrite (C87_isinstance_any u sel bc _ w p (Some k) H). cbn [existsb]. destruct K as [-> | ->]; [reflexivity|]. now destruct (is_frame k). }
  destruct x; cbn [values_are_equal_v]; try (now rewrite R); [now destruct (Hv path)|now destruct (Hf id content)].
Qed.

(** [pm.update] with views as values: for each a dependency is recorded, in the order of the keyword arguments and then of [d_]; then the
    update is made as usual. *)
Theorem C87_update : forall u sel bc is_str is_sp n d path persist kwargs w m, dget n w = Some m -> path <> "" ->
  let vals := map snd (dupdate kwargs (opt_dict d)) in
  (forall p, In (VView p) vals -> is_none_of u sel bc [is_sp; is_str] w p) ->
  update_given u sel bc is_str is_sp n d path persist kwargs w =
  (fst (on_runner n (runner_update u d (Some path) persist kwargs) w), map (fun p => ((n ++ "." ++ path)%string, Path (mk_sp p))) (views_of vals),
   snd (on_runner n (runner_update u d (Some path) persist kwargs) w)).
Proof.
  intros u sel bc is_str is_sp n d path persist kwargs w m Hn Hp vals H. unfold update_given. rewrite Hn. apply String.eqb_neq in Hp. rewrite Hp. fold vals.
  rewrite (record_views_none u sel bc is_sp is_str _ vals w H). now destruct (on_runner n (runner_update u d (Some path) persist kwargs) w).
Qed.
(** If the class of one of them cannot be found, the update raises; nothing is changed, but the dependencies on the views before it are
    recorded. *)
Theorem C87_update_raises : forall u sel bc is_str is_sp n d path persist kwargs w m before p after e, dget n w = Some m -> path <> "" ->
  map snd (dupdate kwargs (opt_dict d)) = before ++ VView p :: after ->
  (forall q, In (VView q) before -> is_none_of u sel bc [is_sp; is_str] w q) -> class_raises u sel bc w p e ->
  update_given u sel bc is_str is_sp n d path persist kwargs w = (w, map (fun q => ((n ++ "." ++ path)%string, Path (mk_sp q))) (views_of before), Raise e).
Proof.
  intros u sel bc is_str is_sp n d path persist kwargs w m before p after e Hn Hp E H C. unfold update_given. rewrite Hn. apply String.eqb_neq in Hp. rewrite Hp, E.
  now rewrite (record_views_raises u sel bc is_sp is_str _ before p after w e H C).
Qed.
(** Without a path nothing is recorded or checked. *)
Theorem C87_update_without_path : forall u sel bc is_str is_sp n d persist kwargs w m, dget n w = Some m ->
  update_given u sel bc is_str is_sp n d "" persist kwargs w =
  (fst (on_runner n (runner_update u d (Some "") persist kwargs) w), [], snd (on_runner n (runner_update u d (Some "") persist kwargs) w)).
Proof. intros u sel bc is_str is_sp n d persist kwargs w m Hn. unfold update_given. rewrite Hn. cbn [String.eqb]. now destruct (on_runner n (runner_update u d (Some "") persist kwargs) w). Qed.
(** A view is not looked up only when it is used: storing one in a config already imports the module of its item. *)
Theorem C87_views_are_only_looked_up_when_used_refuted : exists u sel bc is_str is_sp w, world_ok w /\ make_selector w = Ok (sel "p.broken") /\
  update_given u sel bc is_str is_sp "p" None "a.b.f" true [("k", VView "p.a.g"); ("own", VView "p.broken")] w =
    (w, [("p.a.b.f", Path (mk_sp "p.a.g"))], Raise (UserExn 4)).
Proof. exists vx_user, vc_sel, vc_below, vc_no, vc_no, vc_w. split; [exact vc_w_ok|]. split; [reflexivity|]. vm_compute. reflexivity. Qed.

(** The hypotheses can be met. *)
Example C87_example : item_of vc_p ["a"; "b"; "f"] (TFunc Runner_Example.ex_f) /\ item_of vc_p ["broken"] (TBroken (UserExn 4)) /\
  is_none_of vx_user vc_sel vc_below [vc_no] vc_w "q.a.b.f" /\ class_raises vx_user vc_sel vc_below vc_w "p.broken" (UserExn 4) /\
  claims_class vx_user vc_sel vc_below vc_w "p.kls.one" (Some (KClass vx_k)) /\ claims_class vx_user vc_sel vc_below vc_w "p.kls" None.
Proof.
  assert (L : forall c x e, ~ In x coll_reserved -> (exists l1 l2, coll_entries c = l1 ++ e :: l2 /\ entry_name e = x /\ forall e', In e' l2 -> entry_name e' <> x) -> leads c [x] e) by (intros; now apply leads_here).
  split; [|split; [|split; [|split; [|split]]]].
  - exists true, (i_general vc_items), ["a"; "b"; "f"], "f". split; [now apply (in_general _ vc_items); [reflexivity|cbn; intuition discriminate]|]. split; [|cbn; intuition discriminate].
    apply (leads_below _ "a" (Coll "a" [EColl (Coll "b" [EItem "f" (TFunc Runner_Example.ex_f)]); EItem "g" (TFunc Runner_Example.ex_g)])); [cbn; intuition discriminate| |].
    { exists [EItem "broken" (TBroken (UserExn 4))]. eexists. split; [reflexivity|]. split; [reflexivity|]. intros e' [<-|[<-|[]]]; discriminate. }
    apply (leads_below _ "b" (Coll "b" [EItem "f" (TFunc Runner_Example.ex_f)])); [cbn; intuition discriminate| |].
    { exists []. eexists. split; [reflexivity|]. split; [reflexivity|]. intros e' [<-|[]]; discriminate. }
    apply L; [cbn; intuition discriminate|]. exists [], []. split; [reflexivity|]. split; [reflexivity|]. intros e' [].
  - exists true, (i_general vc_items), ["broken"], "broken". split; [now apply (in_general _ vc_items); [reflexivity|cbn; intuition discriminate]|]. split; [|cbn; intuition discriminate].
    apply L; [cbn; intuition discriminate|]. exists []. eexists. split; [reflexivity|]. split; [reflexivity|]. intros e' [<-|[<-|[<-|[]]]]; discriminate.
  - exists (Some KFunction). split; [vm_compute; reflexivity|]. intros t k [<-|[]] _. reflexivity.
  - vm_compute. reflexivity.
  - vm_compute. reflexivity.
  - vm_compute. reflexivity.
Qed.
(** and those of C87_old_selector *)
Example C87_old_selector_example : get_type (vs_struct (vc_old_sel "p.a.b.f")) (smgrs vc_w) "p.a.b.f" = Raise AttributeError /\
  sel_contains (vs_struct (vc_old_sel "p.a.b.f")) (smgrs vc_w) (IStr "p.a.b.f") = Ok (false, false) /\ quiet vc_p /\ usable ["a"; "b"; "f"].
Proof.
  split; [reflexivity|]. split; [reflexivity|]. split; [reflexivity|]. repeat constructor; try discriminate; cbn; intuition discriminate.
Qed.

Print Assumptions C87_class_of_item.
Print Assumptions C87_class_of_section.
Print Assumptions C87_class_without_manager.
Print Assumptions C87_isinstance.
Print Assumptions C87_isinstance_any.
Print Assumptions C87_old_selector.
Print Assumptions C87_old_selector_section.
Print Assumptions C87_class_checks_have_no_effect_refuted.
Print Assumptions C87_run_view.
Print Assumptions C87_run_view_is_run_of_path.
Print Assumptions C87_run_runs_the_item_of_the_view_refuted.
Print Assumptions C87_run_view_raises.
Print Assumptions C87_force_continue_catches_everything_refuted.
Print Assumptions C87_run_list.
Print Assumptions C87_run_something_else.
Print Assumptions C87_from_ambiguous.
Print Assumptions C87_list_from_ambiguous.
Print Assumptions C87_conversion_raises.
Print Assumptions C87_view_of_a_list.
Print Assumptions C87_comparison.
Print Assumptions C87_would_update.
Print Assumptions C87_comparison_raises.
Print Assumptions C87_view_of_a_frame.
Print Assumptions C87_update.
Print Assumptions C87_update_raises.
Print Assumptions C87_update_without_path.
Print Assumptions C87_views_are_only_looked_up_when_used_refuted.
