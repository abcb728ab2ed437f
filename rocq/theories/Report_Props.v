(** C69: what the log of a run does to the run. *)
From Verif Require Import GetAttr_Proofs Runner_Model View_Model View_Spec View_Proofs View_Props Selector_Proofs Selector_Props Report_Model Report_Spec Report_Proofs Runner_Spec ConfigTree_Spec Run_Proofs Run_Spec.
Local Open Scope string_scope.
Local Open Scope list_scope.

(** A function with a config always gets as far as its call, and nothing has been called before. *)
Theorem C69_ready : forall its s path f, cms_wf (r_cms s) -> own_values (r_cms s) (path_parts path) <> None -> is_func its path f ->
  exists d s2 o, ready its path s d s2 o /\ dget path (r_loaded s2) = Some o /\ r_calls s2 = r_calls s.
Proof.
  intros its s path f W Ho Hf. destruct (ready_func its s path f W Ho Hf) as (d & s2 & o & R & L). exists d, s2, o. split; [exact R|]. split; [exact L|]. now apply ready_calls in R.
Qed.

(** Values that are no views and can be printed: the run is the one without log (Runner_Model), and the log has one line for each
    value, and the result. *)
Theorem C69_plain_run : forall u ua sel txt n m w path d s2 o lines, dget n w = Some m -> ready (v_items m) path (g_rs (v_gs m)) d s2 o -> prints_all txt d lines ->
  run_one_func (v_items m) u path (g_rs (v_gs m)) = (after_call s2 path o, match u_call u (r_calls s2) path o with Ok v => Ok (RVal v) | Raise e => Raise e end) /\
  reported_run_func u ua sel txt n path w =
  match u_call u (r_calls s2) path o with
  | Raise e => (with_rs n m (after_call s2 path o) w, [running_line path lines], Raise e)
  | Ok v => match txt v with
            | Ok t => (with_rs n m (after_call s2 path o) w, [running_line path lines; result_line t], Ok (RVal v))
            | Raise e => (with_rs n m (after_call s2 path o) w, [running_line path lines], Raise e)
            end
  end.
Proof.
  intros u ua sel txt n m w path d s2 o lines Hn R P. split.
  - destruct R as (s1 & f & b & H1 & H2). rewrite (run_one_func_split _ u _ _ _ _ _ _ H1). unfold bind. rewrite H2. reflexivity.
  - rewrite (reported_ready u ua sel txt n m w path d s2 o _ _ Hn R (kwarg_str_prints u ua sel txt d lines _ P)). cbv zeta. unfold call_object.
    erewrite on_runner_eq by (try apply dget_with_rs; reflexivity). rewrite with_rs_with_rs. cbn [v_gs g_rs].
    assert (L : ("Running function " ++ path ++ "(" ++ (nl ++ tab ++ join ("," ++ nl ++ tab) lines ++ nl) ++ ")")%string = running_line path lines) by (unfold running_line; now rewrite !str_assoc).
    rewrite L. destruct (u_call u (r_calls s2) path o) as [v|e]; [|reflexivity]. destruct (txt v); reflexivity.
Qed.
(** A function that has done its work: the run still fails, and the result is lost, if the result cannot be printed. *)
Theorem C69_result_returned_refuted : exists u ua sel txt w w' log e, (forall calls path o, u_call u calls path o = Ok (VObj 3)) /\
  reported_run_func u ua sel txt "p" "a.b.f" w = (w', log, Raise e) /\ exists m, dget "p" w' = Some m /\ length (r_calls (g_rs (v_gs m))) = 1.
Proof. exists (rx_obj 3), vx_ua, vx_sel, rx_txt, (rx_w (VInt 3)). eexists _, _, _. split; [reflexivity|]. split; [vm_compute; reflexivity|]. eexists. split; reflexivity. Qed.

(** A value that cannot be printed: the function is loaded but not called. *)
Theorem C69_value_not_printable : forall u ua sel txt n m w path d1 lines k v d2 s2 o e, dget n w = Some m -> ready (v_items m) path (g_rs (v_gs m)) (d1 ++ (k, v) :: d2) s2 o ->
  prints_all txt d1 lines -> (forall w', value_text u ua sel txt v w' = (w', Raise e)) ->
  reported_run_func u ua sel txt n path w = (with_rs n m s2 w, [], Raise e) /\ r_calls s2 = r_calls (g_rs (v_gs m)).
Proof.
  intros u ua sel txt n m w path d1 lines k v d2 s2 o e Hn R P Hv. split; [|now apply ready_calls in R].
  apply (reported_ready u ua sel txt n m w path _ s2 o _ (Raise e) Hn R). unfold kwarg_str. now rewrite (kwarg_lines_fails u ua sel txt d1 lines k v d2 _ _ e P (Hv _)).
Qed.
Theorem C69_unprintable_values : forall u ua sel txt v e, txt v = Raise e -> (forall p, v <> VView p) -> (forall x, v <> VFunc x) -> (forall x, v <> VStr x) ->
  forall w, value_text u ua sel txt v w = (w, Raise e).
Proof. intros u ua sel txt v e Ht H1 H2 H3 w. destruct v; try (now specialize (H1 path)); try (now specialize (H2 name)); try (now specialize (H3 s)); cbn [value_text]; now rewrite Ht. Qed.

(** Reading an attribute through the view of an item reads it from the object that [pm.get] gives, which is loaded for that; an
    exception on the way may be replaced. *)
Theorem C65_read_of_item : forall u ua sel w path n below m t x r o,
  world_ok w -> make_selector w = Ok sel -> path_parts path = n :: below -> dget n w = Some m -> quiet m -> usable below -> item_of m below t ->
  (forall e, t <> TBroken e) -> accessible x -> runner_get (v_items m) u (join sdot below) (g_rs (v_gs m)) = (r, o) ->
  exists read, view_getattr u ua sel path x w = (dset n (VMgr (v_items m) (v_klasses m) (GS "" r)) w, read) /\
    match o with
    | Ok (GObj ob) => (ua ob x = UMissing /\ read = Raise AttributeError) \/ (ua ob x <> UMissing /\ read = Ok (RAttr ob x))
    | Ok _ => read = Ok ROther
    | Raise e => exists e', read_error e e' /\ read = Raise e'
    end.
Proof.
  intros u ua sel w path n below m t x r o Hw Hs Hp Hn Hq Hu Hi Ht Ha G.
  rewrite (view_getattr_item u ua w sel path n below m t x Hw Hs Hp Hn Hq Hu Hi Ht Ha). unfold after_get. rewrite G. cbn [fst snd].
  eexists. split; [reflexivity|]. destruct o as [[ob|gl|gd]|e]; [|reflexivity|reflexivity|exists (lookup_error e); split; [apply lookup_error_spec|reflexivity]].
  destruct (ua ob x); [left|right|right|right]; split; congruence.
Qed.
(** Refuted: an exception raised when an item is loaded is what the reader of an attribute gets. *)
Theorem C65_read_raises_what_was_raised_refuted : exists u ua sel w path x e, world_ok w /\ make_selector w = Ok sel /\
  snd (real_item u w path) = Raise e /\ snd (view_getattr u ua sel path x w) <> Raise e.
Proof.
  exists (User (fun _ _ _ => Raise RecursionError) (fun _ _ => Some RecursionError) (fun _ => []) []), vx_ua, vx_sel, vx_w, "p.x.y", "attr".
  eexists. split; [exact vx_w_ok|]. split; [reflexivity|]. split; [vm_compute; reflexivity|]. vm_compute. discriminate.
Qed.

(** A value that is the view of an item: the item is loaded for the log; if that fails, other than with AttributeError, the run
    fails without calling the function. *)
Theorem C69_view_of_item : forall u ua sel txt n m w path d1 l1 k p d2 l2 s2 o n' below m' t, world_ok w -> make_selector w = Ok sel ->
  dget n w = Some m -> ready (v_items m) path (g_rs (v_gs m)) (d1 ++ (k, VView p) :: d2) s2 o -> prints_all txt d1 l1 -> prints_all txt d2 l2 ->
  path_parts p = n' :: below -> dget n' (with_rs n m s2 w) = Some m' -> quiet m' -> usable below -> item_of m' below t -> (forall e, t <> TBroken e) ->
  (forall ob, ua ob "_is_selector" = UMissing) ->
  let w3 := dset n' (after_get u m' (join sdot below)) (with_rs n m s2 w) in
  (forall e, snd (runner_get (v_items m') u (join sdot below) (g_rs (v_gs m'))) = Raise e -> e <> AttributeError -> exists e', read_error e e' /\ reported_run_func u ua sel txt n path w = (w3, [], Raise e')) /\
  (forall x, snd (runner_get (v_items m') u (join sdot below) (g_rs (v_gs m'))) = Ok (GObj x) ->
     exists m3, dget n w3 = Some m3 /\ reported_run_func u ua sel txt n path w =
     match u_call u (r_calls (g_rs (v_gs m3))) path o with
     | Raise e => (with_rs n m3 (after_call (g_rs (v_gs m3)) path o) w3, [running_line path (l1 ++ (k ++ " = s." ++ p)%string :: l2)], Raise e)
     | Ok v => match txt v with
               | Ok t => (with_rs n m3 (after_call (g_rs (v_gs m3)) path o) w3, [running_line path (l1 ++ (k ++ " = s." ++ p)%string :: l2); result_line t], Ok (RVal v))
               | Raise e => (with_rs n m3 (after_call (g_rs (v_gs m3)) path o) w3, [running_line path (l1 ++ (k ++ " = s." ++ p)%string :: l2)], Raise e)
               end
     end).
Proof.
  intros u ua sel txt n m w path d1 l1 k p d2 l2 s2 o n' below m' t Hw Hs Hn R P1 P2 Hp Hn' Hq Hu Hi Ht Hua w3.
  assert (Hw2 : world_ok (with_rs n m s2 w)) by (apply (world_ok_set w n m); auto).
  assert (Hs2 : make_selector (with_rs n m s2 w) = Ok sel) by (now rewrite make_selector_set).
  pose proof (view_getattr_item u ua (with_rs n m s2 w) sel p n' below m' t "_is_selector" Hw2 Hs2 Hp Hn' Hq Hu Hi Ht (conj eq_refl eq_refl)) as V. fold w3 in V. split.
  - intros e He Ne. rewrite He in V. exists (lookup_error e). split; [apply lookup_error_spec|].
    assert (Ne' : lookup_error e <> AttributeError) by (destruct (lookup_error_spec e) as [[_ ->]|(_ & _ & ->)]; [discriminate|exact Ne]).
    assert (T : value_text u ua sel txt (VView p) (with_rs n m s2 w) = (w3, Raise (lookup_error e))) by (cbn [value_text]; rewrite V; destruct (lookup_error e); try reflexivity; congruence).
    apply (reported_ready u ua sel txt n m w path _ s2 o _ (Raise (lookup_error e)) Hn R). unfold kwarg_str. now rewrite (kwarg_lines_fails u ua sel txt d1 l1 k (VView p) d2 _ _ _ P1 T).
  - intros x Hx. rewrite Hx, Hua in V.
    assert (T : value_text u ua sel txt (VView p) (with_rs n m s2 w) = (w3, Ok ("s." ++ p)%string)) by (cbn [value_text]; now rewrite V).
    assert (exists m3, dget n w3 = Some m3) as (m3 & Hm3).
    { unfold w3. destruct (String.eqb n n') eqn:E; [apply String.eqb_eq in E; subst n'; rewrite dget_dset_eq; eauto|]. apply String.eqb_neq in E. rewrite dget_dset_neq by congruence. rewrite dget_with_rs. eauto. }
    exists m3. split; [exact Hm3|].
    rewrite (reported_ready u ua sel txt n m w path _ s2 o w3 (Ok (nl ++ tab ++ join ("," ++ nl ++ tab) (l1 ++ (k ++ " = s." ++ p)%string :: l2) ++ nl)%string) Hn R).
    + cbv zeta. unfold call_object. erewrite on_runner_eq by (try exact Hm3; reflexivity).
      assert (L : ("Running function " ++ path ++ "(" ++ (nl ++ tab ++ join ("," ++ nl ++ tab) (l1 ++ (k ++ " = s." ++ p)%string :: l2) ++ nl) ++ ")")%string = running_line path (l1 ++ (k ++ " = s." ++ p)%string :: l2)) by (unfold running_line; now rewrite !str_assoc).
      rewrite L. destruct (u_call u (r_calls (g_rs (v_gs m3))) path o) as [v|e]; [|reflexivity]. destruct (txt v); reflexivity.
    + unfold kwarg_str. now rewrite (kwarg_lines_view u ua sel txt d1 l1 k (VView p) d2 l2 _ _ _ P1 P2 T).
Qed.
Theorem C69_log_is_pure_refuted : exists u ua sel txt w w' log r m m', world_ok w /\ make_selector w = Ok sel /\ reported_run_func u ua sel txt "p" "a.b.f" w = (w', log, Ok r) /\
  dget "p" w = Some m /\ dget "p" w' = Some m' /\ dget "x.y" (r_loaded (fst (run_one_func (v_items m) u "a.b.f" (g_rs (v_gs m))))) = None /\ dget "x.y" (r_loaded (g_rs (v_gs m'))) <> None.
Proof.
  exists vx_user, vx_ua, vx_sel, rx_txt, (rx_w (VView "p.x.y")). eexists _, _, _, _, _. split; [apply (world_ok_set vx_w "p" vx_p); [exact vx_w_ok|reflexivity|reflexivity]|]. split; [reflexivity|]. split; [vm_compute; reflexivity|].
  split; [reflexivity|]. split; [reflexivity|]. split; [vm_compute; reflexivity|vm_compute; discriminate].
Qed.
Theorem C69_log_cannot_fail_refuted : exists u ua sel txt w w' e m r, world_ok w /\ make_selector w = Ok sel /\ (forall v e', txt v <> Raise e') /\
  reported_run_func u ua sel txt "p" "a.b.f" w = (w', [], Raise e) /\ dget "p" w = Some m /\ snd (run_one_func (v_items m) u "a.b.f" (g_rs (v_gs m))) = Ok r.
Proof.
  exists rx_user, vx_ua, vx_sel, (fun _ => Ok "text"), (rx_w (VView "p.x.y")). eexists _, _, _, _. split; [apply (world_ok_set vx_w "p" vx_p); [exact vx_w_ok|reflexivity|reflexivity]|]. split; [reflexivity|]. split; [discriminate|]. split; [vm_compute; reflexivity|]. split; [reflexivity|vm_compute; reflexivity].
Qed.

(** If the item has an attribute [_is_selector], the log does not show the view. *)
Theorem C69_log_shows_the_view_refuted : exists u ua sel w w' log, world_ok w /\ make_selector w = Ok sel /\
  reported_run_func u ua sel rx_txt "p" "a.b.f" w = (w', log, Ok (RVal (VInt 0))) /\
  nth_error log 0 = Some (running_line "a.b.f" ["k = 1"; "own = Selector()"; "z = 1"]).
Proof.
  exists vx_user, (fun _ _ => UValue), vx_sel, (rx_w (VView "p.x.y")). eexists _, _. split; [apply (world_ok_set vx_w "p" vx_p); [exact vx_w_ok|reflexivity|reflexivity]|].
  split; [reflexivity|]. split; [vm_compute; reflexivity|vm_compute; reflexivity].
Qed.

(** A value that is the view of a section: the run is as without log, but it leaves the path [section._is_selector] in the manager of
    the section, after which no view of this manager reaches its item (C67). *)
Theorem C69_view_of_section : forall u sub ua sel txt n m w path d1 l1 k p d2 l2 s2 o n' secs m' c, world_ok w -> make_selector w = Ok sel ->
  dget n w = Some m -> ready (v_items m) path (g_rs (v_gs m)) (d1 ++ (k, VView p) :: d2) s2 o -> prints_all txt d1 l1 -> prints_all txt d2 l2 ->
  path_parts p = n' :: secs -> dget n' (with_rs n m s2 w) = Some m' -> quiet m' -> usable secs -> section_of m' secs c -> (forall z, In z (names_in c) -> startswith z "_is_selector" = false) ->
  exists w', fst (fst (reported_run_func u ua sel txt n path w)) = w' /\
  snd (reported_run_func u ua sel txt n path w) = match u_call u (r_calls s2) path o with Raise e => Raise e | Ok v => match txt v with Ok _ => Ok (RVal v) | Raise e => Raise e end end /\
  (exists m3, dget n w' = Some m3 /\ g_rs (v_gs m3) = after_call s2 path o) /\
  forall ops, Forall2 (fun op r => on_manager n' op -> reaches_nothing op r) ops (snd (vops_run u sub ua sel ops w')).
Proof.
  intros u sub ua sel txt n m w path d1 l1 k p d2 l2 s2 o n' secs m' c Hw Hs Hn R P1 P2 Hp Hn' Hq Hu Hsec Hz.
  assert (Hw2 : world_ok (with_rs n m s2 w)) by (apply (world_ok_set w n m); auto).
  assert (Hs2 : make_selector (with_rs n m s2 w) = Ok sel) by (now rewrite make_selector_set).
  assert (Pl : plain_name "_is_selector") by (split; apply not_listed; reflexivity).
  destruct (C67_wrong_name u ua (with_rs n m s2 w) sel p n' secs m' c "_is_selector" Hw2 Hs2 Hp Hn' Hq Hu Hsec (conj eq_refl eq_refl) Pl ltac:(discriminate) Hz) as [V D].
  set (m2 := VMgr (v_items m') (v_klasses m') (GS (join sdot (secs ++ ["_is_selector"])) (g_rs (v_gs m')))) in V. set (w3 := dset n' m2 (with_rs n m s2 w)) in V.
  assert (T : value_text u ua sel txt (VView p) (with_rs n m s2 w) = (w3, Ok ("s." ++ p)%string)) by (cbn [value_text]; now rewrite V).
  assert (exists m3, dget n w3 = Some m3 /\ g_rs (v_gs m3) = s2 /\ (n = n' -> m3 = m2)) as (m3 & Hm3 & Hr3 & He3).
  { unfold w3. destruct (String.eqb n n') eqn:E.
    - apply String.eqb_eq in E; subst n'. rewrite dget_dset_eq. exists m2. split; [reflexivity|]. split; [|reflexivity]. cbn. rewrite dget_with_rs in Hn'. injection Hn' as <-. reflexivity.
    - apply String.eqb_neq in E. rewrite dget_dset_neq by congruence. rewrite dget_with_rs. eexists. split; [reflexivity|]. split; [reflexivity|congruence]. }
  assert (E : exists log, reported_run_func u ua sel txt n path w = (with_rs n m3 (after_call s2 path o) w3, log, match u_call u (r_calls s2) path o with Raise e => Raise e | Ok v => match txt v with Ok _ => Ok (RVal v) | Raise e => Raise e end end)).
  { rewrite (reported_ready u ua sel txt n m w path _ s2 o w3 (Ok (nl ++ tab ++ join ("," ++ nl ++ tab) (l1 ++ (k ++ " = s." ++ p)%string :: l2) ++ nl)%string) Hn R).
    - cbv zeta. unfold call_object. erewrite on_runner_eq by (try exact Hm3; reflexivity). rewrite Hr3. destruct (u_call u (r_calls s2) path o) as [v|e]; [|eexists; reflexivity]. destruct (txt v); eexists; reflexivity.
    - unfold kwarg_str. now rewrite (kwarg_lines_view u ua sel txt d1 l1 k (VView p) d2 l2 _ _ _ P1 P2 T). }
  destruct E as (log & E). rewrite E. exists (with_rs n m3 (after_call s2 path o) w3). split; [reflexivity|]. split; [reflexivity|]. split; [rewrite dget_with_rs; eexists; split; reflexivity|].
  intros ops. assert (exists m4, dget n' (with_rs n m3 (after_call s2 path o) w3) = Some m4 /\ v_items m4 = v_items m' /\ g_full (v_gs m4) = join sdot (secs ++ ["_is_selector"])) as (m4 & H4 & I4 & F4).
  { destruct (String.eqb n n') eqn:E'.
    - apply String.eqb_eq in E'; subst n'. rewrite dget_with_rs. eexists. split; [reflexivity|]. rewrite (He3 eq_refl). split; reflexivity.
    - apply String.eqb_neq in E'. unfold with_rs at 1. rewrite dget_dset_neq by congruence. unfold w3. rewrite dget_dset_eq. eexists. split; [reflexivity|]. split; reflexivity. }
  apply (C67_nothing_works_afterwards u sub ua sel n' m4 _ ops H4). now rewrite I4, F4.
Qed.
Theorem C69_run_keeps_views_usable_refuted : exists u sub ua sel txt w w' log r o, world_ok w /\ make_selector w = Ok sel /\
  snd (vops_run u sub ua sel [OpCall "p.x.y" [] []] w) = [Called o] /\
  reported_run_func u ua sel txt "p" "a.b.f" w = (w', log, Ok r) /\ snd (vops_run u sub ua sel [OpCall "p.x.y" [] []] w') = [Failed AttributeError].
Proof.
  exists vx_user, vx_sub, vx_ua, vx_sel, rx_txt, (rx_w (VView "p.x")). eexists _, _, _, _. split; [apply (world_ok_set vx_w "p" vx_p); [exact vx_w_ok|reflexivity|reflexivity]|]. split; [reflexivity|]. split; [vm_compute; reflexivity|]. split; [vm_compute; reflexivity|]. vm_compute. reflexivity.
Qed.

(** The text of a string is a literal for it exactly if the string has no unescaped quotes and line ends and does not end inside an escape. *)
Theorem C69_string_literal : forall s, (forall rest, read_raw false (s ++ String "'" rest) = Some (s, rest)) <-> raw_body s.
Proof. intros s. split; [intros H; exact (read_raw_body_n _ s (le_n _) "" (H ""))|intros H rest; now apply raw_body_read]. Qed.
Theorem C69_text_is_code_refuted : exists s, forall rest, read_raw false (s ++ String "'" rest) <> Some (s, rest).
Proof. exists "it's". intros rest. cbn. discriminate. Qed.

Example C69_example : exists w', reported_run_func vx_user vx_ua vx_sel rx_txt "p" "a.b.f" (rx_w (VStr "it")) =
  (w', [running_line "a.b.f" ["k = 1"; "own = r'it'"; "z = 1"]; result_line "1"], Ok (RVal (VInt 0))).
Proof. eexists. vm_compute. reflexivity. Qed.
Example C69_literal_example : raw_body "a\'b" /\ ~ raw_body "a\" /\ forall z, In z (names_in (Coll "x" [EItem "y" (TClass Runner_Example.ex_k)])) -> startswith z "_is_selector" = false.
Proof.
  split; [repeat constructor; discriminate|]. split.
  - intros H. apply (proj2 (C69_string_literal "a\")) with (rest := "") in H. discriminate.
  - apply (proj1 (Forall_forall (fun z => startswith z "_is_selector" = false) _)). vm_compute. repeat constructor.
Qed.

Print Assumptions C65_read_of_item.
Print Assumptions C65_read_raises_what_was_raised_refuted.
Print Assumptions C69_ready.
Print Assumptions C69_plain_run.
Print Assumptions C69_result_returned_refuted.
Print Assumptions C69_value_not_printable.
Print Assumptions C69_unprintable_values.
Print Assumptions C69_view_of_item.
Print Assumptions C69_log_is_pure_refuted.
Print Assumptions C69_log_cannot_fail_refuted.
Print Assumptions C69_view_of_section.
Print Assumptions C69_run_keeps_views_usable_refuted.
Print Assumptions C69_string_literal.
Print Assumptions C69_text_is_code_refuted.
Print Assumptions C69_log_shows_the_view_refuted.
