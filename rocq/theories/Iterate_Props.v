(** C28, C29 and C30: iterative runs. *)
From Verif Require Import Iterate_Model ConfigTree_Spec Runner_Spec Iterate_Spec Product_Proofs Iterate_Proofs IterateRun_Proofs IterateCase_Proofs Batch_Proofs ConfigTree_Example Iterate_Example SectionPath_Proofs.
From Coq Require Import Sorted Lia.
Local Open Scope string_scope.
Local Open Scope list_scope.

(* ------------------------------------------------------------------ *)
(** * C28 *)

(** The cases are, in this order and each once, all ways to choose one of the given updates for each section path:
    the positions chosen are strictly increasing lexicographically (the last path varies fastest) and every choice occurs. *)
Theorem C28_full_product : forall updates, exists positions,
  Forall2 (fun i c => selects i (choices updates) c) positions (get_cases [] (fun l => l) updates) /\
  StronglySorted lex_before positions /\
  forall i c, selects i (choices updates) c -> In i positions.
Proof.
  intro updates. exists (index_product (map (@length conf) (choices updates))).
  assert (E : get_cases [] (fun l => l) updates = product (choices updates)).
  { unfold get_cases. cbn [app concat]. rewrite app_nil_r. apply product_choices. }
  rewrite E. split; [apply product_selects|]. split; [apply index_sorted|]. intros i c. apply index_complete.
Qed.

(** Their number is the product of the numbers of updates per path. *)
Theorem C28_number_of_cases : forall updates,
  length (get_cases [] (fun l => l) updates) = fold_right Nat.mul 1 (map (@length conf) (choices updates)).
Proof. intro updates. unfold get_cases. cbn [app concat]. rewrite app_nil_r, product_choices. apply product_length. Qed.

(** Every case has one update for each section path, in order of first appearance, and it is one of those given. *)
Theorem C28_case_contents : forall updates c, In c (get_cases [] (fun l => l) updates) ->
  map fst c = first_seen (map fst updates) /\ forall q, In q c -> In q updates.
Proof.
  intros updates c. unfold get_cases. cbn [app concat]. rewrite app_nil_r. intro H. split; [now apply case_paths|].
  intros q. now apply case_entries.
Qed.

(** Without updates there is one empty case. *)
Theorem C28_no_updates : get_cases [] (fun l => l) [] = [[]].
Proof. reflexivity. Qed.

(** Cases that plugins contribute come before these, and the plugins' modification is applied to all of them. *)
Theorem C28_plugin_cases_come_first : forall contributed modify updates,
  get_cases contributed modify updates = modify (concat contributed ++ get_cases [] (fun l => l) updates).
Proof. intros contributed modify updates. unfold get_cases. now rewrite concat_app. Qed.

(** The iteration works on exactly these cases. *)
Theorem C28_iteration_uses_them : forall U paths updates base strip w w' it,
  iter_new U [] (fun l => l) paths updates base strip w = (w', Ok it) -> it_cases it = get_cases [] (fun l => l) updates.
Proof.
  intros U paths updates base strip w w' it H. destruct (new_fields _ _ _ _ _ _ _ _ H) as (_ & _ & -> & _).
  unfold get_cases. cbn [app concat]. now rewrite app_nil_r.
Qed.

Example C28_nonvacuous : map (map (fun c => (fst c, dvals (b_vals (snd c))))) (get_cases [] (fun l => l) ex_updates) =
  [[("m.f", [VInt 10]); ("n.x", [VInt 1]); ("m.sec.h", [VInt 8])];
   [("m.f", [VInt 10]); ("n.x", [VInt 2]); ("m.sec.h", [VInt 8])];
   [("m.f", [VInt 20; VInt 5]); ("n.x", [VInt 1]); ("m.sec.h", [VInt 8])];
   [("m.f", [VInt 20; VInt 5]); ("n.x", [VInt 2]); ("m.sec.h", [VInt 8])]].
Proof. reflexivity. Qed.

(* ------------------------------------------------------------------ *)
(** * C29 *)

(** Whatever cases have been executed before, after the update for a case every config mentioned holds, for each of its
    keys, this case's value, or the default if the case does not set the key. [pre] are the cases before; equality of values
    is Python's. *)
Theorem C29_case_values : forall U should_run w0 w1 it updates paths base strip pre c s1 results s2 filled,
  iter_new U [] (fun l => l) paths updates base strip w0 = (w1, Ok it) ->
  isolated w0 it updates -> loaded_in_step w0 it updates ->
  incl pre (it_cases it) -> In c (it_cases it) ->
  run_cases U should_run it pre (IS w1 None) = (s1, Ok results) ->
  fill_case it c = Ok filled -> update_for_case U it filled s1 = (s2, Ok tt) ->
  forall p b d k e, In (p, b) c -> dget (full_path base p) (it_defaults it) = Some d -> case_value d b k = Some e ->
    exists cfg v, config_at (is_world s2) (full_path base p) = Some cfg /\ dget k (c_vals cfg) = Some v /\ same_value v e.
Proof. exact case_values. Qed.

(** Every function called during a case gets, for every argument that is a key of its config, this case's value or else the
    default; also if the case fails halfway. *)
Theorem C29_calls_get_case_values : forall U should_run w0 w1 it updates paths base strip pre c s1 results s2 o,
  iter_new U [] (fun l => l) paths updates base strip w0 = (w1, Ok it) ->
  isolated w0 it updates -> loaded_in_step w0 it updates ->
  incl pre (it_cases it) -> In c (it_cases it) ->
  run_cases U should_run it pre (IS w1 None) = (s1, Ok results) -> run_case U it c s1 = (s2, o) ->
  forall p b d s s' i ob, In (p, b) c -> dget (full_path base p) (it_defaults it) = Some d ->
    rs_at (is_world s1) (full_path base p) = Some s -> rs_at (is_world s2) (full_path base p) = Some s' ->
    length (r_calls s) <= i -> nth_error (r_calls s') i = Some (inner_path (full_path base p), ob) ->
    agree (arguments ob) (case_value d b).
Proof. exact case_calls. Qed.

(** The full name under which an item that is updated is known: the base path is put in front, unless there is none or it is empty. *)
Theorem C29_full_names : forall p,
  full_path None p = p /\ full_path (Some "") p = p /\ forall b, b <> "" -> full_path (Some b) p = (b ++ "." ++ p)%string.
Proof.
  intro p. split; [reflexivity|]. split; [reflexivity|]. intros b N. unfold full_path. apply String.eqb_neq in N. rewrite N. now rewrite sp_join_mk.
Qed.
(** An empty base path is taken as none for the items that are updated, but not for those that are run: they are looked for in a
    manager with the empty name. *)
Theorem C29_empty_base_refuted : exists p strip, full_path (Some "") p = p /\
  from_ambiguous (LStr p) strip (Some "") = Ok (mk_sp ("." ++ p)) /\ manager_of (mk_sp p) = "m" /\ manager_of (mk_sp ("." ++ p)) = "".
Proof. exists "m.sec.f", false. repeat split. Qed.

(** The defaults are what the configs effectively hold when the iteration is set up. *)
Theorem C29_defaults_are_the_configs : forall U w0 w1 it updates paths base strip,
  iter_new U [] (fun l => l) paths updates base strip w0 = (w1, Ok it) -> isolated w0 it updates ->
  forall p d, In p (map fst updates) -> dget (full_path base p) (it_defaults it) = Some d ->
    forall c k, config_at w0 (full_path base p) = Some c ->
      dget k d = match c_vals c with [] => None | _ :: _ => first_of k (layers_at w0 (full_path base p) ++ [c_vals c]) end.
Proof.
  intros U w0 w1 it updates paths base strip H Hi p d Hp Hd c k Hc.
  destruct (after_defaults _ _ _ _ _ _ _ _ H Hi) as [_ Rd]. destruct (Rd p d (proj2 (first_seen_In _ _) Hp) Hd) as (_ & _ & c' & E & V).
  rewrite Hc in E. injection E as <-. apply V.
Qed.

Definition ex_pre : list case := firstn 2 (it_cases ex_it).
Definition ex_c : case := nth 2 (it_cases ex_it) [].
Definition ex_after : ist * res (list (case * result)) := run_cases ex_U yes ex_it ex_pre (IS ex_w1 None).
Example C29_nonvacuous :
  isolated ex_w ex_it ex_updates /\ loaded_in_step ex_w ex_it ex_updates /\ incl ex_pre (it_cases ex_it) /\ In ex_c (it_cases ex_it) /\
  (exists r, snd ex_after = Ok r /\ length r = 2) /\
  (exists filled s2, fill_case ex_it ex_c = Ok filled /\ update_for_case ex_U ex_it filled (fst ex_after) = (s2, Ok tt)) /\
  (* the third case is called with a = 20, b = 5, the fourth again so, with k = 2 *)
  (exists s, run_cases ex_U yes ex_it (it_cases ex_it) (IS ex_w1 None) = (s, Ok (List.combine (it_cases ex_it)
     [RList [RVal (VList [VInt 10; VInt 2]); RList [RVal (VList [VInt 8; VInt 7])]; RVal (VList [VInt 1])];
      RList [RVal (VList [VInt 10; VInt 2]); RList [RVal (VList [VInt 8; VInt 7])]; RVal (VList [VInt 2])];
      RList [RVal (VList [VInt 20; VInt 5]); RList [RVal (VList [VInt 8; VInt 7])]; RVal (VList [VInt 1])];
      RList [RVal (VList [VInt 20; VInt 5]); RList [RVal (VList [VInt 8; VInt 7])]; RVal (VList [VInt 2])]]))).
Proof.
  split; [exact ex_isolated|]. split; [exact ex_in_step|]. split; [intros c H; unfold ex_pre in H; rewrite <- (firstn_skipn 2 (it_cases ex_it)); apply in_app_iff; now left|].
  split; [apply nth_In; apply Nat.ltb_lt; vm_compute; reflexivity|].
  split; [eexists; split; [vm_compute; reflexivity|reflexivity]|]. split; [do 2 eexists; split; vm_compute; reflexivity|].
  eexists. vm_compute. reflexivity.
Qed.

(** Without the side conditions cases do depend on earlier ones. The result of a case after another one differs from its
    result alone, although the function only uses its arguments: *)
Definition one_manager (disk : dir) (its : items) : world := [("m", PMS "m" its Plain (loaded "m" disk))].

(** 1. a key the config does not have stays from an earlier case *)
Theorem C29_new_keys_leak_refuted : exists w before c r r' r0,
  snd (run_product ex_U "m" [LStr "f"] [before; c] true w) = Ok [([before], r0); ([c], r)] /\
  snd (run_product ex_U "m" [LStr "f"] [c] true w) = Ok [([c], r')] /\ r <> r'.
Proof.
  exists (one_manager (Dir [("f.py", Ok [("a", VInt 1)])] []) (Items [] (Coll "root" [EItem "f" (TFunc (Fn "f" ["a"; "z"]))]))).
  exists ("f", vals [("a", VInt 2); ("z", VInt 5)]), ("f", vals [("a", VInt 3)]).
  do 3 eexists. split; [vm_compute; reflexivity|]. split; [vm_compute; reflexivity|]. discriminate.
Qed.

(** 2. a key that a section above sets as well *)
Theorem C29_section_values_interfere_refuted : exists w before c r r' r0,
  snd (run_product ex_U "m" [LStr "s.f"] [before; c] true w) = Ok [([before], r0); ([c], r)] /\
  snd (run_product ex_U "m" [LStr "s.f"] [c] true w) = Ok [([c], r')] /\ r <> r'.
Proof.
  exists (one_manager (Dir [] [("s", Dir [("section.py", Ok [("a", VInt 1)]); ("f.py", Ok [("a", VInt 1)])] [])])
           (Items [] (Coll "root" [EColl (Coll "s" [EItem "f" (TFunc (Fn "f" ["a"]))])]))).
  exists ("s.f", vals [("a", VInt 2)]), ("s.f", vals [("a", VInt 3)]).
  do 3 eexists. split; [vm_compute; reflexivity|]. split; [vm_compute; reflexivity|]. discriminate.
Qed.

(** Values given in the dict argument [d_] of an update are not used for keys the config has. *)
Theorem C29_dict_argument_unused_refuted : exists w c v v',
  b_d (snd c) = Some [("a", v)] /\ v <> v' /\
  snd (run_product ex_U "m" [LStr "f"] [c] true w) = Ok [([c], RVal (VList [v']))].
Proof.
  exists (one_manager (Dir [("f.py", Ok [("a", VInt 1)])] []) (Items [] (Coll "root" [EItem "f" (TFunc (Fn "f" ["a"]))]))).
  exists ("f", Body (Some [("a", VInt 5)]) []), (VInt 5), (VInt 1). split; [reflexivity|]. split; [discriminate|]. vm_compute. reflexivity.
Qed.

(* ------------------------------------------------------------------ *)
(** * C30 *)

(** Taking [k] results from the generator has executed exactly the first [k] of the selected cases, one after the other,
    and gives their results in order; the remaining ones are still to do. *)
Theorem C30_generator_has_run_k_cases : forall U should_run it k cases s s' rs,
  k <= length (filter should_run cases) ->
  executed U it (firstn k (filter should_run cases)) s s' rs ->
  exists rest, gen_take U should_run it k cases s =
      (s', rest, map (fun x => Ok (Some x)) (List.combine (firstn k (filter should_run cases)) rs)) /\
    filter should_run rest = skipn k (filter should_run cases).
Proof. exact gen_take_executed. Qed.

(** At the end nothing more happens. *)
Theorem C30_generator_end : forall U should_run it k cases s, filter should_run cases = [] ->
  exists rest, gen_take U should_run it k cases s = (s, rest, repeat (Ok None) k) /\ filter should_run rest = [].
Proof. intros U sr it. exact (gen_exhausted U sr it). Qed.

(** A failing case makes the generator raise, and it is finished. *)
Theorem C30_generator_failure : forall U should_run it cases c rest s s' e,
  filter should_run cases = c :: rest -> run_case U it c s = (s', Raise e) ->
  gen_next U should_run it cases s = (s', [], Raise e).
Proof. exact gen_next_fails. Qed.

(** [run] succeeds exactly if all selected cases do, and gives one pair of case and result for each, in order (or nothing, if
    the results are not collected). *)
Theorem C30_run_returns_all_pairs : forall U should_run it collect s s' out,
  iter_run U should_run it collect s = (s', Ok out) <->
  exists rs, executed U it (filter should_run (it_cases it)) s s' rs /\
             out = if collect then List.combine (filter should_run (it_cases it)) rs else [].
Proof.
  intros U sr it collect s s' out. unfold iter_run, bind. split.
  - destruct (run_cases U sr it (it_cases it) s) as [s1 [l|]] eqn:E; [|discriminate]. intros [= <- <-].
    apply run_cases_executed in E as (rs & H & ->). exists rs. split; [exact H|]. now destruct collect.
  - intros (rs & H & ->). rewrite (proj2 (run_cases_executed U sr it (it_cases it) s s' _) (ex_intro _ rs (conj H eq_refl))).
    now destruct collect.
Qed.

(** Otherwise it stops at the first failing case: those before have been executed, those after have not. *)
Theorem C30_run_stops_at_failure : forall U should_run it collect s s' e,
  iter_run U should_run it collect s = (s', Raise e) <->
  exists done c rest s1 rs, filter should_run (it_cases it) = done ++ c :: rest /\ executed U it done s s1 rs /\
    run_case U it c s1 = (s', Raise e).
Proof.
  intros U sr it collect s s' e. rewrite <- run_cases_fails. unfold iter_run, bind.
  destruct (run_cases U sr it (it_cases it) s) as [s1 [l|e']]; split; try discriminate; intros [= <- <-]; reflexivity.
Qed.

(** Afterwards every config still holds the values of the last case. *)
Theorem C30_configs_keep_last_case : forall U w0 w1 it updates paths base strip front c s' out,
  iter_new U [] (fun l => l) paths updates base strip w0 = (w1, Ok it) ->
  isolated w0 it updates -> loaded_in_step w0 it updates ->
  it_cases it = front ++ [c] -> iter_run U (fun _ => true) it true (IS w1 None) = (s', Ok out) ->
  forall p b d k e, In (p, b) c -> dget (full_path base p) (it_defaults it) = Some d -> case_value d b k = Some e ->
    exists cfg v, config_at (is_world s') (full_path base p) = Some cfg /\ dget k (c_vals cfg) = Some v /\ same_value v e.
Proof.
  intros U w0 w1 it updates paths base strip front c s' out Hn Hi Hl Hc Hr p b d k e Hp Hd He.
  apply (last_case_values U (fun _ => true) w0 w1 it updates paths base strip front c s'
           (match snd (run_cases U (fun _ => true) it (it_cases it) (IS w1 None)) with Ok l => l | Raise _ => [] end) Hn Hi Hl Hc eq_refl) with (b := b) (d := d); auto.
  unfold iter_run, bind in Hr. destruct (run_cases U (fun _ => true) it (it_cases it) (IS w1 None)) as [s1 [l|]]; [|discriminate].
  injection Hr as <- _. reflexivity.
Qed.

(** So they are not restored to the values before. *)
Theorem C30_configs_restored_refuted : exists w updates r fp c c' k,
  snd (run_product ex_U "m" [LStr "f"] updates true w) = Ok r /\
  config_at w fp = Some c /\ config_at (fst (run_product ex_U "m" [LStr "f"] updates true w)) fp = Some c' /\
  dget k (c_vals c') <> dget k (c_vals c).
Proof.
  exists (one_manager (Dir [("f.py", Ok [("a", VInt 1)])] []) (Items [] (Coll "root" [EItem "f" (TFunc (Fn "f" ["a"]))]))).
  exists [("f", vals [("a", VInt 2)])]. eexists. exists "m.f". do 2 eexists. exists "a". split; [vm_compute; reflexivity|].
  split; [vm_compute; reflexivity|]. split; [vm_compute; reflexivity|]. discriminate.
Qed.

(** Cases that vary a data frame do not run: comparing the second case with the first one raises. *)
Theorem C30_frames_iterate_refuted : exists w c c',
  snd (run_product ex_U "m" [LStr "f"] [c; c'] true w) = Raise ValueError /\
  (exists r, snd (run_product ex_U "m" [LStr "f"] [c] true w) = Ok r) /\ (exists r, snd (run_product ex_U "m" [LStr "f"] [c'] true w) = Ok r).
Proof.
  exists (one_manager (Dir [("f.py", Ok [("a", VInt 1)])] []) (Items [] (Coll "root" [EItem "f" (TFunc (Fn "f" ["a"]))]))).
  exists ("f", vals [("a", VFrame 1 1)]), ("f", vals [("a", VFrame 2 2)]). split; [vm_compute; reflexivity|].
  split; eexists; vm_compute; reflexivity.
Qed.

Example C30_nonvacuous :
  (exists s' rs, executed ex_U ex_it (firstn 2 (filter yes (it_cases ex_it))) (IS ex_w1 None) s' rs /\ length rs = 2) /\
  length (filter yes (it_cases ex_it)) = 4 /\
  (exists front c s' out, it_cases ex_it = front ++ [c] /\ iter_run ex_U (fun _ => true) ex_it true (IS ex_w1 None) = (s', Ok out) /\ length out = 4) /\
  (exists c s' e, filter yes (it_cases ex_it) = c :: skipn 1 (it_cases ex_it) /\ run_case ex_U ex_it c (IS [] None) = (s', Raise e)).
Proof.
  split.
  - do 2 eexists. split; [eapply ex_case; [vm_compute; reflexivity|]; eapply ex_case; [vm_compute; reflexivity|]; apply ex_none|reflexivity].
  - split; [reflexivity|]. split; [exists (firstn 3 (it_cases ex_it)); do 3 eexists; split; [vm_compute; reflexivity|]; split; vm_compute; reflexivity|].
    exists (nth 0 (it_cases ex_it) []), (IS [] None). eexists. split; vm_compute; reflexivity.
Qed.

Print Assumptions C28_full_product.
Print Assumptions C28_number_of_cases.
Print Assumptions C28_case_contents.
Print Assumptions C28_plugin_cases_come_first.
Print Assumptions C28_no_updates.
Print Assumptions C28_iteration_uses_them.
Print Assumptions C29_case_values.
Print Assumptions C29_calls_get_case_values.
Print Assumptions C29_defaults_are_the_configs.
Print Assumptions C29_full_names.
Print Assumptions C29_empty_base_refuted.
Print Assumptions C29_new_keys_leak_refuted.
Print Assumptions C29_section_values_interfere_refuted.
Print Assumptions C29_dict_argument_unused_refuted.
Print Assumptions C30_generator_has_run_k_cases.
Print Assumptions C30_generator_end.
Print Assumptions C30_generator_failure.
Print Assumptions C30_run_returns_all_pairs.
Print Assumptions C30_run_stops_at_failure.
Print Assumptions C30_configs_keep_last_case.
Print Assumptions C30_configs_restored_refuted.
Print Assumptions C30_frames_iterate_refuted.
