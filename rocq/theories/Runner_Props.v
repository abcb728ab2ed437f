(** C18, C19, C20 and C27: loaded objects and change hooks. *)
From Verif Require Import Runner_Model Config_Spec ConfigTree_Spec Runner_Spec Config_Proofs ConfigTree_Proofs ConfigOps_Proofs ConfigLoad_Proofs ConfigWf_Proofs Runner_Proofs RunnerOps_Proofs ConfigTree_Example Runner_Example.
From Coq Require Import Lia.
Local Open Scope string_scope.
Local Open Scope list_scope.

(* ------------------------------------------------------------------ *)
(** * C18 *)

(** Whatever gets, runs, updates, refreshes and resets follow, a loaded item stays the same object. *)
Theorem C18_same_object_forever : forall base its u ops s path o,
  dget path (r_loaded s) = Some o ->
  exists o', dget path (r_loaded (fold_left (rop_run base its u) ops s)) = Some o' /\ same_object o o'.
Proof. intros base its u ops s path o H. apply (steps_same s); [apply rops_steps|exact H]. Qed.

(** Getting an item gives the loaded object if there is one, and what it gives is loaded afterwards. *)
Theorem C18_get_gives_the_loaded_object : forall its u s s' path o,
  runner_get its u path s = (s', Ok (GObj o)) ->
  dget path (r_loaded s') = Some o /\
  forall o0, dget path (r_loaded s) = Some o0 -> o = o0 /\ s' = s.
Proof.
  intros its u s s' path o H. unfold runner_get, bind at 1, lift in H.
  assert (F : forall s1, get_one_func_with_config its path s = (s1, Ok o) -> dget path (r_loaded s1) = Some o /\
     forall o0, dget path (r_loaded s) = Some o0 -> o = o0 /\ s1 = s).
  { intros s1 E. unfold get_one_func_with_config, bind at 1, gets in E. destruct (dget path (r_loaded s)) as [o1|] eqn:El.
    - injection E as <- <-. split; [exact El|]. intros o0 [= <-]. auto.
    - split; [|discriminate]. unfold bind in E. destruct (get_func_and_config its path s) as [s2 [[[f b] kw]|e]]; [|discriminate].
      cbn in E. injection E as <- <-. apply dget_dset_eq. }
  assert (O : forall s1, get_one_obj_with_config its u path s = (s1, Ok o) -> dget path (r_loaded s1) = Some o /\
     forall o0, dget path (r_loaded s) = Some o0 -> o = o0 /\ s1 = s).
  { intros s1 E. unfold get_one_obj_with_config, bind at 1, gets in E. destruct (dget path (r_loaded s)) as [o1|] eqn:El.
    - injection E as <- <-. split; [exact El|]. intros o0 [= <-]. auto.
    - split; [|discriminate]. unfold bind, lift in E. destruct (get_func_or_collection its path); [|discriminate].
      destruct (get_class_and_config its path s) as [s2 [[[k b] kw]|e]]; [|discriminate].
      destruct (u_init u k _); [discriminate|]. cbn in E. injection E as <- <-. apply dget_dset_eq. }
  destruct (get_func_or_collection its path) as [[b f]|e]; [|discriminate]. cbn [snd] in H.
  destruct f as [c|[]|]; try discriminate.
  - destruct c as [n l]. rewrite get_section_eq in H. destruct (existsb is_coll l); unfold bind in H.
    + destruct (mapM _ l s) as [? [|]]; discriminate.
    + destruct (list_entries its u path l s) as [? [|]]; discriminate.
  - unfold bind in H. destruct (get_one_func_with_config its path s) as [s1 [o1|]]; [|discriminate].
    injection H as <- <-. now apply F.
  - unfold bind in H. destruct (get_one_obj_with_config its u path s) as [s1 [o1|]]; [|discriminate].
    injection H as <- <-. now apply O.
  - unfold bind in H. destruct (get_one_obj_with_config its u path s) as [s1 [o1|]]; [|discriminate].
    injection H as <- <-. now apply O.
Qed.

(** Only collections, functions, classes and their instances can be got. *)
Theorem C18_nothing_else_can_be_got : forall its u s path own t,
  get_func_or_collection its path = Ok (own, t) ->
  match t with FColl _ | FThing (TInst _) | FThing (TClass _) | FThing (TFunc _) => False | _ => True end ->
  runner_get its u path s = (s, Raise ValueError).
Proof.
  intros its u s path own t E H. unfold runner_get, bind, lift. rewrite E. cbn [snd]. destruct t as [c|[f|k| |e|k]|]; try contradiction; reflexivity.
Qed.

(** Running a loaded function calls exactly the loaded object, once. *)
Theorem C18_run_calls_the_loaded_object : forall its u s path own f o,
  cms_wf (r_cms s) -> own_values (r_cms s) (path_parts path) = Some own ->
  is_func its path f -> dget path (r_loaded s) = Some o ->
  exists s', run_one its u path s = (s', match u_call u (r_calls s) path o with Ok v => Ok (RVal v) | Raise e => Raise e end) /\
    r_loaded s' = r_loaded s /\ r_calls s' = r_calls s ++ [(path, o)].
Proof.
  intros its u s path own f o W Ho Hf Hl. destruct (run_loaded_func its u s path own f o W Ho Hf Hl) as (s' & E & L & C & _).
  exists s'. split; [|auto]. unfold run_one, bind at 1, lift. destruct Hf as (b & Hf). rewrite Hf. now destruct b.
Qed.

(** The object is built at the first access: a function is bound to the effective values of its arguments. *)
Theorem C18_first_access_binds_effective_config : forall its u s path own f,
  cms_wf (r_cms s) -> own_values (r_cms s) (path_parts path) = Some own ->
  is_func its path f -> dget path (r_loaded s) = None ->
  exists s' kw, runner_get its u path s = (s', Ok (GObj (LPartial (r_next s) f false kw))) /\
    r_loaded s' = dset path (LPartial (r_next s) f false kw) (r_loaded s) /\ r_calls s' = r_calls s /\
    forall k, dget k kw = if mem k (f_args f) then effective (r_cms s) (path_parts path) own k else None.
Proof.
  intros its u s path own f W Ho Hf Hn.
  destruct (first_access_func its s path own f W Ho Hf Hn) as (s' & kw & E & L & C & _ & _ & V).
  exists s', kw. split; [|auto]. unfold runner_get, bind at 1, lift. destruct Hf as (b & Hf). rewrite Hf. cbn [snd].
  unfold bind. now rewrite E.
Qed.

(** a class is instantiated once, with those values *)
Theorem C18_first_access_constructs_with_effective_config : forall its u s path own k,
  cms_wf (r_cms s) -> own_values (r_cms s) (path_parts path) = Some own ->
  is_class its path k -> dget path (r_loaded s) = None -> (forall a, u_init u k a = None) ->
  exists s' args, runner_get its u path s = (s', Ok (GObj (LInst (r_next s) k [args]))) /\
    r_loaded s' = dset path (LInst (r_next s) k [args]) (r_loaded s) /\ r_calls s' = r_calls s /\
    forall x, dget x args = if mem x ("self" :: f_args k) then effective (r_cms s) (path_parts path) own x else None.
Proof.
  intros its u s path own k W Ho Hf Hn Hi.
  destruct (first_access_class its u s path own k W Ho Hf Hn) as (s' & args & E & L & C & _ & _ & V).
  rewrite Hi in E, L. exists s', args. split; [|auto]. unfold runner_get, bind at 1, lift. destruct Hf as (b & Hf). rewrite Hf. cbn [snd].
  unfold bind. now rewrite E.
Qed.

(** Different items are different objects, in every state reachable from a load ... *)
Theorem C18_different_paths_different_objects : forall base its u disk n s ops p q o o',
  runner_load base disk n = Ok s ->
  let now := fold_left (rop_run base its u) ops s in
  dget p (r_loaded now) = Some o -> dget q (r_loaded now) = Some o' -> p <> q -> lobj_id o <> lobj_id o'.
Proof.
  intros base its u disk n s ops p q o o' H now Hp Hq Hne E.
  assert (I : ids_ok s).
  { unfold runner_load in H. destruct (cm_load base disk); [|discriminate]. injection H as <-. split; cbn; discriminate. }
  apply Hne. eapply (steps_ids s now); eauto. apply rops_steps.
Qed.

(** ... and a reload, which starts with nothing loaded, never reuses an object. *)
Theorem C18_reload_gives_new_objects : forall base its u disk disk' n s ops s2 ops' p q o o',
  runner_load base disk n = Ok s ->
  let now := fold_left (rop_run base its u) ops s in
  runner_load base disk' (r_next now) = Ok s2 ->
  dget p (r_loaded now) = Some o ->
  dget q (r_loaded (fold_left (rop_run base its u) ops' s2)) = Some o' -> lobj_id o <> lobj_id o'.
Proof.
  intros base its u disk disk' n s ops s2 ops' p q o o' H now H2 Hp Hq.
  assert (I : ids_ok s).
  { unfold runner_load in H. destruct (cm_load base disk); [|discriminate]. injection H as <-. split; cbn; discriminate. }
  assert (I2 : ids_ok now) by (eapply (steps_ids s); [apply rops_steps|exact I]).
  apply I2 in Hp. unfold runner_load in H2. destruct (cm_load base disk') as [c|]; [|discriminate]. injection H2 as <-.
  set (s0 := RS c [] (r_next now) []) in *.
  destruct (steps_next s0 _ (rops_steps base its u ops' s0)) as (_ & _ & F). destruct (F _ _ Hq) as [F1|(o0 & F1 & _)]; [|discriminate].
  cbn [r_next s0] in F1. lia.
Qed.

Example C18_ex : cms_wf (r_cms ex_rs) /\ own_values (r_cms ex_rs) (path_parts "a.b.f") = Some [("k", VInt 0); ("own", VInt 9)] /\
  is_func ex_items "a.b.f" ex_f /\ dget "a.b.f" (r_loaded ex_rs) = None /\
  dget "a.b.f" (r_loaded ex_got) = Some (LPartial 0 ex_f false [("k", VInt 3); ("own", VInt 9); ("z", VInt 2)]).
Proof. split; [exact ex_rs_wf|]. split; [reflexivity|]. split; [exists false; reflexivity|]. split; reflexivity. Qed.
Example C18_ex_class : own_values (r_cms ex_rs) (path_parts "x.y") = Some [("n", VInt 4)] /\ is_class ex_items "x.y" ex_k /\
  snd (runner_get ex_items ex_user "x.y" ex_rs) = Ok (GObj (LInst 0 ex_k [[("n", VInt 4); ("k", VInt 1)]])).
Proof. split; [reflexivity|]. split; [exists false; reflexivity|]. reflexivity. Qed.
Example C18_ex_other : let its := Items [] (Coll "root" [EItem "t" TOther]) in
  (exists own, get_func_or_collection its "t" = Ok (own, FThing TOther)) /\ runner_get its ex_user "t" ex_rs = (ex_rs, Raise ValueError).
Proof. split; [eexists; reflexivity | reflexivity]. Qed.
Example C18_ex_history :
  let ops := [RGet "a.b.f"; RUpdate None (Some "a.b.f") true [("k", VInt 8)]; RRun Plain (AStr "a.b.f"); RReset (Some "a.b.f") false;
              RRefresh "a.b.f"; RGet "x.y"; RRun Plain (AStr "a.b.f")] in
  let now := fold_left (rop_run "base" ex_items ex_user) ops ex_rs in
  map (fun x => lobj_id (snd x)) (r_calls now) = [0; 0] /\ length (r_loaded now) = 2.
Proof. vm_compute. split; reflexivity. Qed.

(* ------------------------------------------------------------------ *)
(** * C19 *)

(** After an update that changes something, the loaded function's bound arguments are those the update gives,
    then those of the stored config, then what was bound before; nothing is added or removed. *)
Theorem C19_update_reaches_loaded_function : forall u d path persist kw s s' o own i f b bound,
  cms_wf (r_cms s) -> own_values (r_cms s) (path_parts path) = Some own ->
  dget path (r_loaded s) = Some (LPartial i f b bound) ->
  dwf (opt_dict d) -> dwf kw -> no_clash ["config_"; "E"; "d"] kw ->
  let all := dupdate (opt_dict d) kw in
  comparable own all -> really_changes own all ->
  runner_update u d (Some path) persist kw s = (s', o) ->
  o = Ok tt /\
  exists bound', r_loaded s' = dset path (LPartial i f b bound') (r_loaded s) /\ dkeys bound' = dkeys bound /\
    forall k old, dget k bound = Some old ->
      dget k bound' = match dget k all with
                      | Some v => Some v
                      | None => match dget k own with Some v => Some v | None => Some old end
                      end.
Proof.
  intros u d path persist kw s s' o own i f b bound W Ho Hl Wd Wk Hn all Hc Hr H.
  assert (S := runner_update_spec _ _ _ _ _ _ _ _ H). cbv zeta in S. set (p := path_parts path) in *.
  rewrite own_values_current in Ho. destruct (current (r_cms s) (CItem p)) as [c|] eqn:Ec; [|discriminate]. injection Ho as <-.
  assert (Ht : target (r_cms s) p = Some (CItem p)).
  { unfold target. cbn [current] in Ec. destruct (see (r_cms s) p) as [[]|]; try discriminate; reflexivity. }
  rewrite Ht, Ec, (checked_update_change c d persist kw) in S; auto.
  2:{ intros n Hin. apply Hn. cbn in *. tauto. }
  rewrite Hl in S. cbn [applied_to] in S.
  assert (Hd : dmem "d" kw = false) by (apply dmem_dget, Hn; cbn; auto).
  rewrite Hd in S. destruct S as (_ & _ & _ & _ & L & -> & _). split; [reflexivity|]. eexists. split; [exact L|].
  split; [apply partial_keys|]. intros k old Hk. assert (Wc : cfg_wf c) by (eapply W; exact Ec).
  rewrite apply_partial_get, Hk by (apply dupdate_wf, dupdate_wf, Wc).
  rewrite cfg_update_get by assumption. unfold all. rewrite dget_dupdate by assumption.
  destruct (dget k kw); [reflexivity|]. now destruct (dget k (opt_dict d)).
Qed.

(** So if the function agreed with its config before, exactly the arguments the update names change, and it
    agrees afterwards. *)
Theorem C19_in_sync_only_named_arguments_change : forall u d path persist kw s s' o own i f b bound,
  cms_wf (r_cms s) -> own_values (r_cms s) (path_parts path) = Some own ->
  dget path (r_loaded s) = Some (LPartial i f b bound) -> in_sync s path bound ->
  dwf (opt_dict d) -> dwf kw -> no_clash ["config_"; "E"; "d"] kw ->
  let all := dupdate (opt_dict d) kw in
  comparable own all -> really_changes own all ->
  runner_update u d (Some path) persist kw s = (s', o) ->
  exists bound', dget path (r_loaded s') = Some (LPartial i f b bound') /\ in_sync s' path bound' /\
    (forall k, dget k bound' = match dget k bound with
                               | None => None
                               | Some old => match dget k all with Some v => Some v | None => Some old end
                               end).
Proof.
  intros u d path persist kw s s' o own i f b bound W Ho Hl Hs Wd Wk Hn all Hc Hr H.
  destruct (C19_update_reaches_loaded_function u d path persist kw s s' o own i f b bound W Ho Hl Wd Wk Hn Hc Hr H)
    as (_ & bound' & L & K & V).
  assert (V' : forall k, dget k bound' = match dget k bound with
                               | None => None
                               | Some old => match dget k all with Some v => Some v | None => Some old end
                               end).
  { intro k. destruct (dget k bound) as [old|] eqn:E.
    - rewrite (V k old E). fold all. destruct (dget k all); [reflexivity|]. now rewrite (Hs own Ho k old E).
    - apply dget_None. rewrite K. now apply dget_None. }
  exists bound'. split; [rewrite L; apply dget_dset_eq|]. split; [|exact V'].
  intros own' Ho' k v Hv. rewrite V' in Hv. destruct (dget k bound) as [old|] eqn:E; [|discriminate].
  assert (Hk := Hs own Ho k old E).
  assert (S := runner_update_spec _ _ _ _ _ _ _ _ H). cbv zeta in S. set (p := path_parts path) in *.
  rewrite own_values_current in Ho, Ho'. destruct (current (r_cms s) (CItem p)) as [c|] eqn:Ec; [|discriminate]. injection Ho as <-.
  assert (Ht : target (r_cms s) p = Some (CItem p)).
  { unfold target. cbn [current] in Ec. destruct (see (r_cms s) p) as [[]|]; try discriminate; reflexivity. }
  rewrite Ht, Ec, (checked_update_change c d persist kw) in S; auto.
  2:{ intros n Hin. apply Hn. cbn in *. tauto. }
  destruct S as (_ & _ & _ & C & _). rewrite C in Ho'.
  assert (E' : own' = c_vals (cfg_update c d persist kw)) by congruence. rewrite E'.
  rewrite cfg_update_get by assumption. unfold all in Hv. rewrite dget_dupdate in Hv by assumption.
  destruct (dget k kw); [exact Hv|]. destruct (dget k (opt_dict d)); [exact Hv|]. congruence.
Qed.

(** A function is in sync right after its first access. *)
Theorem C19_in_sync_after_first_access : forall its u s path own f s' o kw,
  cms_wf (r_cms s) -> own_values (r_cms s) (path_parts path) = Some own ->
  is_func its path f -> dget path (r_loaded s) = None ->
  runner_get its u path s = (s', Ok (GObj o)) -> bound o = Some kw -> in_sync s' path kw.
Proof.
  intros its u s path own f s' o kw W Ho (b & Hf) Hn H Hb.
  destruct (get_config_spec s path own W Ho) as (c & s1 & E & (R1 & R2 & R3 & _) & Tr & T & Sc & W1 & Wc & V).
  unfold runner_get, bind at 1, lift in H. rewrite Hf in H. cbn [snd] in H. unfold get_one_func_with_config, bind at 1 2, gets in H. rewrite Hn in H.
  unfold get_func_and_config, bind in H. rewrite E in H. unfold lift in H. rewrite Hf in H. cbn in H. injection H as <- <-.
  cbn in Hb. injection Hb as <-. intros own' Ho' k v Hk. unfold own_values in Ho'. cbn [r_cms] in Ho'. rewrite Sc in Ho'. injection Ho' as <-.
  unfold for_function in Hk. rewrite dget_dfilter in Hk. now destruct (mem k (f_args f)).
Qed.

(** An update that changes nothing leaves the loaded object alone. *)
Theorem C19_no_change_no_effect : forall u d path persist kw s s' o own,
  own_values (r_cms s) (path_parts path) = Some own ->
  dwf (opt_dict d) -> no_clash ["config_"] kw ->
  comparable own (dupdate (opt_dict d) kw) -> ~ really_changes own (dupdate (opt_dict d) kw) ->
  runner_update u d (Some path) persist kw s = (s', o) ->
  o = Ok tt /\ r_loaded s' = r_loaded s /\ own_values (r_cms s') (path_parts path) = Some own.
Proof.
  intros u d path persist kw s s' o own Ho Wd Hn Hc Hr H.
  assert (S := runner_update_spec _ _ _ _ _ _ _ _ H). cbv zeta in S. set (p := path_parts path) in *.
  rewrite own_values_current in *. destruct (current (r_cms s) (CItem p)) as [c|] eqn:Ec; [|discriminate]. injection Ho as <-.
  assert (Ht : target (r_cms s) p = Some (CItem p)).
  { unfold target. cbn [current] in Ec. destruct (see (r_cms s) p) as [[]|]; try discriminate; reflexivity. }
  rewrite Ht, Ec, (checked_update_nochange c d persist kw) in S; auto.
  destruct S as (_ & _ & _ & C & -> & L & _). rewrite C. auto.
Qed.

(** A loaded instance gets its constructor (or update method) called again with the whole new config, restricted to its
    arguments. *)
Theorem C19_update_reaches_loaded_instance : forall u d path persist kw s s' o own i k calls,
  cms_wf (r_cms s) -> own_values (r_cms s) (path_parts path) = Some own ->
  dget path (r_loaded s) = Some (LInst i k calls) -> (forall a, u_init u k a = None) ->
  dwf (opt_dict d) -> dwf kw -> no_clash ["config_"; "E"; "d"] kw ->
  let all := dupdate (opt_dict d) kw in
  comparable own all -> really_changes own all ->
  runner_update u d (Some path) persist kw s = (s', o) ->
  o = Ok tt /\
  exists args, r_loaded s' = dset path (LInst i k (calls ++ [args])) (r_loaded s) /\
    forall x, dget x args = if mem x (f_args k) then match dget x all with Some v => Some v | None => dget x own end else None.
Proof.
  intros u d path persist kw s s' o own i f calls W Ho Hl Hi Wd Wk Hn all Hc Hr H.
  assert (S := runner_update_spec _ _ _ _ _ _ _ _ H). cbv zeta in S. set (p := path_parts path) in *.
  rewrite own_values_current in Ho. destruct (current (r_cms s) (CItem p)) as [c|] eqn:Ec; [|discriminate]. injection Ho as <-.
  assert (Ht : target (r_cms s) p = Some (CItem p)).
  { unfold target. cbn [current] in Ec. destruct (see (r_cms s) p) as [[]|]; try discriminate; reflexivity. }
  rewrite Ht, Ec, (checked_update_change c d persist kw) in S; auto.
  2:{ intros n Hin. apply Hn. cbn in *. tauto. }
  rewrite Hl in S. cbn [applied_to] in S. rewrite Hi in S.
  assert (Hd : dmem "d" kw = false) by (apply dmem_dget, Hn; cbn; auto).
  rewrite Hd in S. destruct S as (_ & _ & _ & _ & L & -> & _). split; [reflexivity|]. eexists. split; [exact L|].
  intro x. unfold relevant_config. rewrite dget_dfilter. destruct (mem x (f_args f)); [|reflexivity].
  rewrite cfg_update_get by assumption. unfold all. rewrite dget_dupdate by assumption.
  destruct (dget x kw); [reflexivity|]. now destruct (dget x (opt_dict d)).
Qed.

(** In general, arguments the update does not mention can change too: a section value that was merged into the stored
    config by a later run reaches the loaded function with the next update of another argument. *)
Theorem C19_other_arguments_keep_their_value_refuted : exists base its u disk s ops path k i f b kw kw',
  runner_load base disk 0 = Ok s /\
  dget path (r_loaded (fold_left (rop_run base its u) ops s)) = Some (LPartial i f b kw) /\
  dget path (r_loaded (fold_left (rop_run base its u) (ops ++ [RUpdate None (Some path) true [("own", VInt 1)]]) s)) = Some (LPartial i f b kw') /\
  k <> "own" /\ dget k kw <> dget k kw'.
Proof.
  exists "base", ex_items, ex_user, ex_disk, ex_rs,
    [RGet "a.b.f"; RUpdate None (Some "a.b") true [("k", VInt 77)]; RRun Plain (AStr "a.b.f")], "a.b.f", "k", 0, ex_f, false.
  do 2 eexists. split; [reflexivity|]. split; [vm_compute; reflexivity|]. split; [vm_compute; reflexivity|].
  split; [discriminate|]. vm_compute. discriminate.
Qed.

Example C19_ex : cms_wf (r_cms ex_got) /\
  own_values (r_cms ex_got) (path_parts "a.b.f") = Some [("k", VInt 3); ("own", VInt 9); ("p", VInt 1); ("z", VInt 2)] /\
  dget "a.b.f" (r_loaded ex_got) = Some (LPartial 0 ex_f false [("k", VInt 3); ("own", VInt 9); ("z", VInt 2)]) /\
  dget "a.b.f" (r_loaded (fst (runner_update ex_user None (Some "a.b.f") true [("k", VInt 5); ("new", VInt 1)] ex_got)))
    = Some (LPartial 0 ex_f false [("k", VInt 5); ("own", VInt 9); ("z", VInt 2)]).
Proof. split; [exact ex_got_wf|]. repeat split; reflexivity. Qed.

(* ------------------------------------------------------------------ *)
(** * C20 *)

(** An update addresses loaded objects by its own path only, so updating a section leaves every object of the items below
    as it is ... *)
Theorem C20_update_elsewhere_leaves_loaded : forall u d other persist kw s s' o path,
  runner_update u d (Some other) persist kw s = (s', o) -> path <> other ->
  dget path (r_loaded s') = dget path (r_loaded s).
Proof.
  intros u d other persist kw s s' o path H Hne. assert (S := runner_update_spec _ _ _ _ _ _ _ _ H). cbv zeta in S.
  destruct (target (r_cms s) (path_parts other)) as [r|]; [|now destruct S as (-> & _)].
  destruct S as (_ & _ & _ & S). destruct (current (r_cms s) r) as [c|]; [|now destruct S as (-> & _)].
  destruct (cfg_checked_update c d persist kw) as [[c' b]|e]; [|now destruct S as (_ & -> & _)].
  destruct S as (_ & S). destruct (if b then dget other (r_loaded s) else None) as [ob|]; [|now destruct S as (_ & -> & _)].
  destruct (applied_to u ob (c_vals c')); [|now destruct S as (_ & -> & _)].
  destruct S as (-> & _). now rewrite dget_dset_neq.
Qed.

(** ... and running an item loaded before calls it with the old values, whereas the config reported for the item has the
    new value, and an item first accessed afterwards gets the new value. *)
Theorem C20_section_update_seen_in_config_not_in_loaded : forall its u d sect persist kw s s' o path f own n c k v,
  cms_wf (r_cms s) -> dwf (opt_dict d) -> dwf kw -> no_clash ["config_"; "E"] kw ->
  In (path_parts sect) (prefixes (path_parts path)) -> sect <> path -> dget sect (r_loaded s) = None ->
  see (r_cms s) (path_parts sect) = Some (SSec n (Some c)) ->
  let all := dupdate (opt_dict d) kw in
  comparable (c_vals c) all -> really_changes (c_vals c) all -> dget k all = Some v ->
  is_func its path f -> own_values (r_cms s) (path_parts path) = Some own -> own <> [] ->
  dget k (c_vals (cs_local (r_cms s))) = None ->
  (forall q, In q (prefixes (path_parts path)) -> length (path_parts sect) < length q -> dget k (section_values (r_cms s) q) = None) ->
  runner_update u d (Some sect) persist kw s = (s', o) ->
  o = Ok tt /\
  (exists st2 cfg, cm_get path (r_cms s') = (st2, Ok (Some (CItem (path_parts path)))) /\
     see st2 (path_parts path) = Some (SConf cfg) /\ dget k (c_vals cfg) = Some v) /\
  (forall ob, dget path (r_loaded s) = Some ob ->
     exists s2 r, run_one its u path s' = (s2, r) /\ r_calls s2 = r_calls s ++ [(path, ob)]) /\
  (dget path (r_loaded s) = None -> mem k (f_args f) = true ->
     exists s2 id bound, runner_get its u path s' = (s2, Ok (GObj (LPartial id f false bound))) /\ dget k bound = Some v).
Proof.
  intros its u d sect persist kw s s' o path f own n c k v W Wd Wk Hn Hin Hne Hnl Hs all Hc Hr Hk Hf Ho Hown Hloc Hdeep H.
  assert (S := runner_update_spec _ _ _ _ _ _ _ _ H). cbv zeta in S. set (p := path_parts path) in *. set (q := path_parts sect) in *.
  assert (Ht : target (r_cms s) q = Some (CSec q)) by (unfold target; now rewrite Hs).
  assert (Ec : current (r_cms s) (CSec q) = Some c) by (cbn [current]; now rewrite Hs).
  rewrite Ht, Ec, (checked_update_change c d persist kw) in S; auto. rewrite Hnl in S.
  destruct S as (T & Cl & Nx & C & -> & L & _). split; [reflexivity|].
  assert (W' : cms_wf (r_cms s')).
  { assert (X := cm_update_wf (r_cms s) d (Some sect) persist kw W). unfold runner_update, bind at 1, on_cms in H.
    destruct (cm_update d (Some sect) persist kw (r_cms s)) as [st [[r b]|e]]; [|discriminate]. cbn [fst] in X.
    unfold bind at 1, loaded_at, gets in H. cbn [r_loaded] in H. rewrite Hnl in H. now injection H as <-. }
  assert (Hp : p <> q). { intro E. rewrite <- E in Hin. apply prefixes_in in Hin as (_ & t & Htt & E2). revert E2.
    intro E2. assert (length p = length p + length t) by (rewrite <- app_length; congruence). destruct t; [easy|cbn in *; lia]. }
  assert (Ho' : own_values (r_cms s') p = Some own).
  { rewrite <- Ho. unfold own_values. destruct T as (T1 & T2 & T3 & T4). rewrite T2, T4; [reflexivity|].
    unfold own_values in Ho. unfold target. destruct (see (r_cms s) p) as [[]|]; try discriminate; congruence. }
  assert (Hsv : dget k (section_values (r_cms s') q) = Some v).
  { rewrite section_values_read. cbn [current] in C. rewrite read_cref_see.
    destruct (see (r_cms s') q) as [[| |n' own'|]|]; try discriminate. subst own'.
    rewrite cfg_update_get by assumption. unfold all in Hk. rewrite dget_dupdate in Hk by assumption.
    destruct (dget k kw); [exact Hk|]. now rewrite Hk. }
  assert (Hoth : forall x, x <> q -> section_values (r_cms s') x = section_values (r_cms s) x).
  { intros x Hx. rewrite !section_values_read. now rewrite (touches_read _ _ _ (CSec x) T) by congruence. }
  assert (Heff : effective (r_cms s') p own k = Some v).
  { unfold effective. destruct own as [|e own]; [easy|]. unfold overriding_layers. cbn [app first_of].
    rewrite (proj1 (proj2 (proj2 T))) by discriminate. rewrite Hloc, <- app_assoc, first_of_app.
    rewrite (first_of_prefixes (r_cms s') q k v Hsv p Hin); [reflexivity|].
    intros x Hx Hlen. rewrite Hoth; [now apply Hdeep|]. intros ->. lia. }
  split; [|split].
  - destruct (cm_get path (r_cms s')) as [st2 o2] eqn:E2. assert (G := cm_get_spec _ _ _ _ W' E2). fold p in G.
    assert (Hcur : exists ci, current (r_cms s') (CItem p) = Some ci /\ c_vals ci = own).
    { rewrite own_values_current in Ho'. destruct (current (r_cms s') (CItem p)) as [ci|]; [|discriminate]. injection Ho' as Ho'. eauto. }
    destruct Hcur as (ci & Hci & Eci).
    assert (Ht' : target (r_cms s') p = Some (CItem p)).
    { unfold target. cbn [current] in Hci. destruct (see (r_cms s') p) as [[]|]; try discriminate; reflexivity. }
    rewrite Ht', Hci in G. destruct G as (_ & _ & -> & cfg & R & _ & _ & _ & V). exists st2, cfg. split; [reflexivity|].
    rewrite read_cref_see in R. destruct (see st2 p) as [[]|]; try discriminate. injection R as ->. split; [reflexivity|].
    rewrite V. cbn [rpath]. now rewrite Eci.
  - intros ob Hob. rewrite <- L in Hob.
    destruct (C18_run_calls_the_loaded_object its u s' path own f ob W' Ho' Hf Hob) as (s2 & E & _ & E2).
    do 2 eexists. split; [exact E|]. now rewrite E2, Cl.
  - intros Hob Hm. rewrite <- L in Hob.
    destruct (C18_first_access_binds_effective_config its u s' path own f W' Ho' Hf Hob) as (s2 & bound & E & _ & _ & V).
    exists s2, (r_next s'), bound. split; [exact E|]. rewrite V, Hm. exact Heff.
Qed.

(** "a section update reaches all items below it" fails for a loaded item *)
Theorem C20_section_update_reaches_loaded_items_refuted : exists base its u disk s ops path id f b kw,
  runner_load base disk 0 = Ok s /\
  ops = [RGet path; RUpdate None (Some "a.b") true [("k", VInt 77)]; RRun Plain (AStr path)] /\
  r_calls (fold_left (rop_run base its u) ops s) = [(path, LPartial id f b kw)] /\ dget "k" kw = Some (VInt 3).
Proof.
  exists "base", ex_items, ex_user, ex_disk, ex_rs. eexists. exists "a.b.f", 0, ex_f, false. eexists.
  split; [reflexivity|]. split; [reflexivity|]. split; [vm_compute; reflexivity|reflexivity].
Qed.

Example C20_ex : exists c, see (r_cms ex_got) (path_parts "a.b") = Some (SSec "b" (Some c)) /\
  In (path_parts "a.b") (prefixes (path_parts "a.b.f")) /\ really_changes (c_vals c) [("k", VInt 77)] /\
  comparable (c_vals c) [("k", VInt 77)] /\ dget "a.b" (r_loaded ex_got) = None.
Proof.
  eexists. split; [reflexivity|]. split; [vm_compute; auto|]. split.
  - exists "k", (VInt 3), (VInt 77). repeat split; reflexivity.
  - split; [|reflexivity]. intros k old new Ho Hn. cbn in Hn. destruct (String.eqb k "k") eqn:E; [|discriminate].
    apply String.eqb_eq in E. subst k. injection Hn as <-. vm_compute in Ho. injection Ho as <-. exists false. reflexivity.
Qed.

(* ------------------------------------------------------------------ *)
(** * C27 *)

(** After an update that changes the config: pre hook always, post hook exactly if the path is loaded. *)
Theorem C27_update_hooks_on_change : forall u d path persist kw s s' o r c,
  target (r_cms s) (path_parts path) = Some r -> current (r_cms s) r = Some c ->
  dwf (opt_dict d) -> no_clash ["config_"; "E"; "d"] kw -> (forall k a, u_init u k a = None) ->
  let all := dupdate (opt_dict d) kw in
  comparable (c_vals c) all -> really_changes (c_vals c) all ->
  runner_update u d (Some path) persist kw s = (s', o) ->
  o = Ok tt /\
  cs_trace (r_cms s') = cs_trace (r_cms s) ++ EvPre path all :: (if dmem path (r_loaded s) then [EvPost path all] else []).
Proof.
  intros u d path persist kw s s' o r c Ht Hc Wd Hn Hi all Hcmp Hr H.
  assert (S := runner_update_spec _ _ _ _ _ _ _ _ H). cbv zeta in S.
  rewrite Ht, Hc, (checked_update_change c d persist kw) in S; auto.
  2:{ intros n Hin. apply Hn. cbn in *. tauto. }
  assert (Hd : dmem "d" kw = false) by (apply dmem_dget, Hn; cbn; auto). rewrite Hd in S.
  destruct S as (_ & _ & _ & _ & S). destruct (dget path (r_loaded s)) as [ob|] eqn:El.
  - assert (M : dmem path (r_loaded s) = true) by (apply dmem_In, In_dkeys_dget; eauto). rewrite M.
    destruct ob as [i f b kw0|i k calls]; cbn [applied_to] in S; [|rewrite Hi in S]; destruct S as (_ & -> & ->); auto.
  - assert (M : dmem path (r_loaded s) = false) by (now apply dmem_dget). rewrite M.
    destruct S as (-> & _ & ->). auto.
Qed.

(** After any other update: no hook. *)
Theorem C27_update_no_hooks_without_change : forall u d path persist kw s s' o r c,
  target (r_cms s) (path_parts path) = Some r -> current (r_cms s) r = Some c ->
  dwf (opt_dict d) -> no_clash ["config_"] kw ->
  comparable (c_vals c) (dupdate (opt_dict d) kw) -> ~ really_changes (c_vals c) (dupdate (opt_dict d) kw) ->
  runner_update u d (Some path) persist kw s = (s', o) ->
  o = Ok tt /\ cs_trace (r_cms s') = cs_trace (r_cms s).
Proof.
  intros u d path persist kw s s' o r c Ht Hc Wd Hn Hcmp Hr H.
  assert (S := runner_update_spec _ _ _ _ _ _ _ _ H). cbv zeta in S.
  rewrite Ht, Hc, (checked_update_nochange c d persist kw) in S; auto.
  destruct S as (_ & _ & _ & _ & -> & _ & ->). split; [reflexivity|apply app_nil_r].
Qed.

(** refresh *)
Theorem C27_refresh_hooks : forall u path s s' o c ref content,
  let p := path_parts path in
  cms_wf (r_cms s) -> target (r_cms s) p = Some (CItem p) ->
  current (r_cms s) (CItem p) = Some c -> c_file c = Some ref -> read_file (cs_disk (r_cms s)) ref = Ok content ->
  no_clash ["self"; "pyfileconf_persist"; "E"] (dupdate content (c_applied c)) -> (forall k a, u_init u k a = None) ->
  comparable (c_vals c) (dupdate content (c_applied c)) ->
  runner_refresh u path s = (s', o) ->
  o = Ok tt /\
  (really_changes (c_vals c) (dupdate content (c_applied c)) ->
     cs_trace (r_cms s') = cs_trace (r_cms s) ++ EvPre path (dupdate content (c_applied c)) ::
       (if dmem path (r_loaded s) then [EvPost path (dupdate content (c_applied c))] else [])) /\
  (~ really_changes (c_vals c) (dupdate content (c_applied c)) -> cs_trace (r_cms s') = cs_trace (r_cms s)).
Proof.
  intros u path s s' o c ref content p W Ht Hc Hr Hf Hn Hi Hcmp H.
  assert (Ho : own_values (r_cms s) p = Some (c_vals c)) by (rewrite own_values_current; now rewrite Hc).
  assert (Wf : dwf content) by (eapply (proj1 W); exact Hf). assert (Wc : cfg_wf c) by (eapply W; exact Hc).
  assert (S := runner_refresh_spec u path s s' o _ c ref content W H Ho Hc Hr Hf). fold p in S.
  destruct (checked_refresh_decides c content Wf Hcmp) as [A B].
  destruct (refresh_value c content "" Wf (proj2 Wc) Hn) as (c' & Ef & _). fold (refresh_updates c content) in *.
  assert (Hi' : forall ob cfg, exists ob', applied_to u ob cfg = Ok ob').
  { intros [|] cfg; cbn [applied_to]; [eauto|]. rewrite Hi. eauto. }
  destruct (wul_decides (c_vals c) (refresh_updates c content)) as [[_ D]|[_ D]]; [now apply dupdate_wf|exact Hcmp| |].
  - rewrite (A D), Ef in S. destruct S as (_ & _ & _ & S). destruct (dget path (r_loaded s)) as [ob|] eqn:El.
    + assert (M : dmem path (r_loaded s) = true) by (apply dmem_In, In_dkeys_dget; eauto). rewrite M.
      destruct S as (cfg & _ & _ & _ & S). destruct (Hi' ob (c_vals cfg)) as (ob' & Eo). rewrite Eo in S. destruct S as (_ & -> & ->).
      split; [reflexivity|]. split; [reflexivity|easy].
    + assert (M : dmem path (r_loaded s) = false) by (now apply dmem_dget). rewrite M. destruct S as (-> & _ & _ & ->).
      split; [reflexivity|]. split; [reflexivity|easy].
  - rewrite (B D) in S. destruct S as (_ & _ & _ & -> & _ & _ & ->). split; [reflexivity|]. split; [easy|intros _; apply app_nil_r].
Qed.

(** reset: the hooks see the values of the file *)
Theorem C27_reset_hooks : forall base u path s s' o c content,
  let p := path_parts path in
  target (r_cms s) p = Some (CItem p) -> current (r_cms s) (CItem p) = Some c ->
  read_file (cs_disk (r_cms s)) (item_file p) = Ok content -> dwf content ->
  no_clash ["self"; "config_"; "section_path_str"; "d_"; "d"] content -> (forall k a, u_init u k a = None) ->
  comparable (c_vals c) content ->
  runner_reset base u (Some path) false s = (s', o) ->
  o = Ok tt /\
  (really_changes (c_vals c) content ->
     cs_trace (r_cms s') = cs_trace (r_cms s) ++ EvPre path content :: (if dmem path (r_loaded s) then [EvPost path content] else [])) /\
  (~ really_changes (c_vals c) content -> cs_trace (r_cms s') = cs_trace (r_cms s)).
Proof.
  intros base u path s s' o c content p Ht Hc Hf Wf Hn Hi Hcmp H.
  assert (S := runner_reset_spec base u path s s' o c content H Ht Hc Hf).
  rewrite (value_as_kwargs_noclash content) in S.
  2:{ intros n Hin. apply Hn. cbn in *. tauto. }
  unfold would_update in S. cbn [opt_dict] in S. rewrite dupdate_nil_r in S.
  assert (Hp : post_reset_updates content = Ok content).
  { unfold post_reset_updates. now rewrite (Hn "d") by (cbn; tauto). }
  assert (Hi' : forall ob cfg, exists ob', applied_to u ob cfg = Ok ob').
  { intros [|] cfg; cbn [applied_to]; [eauto|]. rewrite Hi. eauto. }
  destruct (wul_decides (c_vals c) content Wf Hcmp) as [[E D]|[E D]]; rewrite E in S.
  - destruct S as (_ & _ & _ & S). destruct (dget path (r_loaded s)) as [ob|] eqn:El.
    + assert (M : dmem path (r_loaded s) = true) by (apply dmem_In, In_dkeys_dget; eauto). rewrite M.
      destruct (Hi' ob content) as (ob' & Eo). rewrite Eo, Hp in S. destruct S as (_ & -> & ->).
      split; [reflexivity|]. split; [reflexivity|easy].
    + assert (M : dmem path (r_loaded s) = false) by (now apply dmem_dget). rewrite M. destruct S as (-> & _ & ->).
      split; [reflexivity|]. split; [reflexivity|easy].
  - destruct S as (_ & _ & _ & -> & _ & ->). split; [reflexivity|]. split; [easy|auto].
Qed.

(** "post_config_changed is called after a config changes" fails for an item not loaded yet *)
Theorem C27_post_hook_after_every_change_refuted : exists base its u disk s op path,
  runner_load base disk 0 = Ok s /\
  own_values (r_cms s) (path_parts path) <> own_values (r_cms (rop_run base its u s op)) (path_parts path) /\
  (forall q d, ~ In (EvPost q d) (cs_trace (r_cms (rop_run base its u s op)))).
Proof.
  exists "base", ex_items, ex_user, ex_disk, ex_rs, (RUpdate None (Some "a.b.f") true [("k", VInt 5)]), "a.b.f".
  split; [reflexivity|]. split; [vm_compute; discriminate|]. intros q d. vm_compute. intros [X|[]]. discriminate.
Qed.

(** A keyword named [d] makes the update of a loaded item raise after it has taken effect, and the post hook is skipped. *)
Theorem C27_keyword_d_skips_the_post_hook_refuted : exists u path s s' v old k v',
  dget path (r_loaded s) <> None /\
  dget k v = Some v' /\ own_values (r_cms s) (path_parts path) = Some old /\
  runner_update u None (Some path) true v s = (s', Raise TypeError) /\
  (exists new, own_values (r_cms s') (path_parts path) = Some new /\ dget k new = Some v' /\ dget k old <> Some v') /\
  (forall q d, ~ In (EvPost q d) (cs_trace (r_cms s'))).
Proof.
  exists ex_user, "a.b.f", ex_got, (fst (runner_update ex_user None (Some "a.b.f") true [("k", VInt 5); ("d", VInt 1)] ex_got)),
    [("k", VInt 5); ("d", VInt 1)]. eexists. exists "k", (VInt 5).
  split; [vm_compute; discriminate|]. split; [reflexivity|]. split; [reflexivity|]. split; [vm_compute; reflexivity|].
  split.
  - eexists. split; [vm_compute; reflexivity|]. split; [reflexivity|]. vm_compute. discriminate.
  - intros q d. vm_compute. intros [X|[]]. discriminate.
Qed.

Example C27_ex : target (r_cms ex_got) (path_parts "a.b.f") = Some (CItem (path_parts "a.b.f")) /\
  dmem "a.b.f" (r_loaded ex_got) = true /\
  cs_trace (r_cms (fst (runner_update ex_user None (Some "a.b.f") true [("k", VInt 5)] ex_got)))
    = [EvPre "a.b.f" [("k", VInt 5)]; EvPost "a.b.f" [("k", VInt 5)]] /\
  cs_trace (r_cms (fst (runner_refresh ex_user "a.b.f" (fst (runner_update ex_user None (Some "a.b.f") false [("k", VInt 5)] ex_got)))))
    = [EvPre "a.b.f" [("k", VInt 5)]; EvPost "a.b.f" [("k", VInt 5)];
       EvPre "a.b.f" [("k", VInt 3); ("own", VInt 9); ("p", VInt 1); ("z", VInt 2)];
       EvPost "a.b.f" [("k", VInt 3); ("own", VInt 9); ("p", VInt 1); ("z", VInt 2)]].
Proof. vm_compute. repeat split; reflexivity. Qed.

Print Assumptions C18_same_object_forever.
Print Assumptions C18_get_gives_the_loaded_object.
Print Assumptions C18_run_calls_the_loaded_object.
Print Assumptions C18_first_access_binds_effective_config.
Print Assumptions C18_first_access_constructs_with_effective_config.
Print Assumptions C18_different_paths_different_objects.
Print Assumptions C18_reload_gives_new_objects.
Print Assumptions C19_update_reaches_loaded_function.
Print Assumptions C19_in_sync_only_named_arguments_change.
Print Assumptions C19_in_sync_after_first_access.
Print Assumptions C19_no_change_no_effect.
Print Assumptions C19_update_reaches_loaded_instance.
Print Assumptions C19_other_arguments_keep_their_value_refuted.
Print Assumptions C20_update_elsewhere_leaves_loaded.
Print Assumptions C20_section_update_seen_in_config_not_in_loaded.
Print Assumptions C20_section_update_reaches_loaded_items_refuted.
Print Assumptions C27_update_hooks_on_change.
Print Assumptions C27_update_no_hooks_without_change.
Print Assumptions C27_refresh_hooks.
Print Assumptions C27_reset_hooks.
Print Assumptions C27_post_hook_after_every_change_refuted.
Print Assumptions C27_keyword_d_skips_the_post_hook_refuted.
Print Assumptions C18_nothing_else_can_be_got.
