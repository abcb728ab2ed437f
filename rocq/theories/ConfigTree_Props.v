(** C10-C17 and C53: the config tree and the config manager. *)
From Verif Require Import ConfigTree_Model Config_Spec ConfigTree_Spec Config_Proofs ConfigTree_Proofs ConfigOps_Proofs ConfigLoad_Proofs ConfigTree_Example.
Local Open Scope string_scope.
Local Open Scope list_scope.

(* ------------------------------------------------------------------ *)
(** * C10 *)

(** Getting an item that can be read succeeds and gives every key the value of the strongest layer. *)
Theorem C10_precedence : forall st path own,
  cms_wf st -> own_values st (path_parts path) = Some own ->
  exists st' c', cm_get path st = (st', Ok (Some (CItem (path_parts path)))) /\
    see st' (path_parts path) = Some (SConf c') /\
    forall k, dget k (c_vals c') = effective st (path_parts path) own k.
Proof.
  intros st path own W H. destruct (cm_get path st) as [st' o] eqn:E. assert (S := cm_get_spec _ _ _ _ W E).
  set (p := path_parts path) in *. rewrite own_values_current in H.
  destruct (current st (CItem p)) as [c|] eqn:Ec; [|discriminate]. injection H as <-.
  assert (Ht : target st p = Some (CItem p)).
  { unfold target. cbn [current] in Ec. destruct (see st p) as [[]|]; try discriminate; reflexivity. }
  rewrite Ht, Ec in S. destruct S as (_ & _ & -> & c' & R & _ & _ & _ & V). exists st', c'.
  split; [reflexivity|]. split; [|exact V]. rewrite read_cref_see in R.
  destruct (see st' p) as [[]|]; try discriminate. now injection R as ->.
Qed.

(** an item whose own config is empty inherits nothing *)
Theorem C10_empty_inherits_nothing : forall st path,
  cms_wf st -> own_values st (path_parts path) = Some [] ->
  exists st' c', cm_get path st = (st', Ok (Some (CItem (path_parts path)))) /\
    see st' (path_parts path) = Some (SConf c') /\ c_vals c' = [].
Proof.
  intros st path W H. destruct (C10_precedence st path [] W H) as (st' & c' & E & S & V). exists st', c'.
  split; [exact E|]. split; [exact S|]. apply all_none_nil. exact V.
Qed.

(** the innermost section that sets a key decides, whatever outer sections, the project and the item say *)
Theorem C10_innermost_section_wins : forall st path own p k v,
  cms_wf st -> own_values st (path_parts path) = Some own -> own <> [] ->
  In p (prefixes (path_parts path)) -> dget k (section_values st p) = Some v ->
  dget k (c_vals (cs_local st)) = None ->
  (forall q, In q (prefixes (path_parts path)) -> length p < length q -> dget k (section_values st q) = None) ->
  exists st' c', cm_get path st = (st', Ok (Some (CItem (path_parts path)))) /\
    see st' (path_parts path) = Some (SConf c') /\ dget k (c_vals c') = Some v.
Proof.
  intros st path own p k v W Ho Hne Hin Hv Hl Hdeep.
  destruct (C10_precedence st path own W Ho) as (st' & c' & E & S & V). exists st', c'.
  split; [exact E|]. split; [exact S|]. rewrite V. unfold effective. destruct own; [easy|].
  unfold overriding_layers. cbn [app first_of]. rewrite Hl. rewrite <- app_assoc, first_of_app.
  now rewrite (first_of_prefixes st p k v Hv _ Hin Hdeep).
Qed.

(** every tree loaded from a config folder satisfies the side condition *)
Theorem C10_loaded_trees_qualify : forall base disk st,
  dir_ok disk -> disk_wf disk -> cm_load base disk = Ok st -> cms_wf st.
Proof. exact cm_load_wf. Qed.

Example C10_ex : exists st' c', cm_get "a.b.f" ex_st = (st', Ok (Some (CItem ["a"; "b"; "f"]))) /\
  see st' ["a"; "b"; "f"] = Some (SConf c') /\
  c_vals c' = [("k", VInt 3); ("own", VInt 9); ("p", VInt 1); ("z", VInt 2)] /\
  own_values ex_st (path_parts "a.b.f") = Some [("k", VInt 0); ("own", VInt 9)] /\ cms_wf ex_st.
Proof.
  exists (fst (cm_get "a.b.f" ex_st)). eexists.
  split; [vm_compute; reflexivity|]. split; [vm_compute; reflexivity|]. split; [reflexivity|]. split; [reflexivity|exact ex_st_wf].
Qed.
Example C10_ex_empty : own_values ex_st (path_parts "e") = Some [].
Proof. reflexivity. Qed.

(* ------------------------------------------------------------------ *)
(** * C11 *)

Theorem C11_second_get_returns_the_same : forall st path st1 r st2 o2,
  cms_wf st -> cm_get path st = (st1, Ok (Some r)) -> cm_get path st1 = (st2, o2) ->
  o2 = Ok (Some r) /\ exists c1 c2, read_cref st1 r = Some c1 /\ read_cref st2 r = Some c2 /\
    forall k, dget k (c_vals c2) = dget k (c_vals c1).
Proof.
  intros st path st1 r st2 o2 W E1 E2. assert (W1 := cm_get_wf st path W). rewrite E1 in W1. cbn in W1.
  assert (S1 := cm_get_spec _ _ _ _ W E1). assert (S2 := cm_get_spec _ _ _ _ W1 E2).
  destruct (target st (path_parts path)) as [r'|] eqn:Et; [|destruct S1 as (_ & e & S1); discriminate].
  destruct S1 as (T1 & _ & S1). destruct (current st r') as [c|] eqn:Ec; [|destruct S1 as (_ & [S1|[e S1]]); discriminate].
  destruct S1 as ([= <-] & c1 & R1 & _ & _ & _ & V1).
  assert (Et1 : target st1 (path_parts path) = Some r) by (rewrite (proj1 T1); exact Et). rewrite Et1 in S2.
  destruct S2 as (T2 & _ & S2). rewrite (read_current _ _ _ R1) in S2.
  destruct S2 as (-> & c2 & R2 & _ & _ & _ & V2). split; [reflexivity|]. exists c1, c2.
  split; [exact R1|]. split; [exact R2|]. intro k. rewrite V2.
  destruct (target_rpath _ _ _ Et) as [Hl _]. now apply (effective_again st st1 r c c1 k).
Qed.

(** getting an item does not change what is stored, or what would be returned, for any other path *)
Theorem C11_get_leaves_others : forall st path st1 o,
  cms_wf st -> target st (path_parts path) = Some (CItem (path_parts path)) -> cm_get path st = (st1, o) ->
  forall q, q <> path_parts path ->
    see st1 q = see st q /\
    (forall own k, effective st1 q own k = effective st q own k).
Proof.
  intros st path st1 o W Ht E. assert (S := cm_get_spec _ _ _ _ W E). rewrite Ht in S. destruct S as (T & _ & _).
  set (p := path_parts path) in *. intros q Hq.
  assert (Hsee : forall q0, q0 <> p -> see st1 q0 = see st q0).
  { intros q0 Hq0. apply T. intro X. destruct (target_rpath _ _ _ X) as (_ & [Y|(Y & c & Z)]); [now apply Hq0|].
    unfold target in X. rewrite Z in X. discriminate. }
  split; [now apply Hsee|]. intros own k. unfold effective. destruct own; [reflexivity|].
  assert (V : forall q0, section_values st1 q0 = section_values st q0).
  { intro q0. rewrite !section_values_read. now rewrite (touches_read _ _ _ (CSec q0) T ltac:(discriminate)). }
  unfold overriding_layers. rewrite (proj1 (proj2 (proj2 T))) by discriminate. rewrite V.
  erewrite map_ext by exact V. reflexivity.
Qed.

(** nevertheless reading is not pure: the inherited values are written into the item's own stored config *)
Theorem C11_get_is_pure_refuted : exists st path st1 st2 r p,
  cm_get path st = (st1, Ok (Some r)) /\ cm_get path st1 = (st2, Ok (Some r)) /\
  own_values st1 p <> own_values st p.
Proof.
  exists ex_st, "a.b.f", (fst (cm_get "a.b.f" ex_st)), (fst (cm_get "a.b.f" (fst (cm_get "a.b.f" ex_st)))).
  exists (CItem ["a"; "b"; "f"]), ["a"; "b"; "f"].
  split; [vm_compute; reflexivity|]. split; [vm_compute; reflexivity|]. vm_compute. discriminate.
Qed.
Example C11_ex : target ex_st (path_parts "a.b.f") = Some (CItem (path_parts "a.b.f")).
Proof. reflexivity. Qed.

(* ------------------------------------------------------------------ *)
(** * C12 *)

(** Getting a section path overwrites the section's own values with those of the enclosing sections. *)
Theorem C12_section_get_overwrites_own : forall st path n c,
  cms_wf st -> see st (path_parts path) = Some (SSec n (Some c)) ->
  exists st' n' c', cm_get path st = (st', Ok (Some (CSec (path_parts path)))) /\
    see st' (path_parts path) = Some (SSec n' (Some c')) /\
    forall k, dget k (c_vals c') = effective st (path_parts path) (c_vals c) k.
Proof.
  intros st path n c W H. destruct (cm_get path st) as [st' o] eqn:E. assert (S := cm_get_spec _ _ _ _ W E).
  set (p := path_parts path) in *. assert (Ht : target st p = Some (CSec p)) by (unfold target; now rewrite H).
  rewrite Ht in S. assert (Hc : current st (CSec p) = Some c) by (cbn [current]; now rewrite H). rewrite Hc in S.
  destruct S as (T & _ & -> & c' & R & _ & _ & _ & V).
  rewrite read_cref_see in R. destruct (see st' p) as [[| |n' own|]|] eqn:E'; try discriminate. subst own.
  exists st', n', c'. auto.
Qed.

(** so a key set both by the section and by an enclosing one loses the section's value for good: every item
    below that inherited it inherits the outer value from then on *)
Theorem C12_items_below_see_the_outer_value : forall st path n c outer k v,
  cms_wf st -> see st (path_parts path) = Some (SSec n (Some c)) -> c_vals c <> [] ->
  In outer (prefixes (path_parts path)) -> dget k (section_values st outer) = Some v ->
  dget k (c_vals (cs_local st)) = None ->
  (forall q, In q (prefixes (path_parts path)) -> length outer < length q -> dget k (section_values st q) = None) ->
  dget k (section_values (fst (cm_get path st)) (path_parts path)) = Some v.
Proof.
  intros st path n c outer k v W H Hne Hin Hv Hl Hd.
  destruct (C12_section_get_overwrites_own st path n c W H) as (st' & n' & c' & E & S & V).
  rewrite E. cbn [fst]. unfold section_values at 1. rewrite S, V. unfold effective. destruct (c_vals c); [easy|].
  unfold overriding_layers. cbn [app first_of]. rewrite Hl, <- app_assoc, first_of_app.
  now rewrite (first_of_prefixes st outer k v Hv _ Hin Hd).
Qed.

(** the rule "the innermost section wins" and "reading has no effect on other items" are both false *)
Theorem C12_innermost_wins_refuted : exists st path n c st' n' c' k,
  see st (path_parts path) = Some (SSec n (Some c)) /\
  cm_get path st = (st', Ok (Some (CSec (path_parts path)))) /\
  see st' (path_parts path) = Some (SSec n' (Some c')) /\
  dget k (c_vals c) = Some (VInt 3) /\ dget k (c_vals c') = Some (VInt 2).
Proof.
  exists ex_st, "a.b". do 2 eexists. exists (fst (cm_get "a.b" ex_st)). do 2 eexists. exists "k".
  split; [vm_compute; reflexivity|]. split; [vm_compute; reflexivity|]. split; [vm_compute; reflexivity|]. split; reflexivity.
Qed.

Theorem C12_reading_a_section_affects_items_refuted : exists st path item own k,
  own_values st item = Some own /\ own_values (fst (cm_get path st)) item = Some own /\
  effective st item own k = Some (VInt 3) /\ effective (fst (cm_get path st)) item own k = Some (VInt 2).
Proof. exists ex_st, "a.b", ["a"; "b"; "f"]. eexists. exists "k". repeat split; reflexivity. Qed.

Example C12_ex : exists n c, see ex_st (path_parts "a.b") = Some (SSec n (Some c)) /\ c_vals c <> [] /\
  In ["a"] (prefixes (path_parts "a.b")) /\ dget "k" (section_values ex_st ["a"]) = Some (VInt 2).
Proof. do 2 eexists. split; [reflexivity|]. split; [discriminate|]. split; [now left|reflexivity]. Qed.

(* ------------------------------------------------------------------ *)
(** * C13 *)

(** Whatever the outcome, an update only affects the config object its path addresses. *)
Theorem C13_update_is_local : forall d path persist kw st st' o,
  cm_update d (Some path) persist kw st = (st', o) ->
  forall q, target st q <> target st (path_parts path) ->
    see st' q = see st q /\ target st' q = target st q /\ cs_local st' = cs_local st /\ cs_disk st' = cs_disk st.
Proof.
  intros d path persist kw st st' o H q Hq. assert (S := cm_update_spec _ _ _ _ _ _ _ H). cbn [path_target] in S.
  destruct (target st (path_parts path)) as [r|] eqn:Et; [|now destruct S as [-> _]].
  destruct S as [T _]. destruct (target_rpath _ _ _ Et) as [Hl _]. destruct T as (T1 & T2 & T3 & T4). auto.
Qed.

(** and changes that one exactly as [cfg_checked_update] (C07) says *)
Theorem C13_update_effect : forall d path persist kw st st' o r c,
  cm_update d (Some path) persist kw st = (st', o) ->
  target st (path_parts path) = Some r -> current st r = Some c ->
  current st' r = match cfg_checked_update c d persist kw with Ok (c', _) => Some c' | Raise _ => Some c end /\
  o = match cfg_checked_update c d persist kw with Ok (_, b) => Ok (r, b) | Raise e => Raise e end.
Proof.
  intros d path persist kw st st' o r c H Ht Hc. assert (S := cm_update_spec _ _ _ _ _ _ _ H). cbn [path_target] in S.
  rewrite Ht, Hc in S. destruct S as [_ S]. destruct (cfg_checked_update c d persist kw) as [[c' b]|e].
  - destruct S as (-> & R & _). split; [now apply read_current|reflexivity].
  - destruct S as (-> & R). split; [now apply read_current|reflexivity].
Qed.

Theorem C13_refresh_is_local : forall path st st' o,
  cm_refresh path st = (st', o) ->
  forall q, target st q <> target st (path_parts path) ->
    see st' q = see st q /\ target st' q = target st q /\ cs_local st' = cs_local st /\ cs_disk st' = cs_disk st.
Proof.
  intros path st st' o H q Hq. assert (S := cm_refresh_spec _ _ _ _ H).
  destruct (target st (path_parts path)) as [r|] eqn:Et; [|now destruct S as [-> _]].
  destruct S as [T _]. destruct (target_rpath _ _ _ Et) as [Hl _]. destruct T as (T1 & T2 & T3 & T4). auto.
Qed.

(** a reset affects the path it is given and, for a section, what lies below *)
Theorem C13_reset_is_local : forall base path st st' o,
  cm_reset base (Some path) false st = (st', o) ->
  cs_local st' = cs_local st /\ cs_disk st' = cs_disk st /\
  forall q, (forall t, q <> path_parts path ++ t) -> see st' q = see st q.
Proof.
  intros base path st st' o H. set (p := path_parts path).
  destruct (see st p) as [[c|ref n|n own|c]|] eqn:Es.
  - assert (Ht : target st p = Some (CItem p)) by (unfold target; now rewrite Es).
    destruct (cm_reset_item st base path st' o Ht H) as [(T1 & T2 & T3 & T4) _].
    split; [now apply T3|]. split; [exact T4|]. intros q Hq. apply T2. unfold target. intro X.
    destruct (see st q) as [[]|]; try discriminate; injection X as ->; now apply (Hq []); rewrite app_nil_r.
  - assert (Ht : target st p = Some (CItem p)) by (unfold target; now rewrite Es).
    destruct (cm_reset_item st base path st' o Ht H) as [(T1 & T2 & T3 & T4) _].
    split; [now apply T3|]. split; [exact T4|]. intros q Hq. apply T2. unfold target. intro X.
    destruct (see st q) as [[]|]; try discriminate; injection X as ->; now apply (Hq []); rewrite app_nil_r.
  - assert (S := cm_reset_section st base path st' o n own Es H). destruct own as [c|]; [destruct S as [-> _]; auto|].
    destruct (from_files_at base (cs_disk st) (path_parts path)) as [s|e]; [|destruct S as [-> _]; auto].
    destruct S as (_ & (L & D & _) & F & _). auto.
  - destruct (cm_reset_self st base path st' o c Es H) as (L & D & F & _). split; [exact L|]. split; [exact D|].
    intros q Hq. apply F. intros ->. apply (Hq []). now rewrite app_nil_r.
  - destruct (cm_reset_none st base path false st' o Es eq_refl H) as [-> _]. auto.
Qed.

Example C13_ex : let '(st', o) := cm_update None (Some "a.b.f") true [("k", VInt 5)] ex_st in
  o = Ok (CItem ["a"; "b"; "f"], true) /\
  option_map c_vals (current st' (CItem ["a"; "b"; "f"])) = Some [("k", VInt 5); ("own", VInt 9)] /\
  target ex_st ["a"; "g"] <> target ex_st ["a"; "b"; "f"] /\ see st' ["a"; "g"] = see ex_st ["a"; "g"].
Proof. vm_compute. repeat split; discriminate. Qed.

(* ------------------------------------------------------------------ *)
(** * C14 *)

(** In every history the local config stays empty ... *)
Theorem C14_local_config_stays_empty : forall base disk st ops,
  cm_load base disk = Ok st -> cs_local (fold_left (cop_run base) ops st) = empty_config.
Proof.
  intros base disk st ops H. assert (H0 : cs_local st = empty_config).
  { unfold cm_load in H. destruct (from_files_at base disk []); [|discriminate]. now injection H as <-. }
  clear H. revert st H0. induction ops as [|op ops IH]; intros st H0; [exact H0|].
  cbn [fold_left]. apply IH. now apply cop_local.
Qed.

(** ... so an update without a path never changes anything, and says so by reporting no change *)
Theorem C14_update_without_path_does_nothing : forall base disk st ops d persist kw,
  cm_load base disk = Ok st ->
  let now := fold_left (cop_run base) ops st in
  cm_update d None persist kw now = (now, if dmem "config_" kw then Raise TypeError else Ok (CLocal, false)).
Proof.
  intros base disk st ops d persist kw H now. apply cm_update_local. now apply (C14_local_config_stays_empty base disk).
Qed.

Theorem C14_project_wide_update_works_refuted : exists base disk st st' k v,
  cm_load base disk = Ok st /\ cm_update (Some [(k, v)]) None true [] st = (st', Ok (CLocal, false)) /\
  dget k (c_vals (cs_local st')) = None.
Proof. exists "base", ex_disk, ex_st, ex_st, "k", (VInt 8). repeat split; reflexivity. Qed.

Example C14_ex : cs_local (fold_left (cop_run "base")
  [OpUpdate (Some [("k", VInt 8)]) None true []; OpGet "a.b.f"; OpUpdate None (Some "a.g") true [("k", VInt 1)]; OpReset None false] ex_st)
  = empty_config.
Proof. reflexivity. Qed.

(* ------------------------------------------------------------------ *)
(** * C15 *)

(** the file differs in some stored key: the stored config becomes the file's content *)
Theorem C15_reset_when_file_differs : forall base path st st' o c content,
  let p := path_parts path in
  target st p = Some (CItem p) -> current st (CItem p) = Some c ->
  read_file (cs_disk st) (item_file p) = Ok content -> dwf content ->
  no_clash ["self"; "config_"; "section_path_str"; "d_"] content ->
  comparable (c_vals c) content -> really_changes (c_vals c) content ->
  cm_reset base (Some path) false st = (st', o) ->
  o = Ok (DConf (loaded_config (last p "") (item_file p) content), true) /\
  see st' p = Some (SConf (loaded_config (last p "") (item_file p) content)).
Proof.
  intros base path st st' o c content p Ht Hc Hf Hw Hn Hcmp Hch H.
  destruct (cm_reset_item st base path st' o Ht H) as [_ S]. fold p in S.
  rewrite Hf, Hc, (value_as_kwargs_noclash _ Hn) in S. unfold would_update in S. cbn [opt_dict] in S.
  rewrite dupdate_nil_r in S. destruct (wul_comparable (c_vals c) content Hw Hcmp) as [[_ A] _]. rewrite (A Hch) in S.
  destruct S as (-> & R & _). split; [reflexivity|]. rewrite read_cref_see in R.
  destruct (see st' p) as [[]|]; try discriminate. now injection R as ->.
Qed.

(** otherwise nothing changes: keys that are not in the file and the record of updates survive *)
Theorem C15_reset_otherwise_keeps_everything : forall base path st st' o c content,
  let p := path_parts path in
  target st p = Some (CItem p) -> current st (CItem p) = Some c ->
  read_file (cs_disk st) (item_file p) = Ok content -> dwf content ->
  no_clash ["self"; "config_"; "section_path_str"; "d_"] content ->
  comparable (c_vals c) content -> ~ really_changes (c_vals c) content ->
  cm_reset base (Some path) false st = (st', o) ->
  o = Ok (DConf (loaded_config (last p "") (item_file p) content), false) /\ see st' p = Some (SConf c).
Proof.
  intros base path st st' o c content p Ht Hc Hf Hw Hn Hcmp Hch H.
  destruct (cm_reset_item st base path st' o Ht H) as [_ S]. fold p in S.
  rewrite Hf, Hc, (value_as_kwargs_noclash _ Hn) in S. unfold would_update in S. cbn [opt_dict] in S.
  rewrite dupdate_nil_r in S. destruct (wul_comparable (c_vals c) content Hw Hcmp) as [_ [_ A]]. rewrite (A Hch) in S.
  destruct S as (-> & R & _). split; [reflexivity|]. rewrite read_cref_see in R.
  destruct (see st' p) as [[]|]; try discriminate. now injection R as ->.
Qed.

(** in either case a key that was stored and is in the file ends up with the file's value, or one equal to it *)
Theorem C15_reset_restores_file_values : forall base path st st' o c content k old v,
  let p := path_parts path in
  target st p = Some (CItem p) -> current st (CItem p) = Some c ->
  read_file (cs_disk st) (item_file p) = Ok content -> dwf content ->
  no_clash ["self"; "config_"; "section_path_str"; "d_"] content -> comparable (c_vals c) content ->
  cm_reset base (Some path) false st = (st', o) ->
  dget k (c_vals c) = Some old -> dget k content = Some v ->
  exists c' w, see st' p = Some (SConf c') /\ dget k (c_vals c') = Some w /\ (w = v \/ values_are_equal w v = Ok true).
Proof.
  intros base path st st' o c content k old v p Ht Hc Hf Hw Hn Hcmp H Hold Hv.
  destruct (wul_comparable (c_vals c) content Hw Hcmp) as [[A1 A2] [B1 B2]].
  destruct (would_update_loop (c_vals c) content) as [[]|e] eqn:E.
  - destruct (C15_reset_when_file_differs base path st st' o c content Ht Hc Hf Hw Hn Hcmp (A1 eq_refl) H) as [_ S].
    do 2 eexists. split; [exact S|]. split; [exact Hv|]. now left.
  - destruct (C15_reset_otherwise_keeps_everything base path st st' o c content Ht Hc Hf Hw Hn Hcmp (B1 eq_refl) H) as [_ S].
    exists c, old. split; [exact S|]. split; [exact Hold|]. right.
    destruct (wul_false (c_vals c) content) as [C _]. apply (C E k v old); [now apply dget_Some_In|exact Hold].
  - exfalso. apply wul_raise in E as (b & k0 & v0 & o0 & a & -> & H1 & H2 & _).
    destruct (Hcmp k0 o0 v0 H1) as [bb Hb]; [|congruence]. apply In_dget; [exact Hw|]. apply in_app_iff. right. now left.
Qed.

(** "reset discards every runtime change" is false *)
Theorem C15_reset_discards_updates_refuted : exists base disk st ops path k v c,
  cm_load base disk = Ok st /\
  ops = [OpUpdate None (Some path) true [(k, v); ("k", VInt 5)]; OpUpdate None (Some path) true [("k", VInt 0)];
         OpReset (Some path) false] /\
  see (fold_left (cop_run base) ops st) (path_parts path) = Some (SConf c) /\
  dget k (c_vals c) = Some v /\ dget k (c_applied c) = Some v.
Proof.
  exists "base", ex_disk, ex_st. eexists. exists "a.b.f", "new", (VInt 1). eexists.
  split; [reflexivity|]. split; [reflexivity|]. vm_compute. repeat split; reflexivity.
Qed.

(** without a path the local config is emptied, its record of updates included, and nothing else changes *)
Theorem C15_reset_without_path : forall base ac st st' o,
  cm_reset base None ac st = (st', o) ->
  o = Ok (DConf empty_config, true) /\ c_vals (cs_local st') = [] /\ c_applied (cs_local st') = [] /\
  (forall p, see st' p = see st p) /\ cs_disk st' = cs_disk st /\ cs_trace st' = cs_trace st.
Proof. intros base ac st st' o [= <- <-]. repeat split. Qed.

(** a path that is not in the tree cannot be reset unless creating is allowed, and then its file is read *)
Theorem C15_reset_of_a_missing_item : forall base path st st' o,
  lookup_at st (path_parts path) = Raise KeyError ->
  (cm_reset base (Some path) false st = (st', o) -> st' = st /\ o = Raise KeyError) /\
  (cm_reset base (Some path) true st = (st', o) ->
   match read_file (cs_disk st) (item_file (path_parts path)) with
   | Raise e => st' = st /\ o = Raise e
   | Ok content => forall d b, o = Ok (d, b) ->
       d = DConf (loaded_config (last (path_parts path) "") (item_file (path_parts path)) content)
   end).
Proof.
  intros base path st st' o Hl. unfold cm_reset, bind, default_for. rewrite Hl. split.
  - intros [= <- <-]. auto.
  - destruct (read_file _ _) as [content|e]; [|intros [= <- <-]; auto].
    destruct (cm_set path _ true st) as [s1 [b'|e]]; intros [= <- <-]; [|discriminate]. now intros d b [= <- _].
Qed.

(** a section that has a config of its own cannot be reset at all: it is read from disk, and then TypeError is raised; one without
    is read again and replaced *)
Theorem C15_reset_of_a_section : forall base path st st' o n own,
  see st (path_parts path) = Some (SSec n own) -> cm_reset base (Some path) false st = (st', o) ->
  match own with
  | Some _ => st' = st /\ o = Raise (match from_files_at base (cs_disk st) (path_parts path) with Ok _ => TypeError | Raise e => e end)
  | None => match from_files_at base (cs_disk st) (path_parts path) with
            | Raise e => st' = st /\ o = Raise e
            | Ok s => o = Ok (DSec s, true) /\
                forall t, see st' (path_parts path ++ t) = see_l (get_nested sec_reserved s t)
            end
  end.
Proof.
  intros base path st st' o n own Hs H. assert (S := cm_reset_section st base path st' o n own Hs H).
  destruct own; [exact S|]. destruct (from_files_at base (cs_disk st) (path_parts path)); [|exact S].
  destruct S as (A & _ & _ & B). auto.
Qed.

Example C15_ex : let st1 := fst (cm_update None (Some "a.b.f") true [("k", VInt 5); ("n", VInt 1)] ex_st) in
  exists c content, target st1 (path_parts "a.b.f") = Some (CItem (path_parts "a.b.f")) /\
  current st1 (CItem (path_parts "a.b.f")) = Some c /\ read_file (cs_disk st1) (item_file (path_parts "a.b.f")) = Ok content /\
  dwf content /\ no_clash ["self"; "config_"; "section_path_str"; "d_"] content /\ comparable (c_vals c) content /\
  really_changes (c_vals c) content /\
  snd (cm_reset "base" (Some "a.b.f") false st1) =
    Ok (DConf (Cfg (Some "f") [("k", VInt 0); ("own", VInt 9)] [] (Some (["a"; "b"], "f.py"))), true).
Proof.
  do 2 eexists. split; [reflexivity|]. split; [reflexivity|]. split; [reflexivity|].
  split; [apply nodupb_ok; reflexivity|]. split; [|split; [|split; [|reflexivity]]].
  - intros n [<-|[<-|[<-|[<-|[]]]]]; reflexivity.
  - intros k o n H1 H2. cbn in *. destruct (k =? "k"); [injection H1 as <-; injection H2 as <-; now eexists|].
    destruct (k =? "own"); [injection H1 as <-; injection H2 as <-; now eexists|]. discriminate.
  - exists "k", (VInt 5), (VInt 0). repeat split; reflexivity.
Qed.
Example C15_ex_section : exists e, snd (cm_reset "base" (Some "a.b") false ex_st) = Raise e.
Proof. eexists. reflexivity. Qed.

(* ------------------------------------------------------------------ *)
(** * C16 *)

(** With allow_create the reset of an existing item leaves every stored config as it is (only an item
    that was not loaded yet gets loaded). *)
Theorem C16_reset_with_create_changes_nothing : forall base path st st' o r c,
  target st (path_parts path) = Some r -> (forall n own, see st (path_parts path) <> Some (SSec n own)) ->
  current st r = Some c ->
  cm_reset base (Some path) true st = (st', o) ->
  forall q, target st' q = target st q /\
    (forall r', target st q = Some r' -> current st' r' = current st r').
Proof.
  intros base path st st' o r c Ht Hns Hc H q.
  destruct (cm_reset_create st base path r c st' o Ht Hns Hc H) as [T R]. split; [apply T|].
  intros r' Hr'. destruct (cref_eq_dec r' r) as [->|Hne]; [congruence|]. now apply (touches_current r).
Qed.

(** although it may report success *)
Theorem C16_reset_with_create_restores_refuted : exists st path st' content c,
  read_file (cs_disk st) (item_file (path_parts path)) = Ok content /\
  cm_reset "base" (Some path) true st = (st', Ok (DConf (loaded_config "f" (item_file (path_parts path)) content), true)) /\
  see st' (path_parts path) = Some (SConf c) /\ dget "k" (c_vals c) = Some (VInt 5) /\ dget "k" content = Some (VInt 0).
Proof.
  exists (fst (cm_update None (Some "a.b.f") true [("k", VInt 5)] ex_st)), "a.b.f".
  exists (fst (cm_reset "base" (Some "a.b.f") true (fst (cm_update None (Some "a.b.f") true [("k", VInt 5)] ex_st)))). do 2 eexists.
  split; [vm_compute; reflexivity|]. split; [vm_compute; reflexivity|]. split; [vm_compute; reflexivity|]. split; reflexivity.
Qed.
Example C16_ex : exists c, target ex_st (path_parts "a.b.f") = Some (CItem (path_parts "a.b.f")) /\
  current ex_st (CItem (path_parts "a.b.f")) = Some c.
Proof. eexists. split; reflexivity. Qed.

(* ------------------------------------------------------------------ *)
(** * C17 and C53 *)

(** After loading, every path shows exactly what [disk_seen] reads off the files. *)
Theorem C53_loaded_tree_mirrors_folder : forall base disk st p,
  dir_ok disk -> cm_load base disk = Ok st -> see st p = disk_seen mgr_reserved base [] disk p.
Proof. intros. now apply load_seen. Qed.

(** one step: an item file in a folder with a section config is found under its name unless it has the
    folder's name (then the section's config is found) or a sub-folder has its name (then that is found) *)
Theorem C17_item_reachable_unless_named_like_section : forall name rel files subs x s v,
  dir_ok (Dir files subs) -> from_files name rel (Dir files subs) = Ok s ->
  dget (x ++ ".py")%string files = Some v -> x <> "section" -> mem x sec_reserved = false -> dget x subs = None ->
  get_nested sec_reserved s [x] =
    match folder_config name rel (Dir files subs) with
    | Some c => if String.eqb x name then Ok (LSelf c) else Ok (LFile (rel, (x ++ ".py")%string) x)
    | None => Ok (LFile (rel, (x ++ ".py")%string) x)
    end.
Proof.
  intros name rel files subs x s v Hok H Hx Hs Hm Hd.
  assert (S := from_files_seen [x] sec_reserved name rel _ s Hok H). cbn [disk_seen dir_subs dir_files] in S.
  rewrite Hm, Hd in S. assert (Hm' : dmem (x ++ ".py")%string files = true) by (unfold dmem; now rewrite Hx).
  rewrite Hm' in S. apply String.eqb_neq in Hs. rewrite Hs in S.
  replace (if hidden x then None else None) with (@None dir) in S by now destruct (hidden x).
  set (cfg := folder_config name rel (Dir files subs)) in *.
  assert (L : forall w, see_l (get_nested sec_reserved s [x]) = Some w -> (forall n own, w <> SSec n own) ->
     get_nested sec_reserved s [x] = match w with SConf c => Ok (LConf c) | SFile r n => Ok (LFile r n)
                                     | SSelf c => Ok (LSelf c) | SSec _ _ => Ok LOther end).
  { intros w Hw Hn. destruct (get_nested sec_reserved s [x]) as [[]|]; cbn in Hw; try discriminate; injection Hw as <-; try reflexivity.
    exfalso. now apply (Hn (s_name s0) (s_cfg s0)). }
  destruct cfg as [c|]; [destruct (String.eqb x name)|]; rewrite (L _ S) by (intros; discriminate); reflexivity.
Qed.

(** whatever else the folder contains (an item file, a sub-folder, both), the section's own name leads to
    the section's own config *)
Theorem C17_section_config_shadows : forall base disk st p n c,
  dir_ok disk -> cm_load base disk = Ok st ->
  see st p = Some (SSec n (Some c)) -> mem n mgr_reserved = false ->
  see st (p ++ [n]) = Some (SSelf c).
Proof.
  intros base disk st p n c Hok H Hs Hm. rewrite (load_seen base disk st p Hok H) in Hs.
  rewrite (load_seen base disk st _ Hok H).
  apply disk_seen_shadow; [exact Hs|]. destruct p; [exact Hm|now apply mem_mgr_sec].
Qed.

(** so a function named like its section gets the section's config instead of its own *)
Theorem C17_every_item_reachable_refuted : exists base disk st p content,
  dir_ok disk /\ cm_load base disk = Ok st /\ read_file disk (item_file p) = Ok content /\
  match cm_get (join "." p) st with
  | (st', Ok (Some r)) => exists c, read_cref st' r = Some c /\ dget "c" (c_vals c) = Some (VInt 5)
  | _ => False
  end /\ dget "c" content = Some (VInt 6).
Proof.
  exists "base", ex_disk, ex_st, ["s"; "s"]. eexists. split; [apply dir_check_ok; reflexivity|].
  split; [reflexivity|]. split; [reflexivity|]. split; [|reflexivity]. eexists. split; reflexivity.
Qed.

Example C17_ex : see ex_st ["s"; "s"] = Some (SSelf (loaded_config "s" (["s"], "section.py") [("c", VInt 5)])) /\
  see ex_st ["a"; "g"] = Some (SFile (["a"], "g.py") "g").
Proof. split; reflexivity. Qed.
Example C53_ex : see ex_st ["_skip"; "h"] = None /\ see ex_st ["x"] = Some (SSec "x" None) /\
  see ex_st ["x"; "y"] = Some (SFile (["x"], "y.py") "y").
Proof. repeat split; reflexivity. Qed.

(** A folder that does not exist reads as an empty section; so does resetting a section whose folder is gone. *)
Theorem C53_missing_folder_is_empty_section : forall base disk parts,
  find_dir disk parts = None -> from_files_at base disk parts = Ok (Sec (last parts base) None [] []).
Proof. intros base disk parts H. unfold from_files_at. now rewrite H. Qed.
Theorem C53_reset_of_a_removed_folder : forall base path st st' o n,
  see st (path_parts path) = Some (SSec n None) -> find_dir (cs_disk st) (path_parts path) = None ->
  cm_reset base (Some path) false st = (st', o) ->
  o = Ok (DSec (Sec (last (path_parts path) base) None [] []), true) /\
  forall x t, see st' (path_parts path ++ x :: t) = None.
Proof.
  intros base path st st' o n Hs Hd H. assert (S := C15_reset_of_a_section base path st st' o n None Hs H).
  cbn beta iota in S. rewrite (C53_missing_folder_is_empty_section _ _ _ Hd) in S. destruct S as [-> S].
  split; [reflexivity|]. intros x t. rewrite S. cbn [get_nested]. unfold sec_getattr.
  destruct (mem x sec_reserved); [destruct t; reflexivity|reflexivity].
Qed.

(** section.py is executed when the tree is read, and an exception from it stops loading, except ValueError:
    a section.py that raises ValueError is silently ignored *)
Theorem C53_value_error_in_section_file_is_swallowed : forall name rel files subs,
  dget "section.py" files = Some (Raise ValueError) ->
  folder_config name rel (Dir files subs) = None /\
  forall s, from_files name rel (Dir files subs) = Ok s -> s_cfg s = None.
Proof.
  intros name rel files subs H. assert (F : folder_config name rel (Dir files subs) = None).
  { unfold folder_config. cbn [dir_files]. now rewrite H. }
  split; [exact F|]. intros s Hs. apply from_files_inv in Hs as (secs & _ & ->). exact F.
Qed.
Example C53_ex_value_error : exists s, from_files "q" [] (Dir [("section.py", Raise ValueError); ("f.py", Ok [])] []) = Ok s
  /\ from_files "q" [] (Dir [("section.py", Raise TypeError)] []) = Raise TypeError.
Proof. eexists. split; reflexivity. Qed.

Print Assumptions C10_precedence.
Print Assumptions C10_innermost_section_wins.
Print Assumptions C11_second_get_returns_the_same.
Print Assumptions C11_get_leaves_others.
Print Assumptions C12_section_get_overwrites_own.
Print Assumptions C12_items_below_see_the_outer_value.
Print Assumptions C13_update_is_local.
Print Assumptions C13_reset_is_local.
Print Assumptions C14_local_config_stays_empty.
Print Assumptions C15_reset_restores_file_values.
Print Assumptions C16_reset_with_create_changes_nothing.
Print Assumptions C17_section_config_shadows.
Print Assumptions C53_loaded_tree_mirrors_folder.
Print Assumptions C15_reset_without_path.
Print Assumptions C15_reset_of_a_missing_item.
Print Assumptions C53_missing_folder_is_empty_section.
Print Assumptions C53_reset_of_a_removed_folder.
