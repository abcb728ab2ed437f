From Verif Require Import ConfigTree_Model Config_Spec ConfigTree_Spec Config_Proofs ConfigTree_Proofs ConfigOps_Proofs.
Local Open Scope list_scope.
Local Open Scope monad_scope.

(* ------------------------------------------------------------------ *)
(** * Well-formedness *)

Lemma touches_current r st st' r' : touches r st st' -> r' <> r -> current st' r' = current st r'.
Proof.
  intros (A1 & A2 & A3 & A4) Hne. destruct r' as [|p|p]; cbn [current].
  - f_equal. apply A3. congruence.
  - specialize (A1 p). specialize (A2 p). rewrite A4. unfold target in A1, A2.
    destruct (see st p) as [[]|], (see st' p) as [[]|]; try discriminate; try reflexivity;
      (specialize (A2 ltac:(congruence)); try congruence; inversion A2; subst; reflexivity).
  - specialize (A1 p). specialize (A2 p). unfold target in A1, A2.
    destruct (see st p) as [[]|], (see st' p) as [[]|]; try discriminate; try reflexivity;
      (specialize (A2 ltac:(congruence)); try congruence; inversion A2; subst; reflexivity).
Qed.

Lemma cms_wf_touches st st' r : cms_wf st -> touches r st st' ->
  (forall c, current st' r = Some c -> cfg_wf c) -> cms_wf st'.
Proof.
  intros [D W] T H. split.
  - destruct T as (_ & _ & _ & ->). exact D.
  - intros r' c Hc. destruct (cref_eq_dec r' r) as [->|Hne]; [now apply H|].
    rewrite (touches_current _ _ _ _ T Hne) in Hc. now apply (W r').
Qed.

Lemma cms_wf_touches_read st st' r c : cms_wf st -> touches r st st' -> read_cref st' r = Some c -> cfg_wf c -> cms_wf st'.
Proof.
  intros W T R Hc. eapply cms_wf_touches; [exact W|exact T|]. intros c' H. apply read_current in R. congruence.
Qed.

Lemma cfg_update_wf c d p kw : cfg_wf c -> cfg_wf (cfg_update c d p kw).
Proof. intros [A B]. split; cbn; [|destruct p]; repeat apply dupdate_wf; assumption. Qed.

Lemma checked_update_wf c d p kw c' b : cfg_wf c -> cfg_checked_update c d p kw = Ok (c', b) -> cfg_wf c'.
Proof.
  intros W H. apply checked_update_inv in H as [[_ ->]|[_ ->]]; [exact W|]. now apply cfg_update_wf.
Qed.

Lemma cfg_refresh_wf c content c' u : cfg_wf c -> cfg_refresh c content = Ok (c', u) -> cfg_wf c'.
Proof.
  intros W. unfold cfg_refresh. destruct (_ || _); [discriminate|].
  destruct (dget "E" _) as [[]|]; try discriminate; intros [= <- _]; now apply cfg_update_wf.
Qed.

Lemma cm_update_wf st d path persist kw : cms_wf st -> cms_wf (fst (cm_update d path persist kw st)).
Proof.
  intro W. destruct (cm_update d path persist kw st) as [st' o] eqn:E. cbn.
  assert (S := cm_update_spec _ _ _ _ _ _ _ E). destruct (path_target st path) as [r|]; [|now destruct S as [-> _]].
  destruct S as [T S]. destruct (current st r) as [c|] eqn:Ec; [|now destruct S as [-> _]].
  assert (Wc : cfg_wf c) by (eapply W; exact Ec).
  destruct (cfg_checked_update c d persist kw) as [[c' b]|e] eqn:Eu.
  - destruct S as (_ & R & _). eapply cms_wf_touches_read; eauto using checked_update_wf.
  - destruct S as (_ & R). eapply cms_wf_touches_read; eauto.
Qed.

Lemma cm_refresh_wf st path : cms_wf st -> cms_wf (fst (cm_refresh path st)).
Proof.
  intro W. destruct (cm_refresh path st) as [st' o] eqn:E. cbn.
  assert (S := cm_refresh_spec _ _ _ _ E). destruct (target st (path_parts path)) as [r|]; [|now destruct S as [-> _]].
  destruct S as [T S]. destruct (current st r) as [c|] eqn:Ec; [|now destruct S as [-> _]].
  assert (Wc : cfg_wf c) by (eapply W; exact Ec).
  destruct (c_file c) as [ref|]; [|destruct S as [_ R]; eapply cms_wf_touches_read; eauto].
  destruct (read_file _ ref) as [content|e]; [|destruct S as [_ R]; eapply cms_wf_touches_read; eauto].
  destruct (cfg_checked_refresh c content) as [[[c' b] u]|e] eqn:Er; [|destruct S as [_ R]; eapply cms_wf_touches_read; eauto].
  destruct S as (_ & R & _). eapply cms_wf_touches_read; eauto.
  apply checked_refresh_inv in Er as [(_ & -> & _)|(_ & Er)]; [exact Wc|]. eapply cfg_refresh_wf; eassumption.
Qed.

Lemma cm_get_wf st path : cms_wf st -> cms_wf (fst (cm_get path st)).
Proof.
  intro W. destruct (cm_get path st) as [st' o] eqn:E. cbn.
  assert (S := cm_get_spec _ _ _ _ W E). destruct (target st (path_parts path)) as [r|]; [|now destruct S as [-> _]].
  destruct S as (T & _ & S). destruct (current st r) as [c|]; [|now destruct S as [-> _]].
  destruct S as (_ & c' & R & Wc & _). eapply cms_wf_touches_read; eauto.
Qed.

(* ------------------------------------------------------------------ *)
(** * pop *)

Lemma cm_pop_spec st key path st' o : cm_pop key path st = (st', o) ->
  match path_target st path with
  | None => st' = st /\ exists e, o = Raise e
  | Some r => touches r st st' /\ cs_trace st' = cs_trace st /\
      match current st r with
      | None => st' = st /\ exists e, o = Raise e
      | Some c => match dget key (c_vals c) with
                  | None => o = Raise KeyError /\ read_cref st' r = Some c
                  | Some v => o = Ok v /\ read_cref st' r = Some (Cfg (c_name c) (ddel key (c_vals c)) (c_applied c) (c_file c))
                  end
      end
  end.
Proof.
  intro H. unfold cm_pop, bind in H. destruct (path_target st path) as [r|] eqn:Et.
  - destruct (current st r) as [c|] eqn:Ec.
    + destruct (stored_current st path r c Et Ec) as [s1 Es]. rewrite Es in H.
      destruct (stored_spec _ _ _ _ Es) as (_ & T1 & L1 & Tr1 & c' & C1 & C2). rewrite Ec in C1. injection C1 as <-.
      rewrite (deref_read _ _ _ C2) in H. destruct (dget key (c_vals c)) as [v|]; [|injection H as <- <-; auto].
      destruct (write_spec s1 r (Cfg (c_name c) (ddel key (c_vals c)) (c_applied c) (c_file c)) c C2 eq_refl) as (s3 & E3 & T3 & R3 & Tr3).
      rewrite E3 in H. injection H as <- <-. split; [eapply touches_trans; eassumption|]. split; [congruence|auto].
    + destruct (stored_no_current st path r Et Ec) as (o' & E & [-> |[e ->]]); rewrite E in H;
        injection H as <- <-; (split; [apply touches_refl|eauto]).
  - destruct path as [p|]; [|discriminate]. destruct (stored_no_target st p Et) as [e E]. rewrite E in H.
    injection H as <- <-. eauto.
Qed.

(* ------------------------------------------------------------------ *)
(** * The local config *)

Lemma would_update_empty d : would_update empty_config (Some d) [] = Ok false.
Proof.
  unfold would_update. cbn [opt_dict]. rewrite dupdate_nil_r. cbn [empty_config c_vals].
  induction d as [|[k v] d IH]; [reflexivity|exact IH].
Qed.

Lemma cm_update_local st d persist kw : cs_local st = empty_config ->
  cm_update d None persist kw st = (st, if dmem "config_" kw then Raise TypeError else Ok (CLocal, false)).
Proof.
  intro H. unfold cm_update, bind. cbn [stored_config]. unfold ret, deref. cbn [read_cref]. rewrite H.
  destruct (dmem "config_" kw); [reflexivity|]. unfold lift. now rewrite would_update_empty.
Qed.

Lemma set_item_local p v st : cs_local (fst (set_item p v st)) = cs_local st.
Proof. unfold set_item. now destruct (set_nested _ _ _ _). Qed.

Lemma gf_local p st : cs_local (fst (get_func_or_section_configs p st)) = cs_local st.
Proof.
  destruct (get_func_or_section_configs p st) as [s o] eqn:E. assert (G := gf_spec _ _ _ _ E). cbn.
  destruct o as [[r|]|]; [apply G|now destruct G as [-> _]|now subst].
Qed.

Lemma set_config_local p v b st : cs_local (fst (set_func_or_section_config p v b st)) = cs_local st.
Proof.
  unfold set_func_or_section_config. destruct b; [|apply set_item_local]. now destruct (append_nested _ _ _ _).
Qed.

Lemma cm_set_local path v b st : cs_local (fst (cm_set path v b st)) = cs_local st.
Proof.
  unfold cm_set. assert (G := gf_local (path_parts path) st).
  destruct (get_func_or_section_configs (path_parts path) st) as [s1 o1]. cbn in G.
  assert (B : forall st0, cs_local st0 = cs_local st ->
     cs_local (fst ((set_func_or_section_config (path_parts path) v b ;;; ret true) st0)) = cs_local st).
  { intros st0 H0. unfold bind. assert (X := set_config_local (path_parts path) v b st0).
    destruct (set_func_or_section_config (path_parts path) v b st0) as [s2 o2]. destruct o2; cbn in *; congruence. }
  destruct o1 as [[r|]|e].
  - destruct v as [value|s]; [|exact G]. unfold bind at 1, deref. destruct (read_cref s1 r) as [c|]; [|exact G].
    unfold bind at 1, lift. destruct (value_as_kwargs (c_vals value)) as [u|]; [|exact G].
    unfold bind at 1. destruct (would_update c (Some u) []) as [[]|]; [|exact G|exact G].
    unfold bind at 1, emit, modify. apply B. exact G.
  - now apply B.
  - destruct e; try exact G. now apply B.
Qed.

Lemma cop_local base st op : cs_local st = empty_config -> cs_local (cop_run base st op) = empty_config.
Proof.
  intro H. destruct op as [d path persist kw|path|path ac|path|key path]; cbn [cop_run].
  - destruct path as [p|].
    + destruct (cm_update d (Some p) persist kw st) as [st' o] eqn:E. cbn.
      assert (S := cm_update_spec _ _ _ _ _ _ _ E). destruct (path_target st (Some p)) as [r|] eqn:Et; [|now destruct S as [-> _]].
      destruct S as [T _]. cbn in Et. destruct (target_rpath _ _ _ Et) as [Hl _]. rewrite (proj1 (proj2 (proj2 T)) Hl). exact H.
    + now rewrite cm_update_local.
  - destruct (cm_refresh path st) as [st' o] eqn:E. cbn.
    assert (S := cm_refresh_spec _ _ _ _ E). destruct (target st (path_parts path)) as [r|] eqn:Et; [|now destruct S as [-> _]].
    destruct S as [T _]. destruct (target_rpath _ _ _ Et) as [Hl _]. rewrite (proj1 (proj2 (proj2 T)) Hl). exact H.
  - destruct path as [p|]; [|reflexivity]. unfold cm_reset, bind at 1.
    destruct (default_for base st (path_parts p) ac) as [v|e]; [|exact H]. unfold bind.
    assert (X := cm_set_local p v ac st). destruct (cm_set p v ac st) as [s1 o1]. destruct o1; cbn in *; congruence.
  - (* get: only well-formedness-free facts are needed *)
    unfold cm_get, bind at 1. assert (G := gf_local (path_parts path) st).
    destruct (get_func_or_section_configs (path_parts path) st) as [s1 o1] eqn:E1. cbn in G.
    assert (G1 := gf_spec _ _ _ _ E1). destruct o1 as [cfg|e]; [|cbn; congruence].
    assert (Hv : exists v, see s1 (path_parts path) = Some v).
    { destruct (see s1 (path_parts path)) as [v|] eqn:Ev; [eauto|]. exfalso. destruct cfg as [r|].
      - destruct G1 as (Gt & T & _). apply target_none_current in Ev. destruct T as (T & _). rewrite T in Ev. congruence.
      - destruct G1 as (-> & n & Hn). congruence. }
    destruct Hv as [v Hv]. change (cs_local (fst (get_tail (path_parts path) cfg s1)) = empty_config).
    destruct (get_tail_chain s1 (path_parts path) v cfg Hv) as (own & -> & _).
    destruct cfg as [r|]; [|cbn; congruence]. destruct G1 as (_ & _ & _ & _ & Hl & c & _ & R1).
    unfold bind at 1. rewrite (deref_read _ _ _ R1). destruct (c_vals c) as [|kv vs]; [cbn; congruence|].
    match goal with |- context [iterM _ ?ch] => destruct (chain_spec s1 r ch c R1) as (s2 & E2 & T2 & _ & R2) end.
    unfold bind at 1. rewrite E2. destruct (update_from_spec s2 r (Some CLocal) _ R2) as (s3 & E3 & T3 & _).
    unfold bind. rewrite E3. cbn. rewrite (proj1 (proj2 (proj2 T3)) Hl), (proj1 (proj2 (proj2 T2)) Hl). congruence.
  - destruct (cm_pop key path st) as [st' o] eqn:E. cbn. assert (S := cm_pop_spec _ _ _ _ _ E).
    destruct path as [p|].
    + destruct (path_target st (Some p)) as [r|] eqn:Et; [|now destruct S as [-> _]].
      destruct S as [T _]. cbn in Et. destruct (target_rpath _ _ _ Et) as [Hl _]. rewrite (proj1 (proj2 (proj2 T)) Hl). exact H.
    + cbn [path_target] in S. destruct S as (_ & _ & S). cbn [current] in S. rewrite H in S. cbn in S.
      destruct S as [_ S]. now injection S.
Qed.

(* ------------------------------------------------------------------ *)
(** * reset(allow_create=True) *)

Lemma last_named_app x a b : last_named x (a ++ b) = match last_named x b with Some n => Some n | None => last_named x a end.
Proof.
  induction a as [|n a IH]; cbn; [now destruct (last_named x b)|]. rewrite IH.
  destruct (last_named x b); reflexivity.
Qed.

Lemma get_nested_ext r s s' q : s_name s' = s_name s -> s_cfg s' = s_cfg s ->
  (forall y, sec_getattr r s' y = sec_getattr r s y) ->
  see_l (get_nested r s' q) = see_l (get_nested r s q).
Proof. intros Hn Hc H. destruct q as [|y q]; cbn [get_nested]; [cbn; now rewrite Hn, Hc|]. now rewrite H. Qed.

Lemma append_nested_cons r s x y p v :
  append_nested r s (x :: y :: p) v =
  match sec_getattr r s x with
  | Raise KeyError =>
      match append_nested sec_reserved (Sec x None [] []) (y :: p) v with
      | Ok s'' => Ok (sec_append s (NSec s''))
      | Raise e => Raise e
      end
  | Raise e => Raise e
  | Ok (LSec s') => match append_nested sec_reserved s' (y :: p) v with
                    | Ok s'' => Ok (replace_child s x s'')
                    | Raise e => Raise e
                    end
  | Ok _ => Raise AttributeError
  end.
Proof. reflexivity. Qed.

(** after a path has been addressed, an entry appended under the same name stays hidden *)
Lemma append_hidden r s p v s1 v' : set_nested r s p v = Ok s1 -> node_name v' = Some (last p "") ->
  exists s2, append_nested r s1 p v' = Ok s2 /\ s_name s2 = s_name s1 /\ s_cfg s2 = s_cfg s1 /\
    forall q, see_l (get_nested r s2 q) = see_l (get_nested r s1 q).
Proof.
  revert r s s1. induction p as [|x p IH]; intros r s s1 H Hn; [discriminate|]. destruct p as [|y p].
  - cbn in H. injection H as <-. cbn [append_nested]. eexists. split; [reflexivity|]. split; [reflexivity|].
    split; [reflexivity|]. intro q. apply get_nested_ext; [reflexivity|reflexivity|]. intro z.
    unfold sec_getattr, sec_append, own_config_named. cbn [s_attrs s_cfg s_items set_attr s_name].
    destruct (mem z r); [reflexivity|]. destruct (String.eqb z x) eqn:E.
    + apply String.eqb_eq in E. subst z. rewrite dget_dset_eq. reflexivity.
    + apply String.eqb_neq in E. rewrite dget_dset_neq by exact E.
      rewrite last_named_app. cbn [last_named]. rewrite (has_name_unique x z v').
      * reflexivity.
      * apply has_name_iff. exact Hn.
      * exact E.
  - rewrite set_nested_cons in H. destruct (sec_getattr r s x) as [[c|c|ref n|s'|]|] eqn:Ex; try discriminate.
    destruct (set_nested sec_reserved s' (y :: p) v) as [s''|] eqn:Es; [|discriminate]. injection H as <-.
    destruct (set_nested_shape _ _ _ _ _ Es) as [N1 _].
    assert (Hx : sec_getattr r (replace_child s x s'') x = Ok (LSec s'')).
    { rewrite (sec_getattr_replace_child r s x s' s'' x Ex N1). now rewrite String.eqb_refl. }
    assert (Hn' : node_name v' = Some (last (y :: p) "")) by exact Hn.
    destruct (IH _ _ _ Es Hn') as (s3 & E3 & N3 & C3 & S3).
    rewrite append_nested_cons.
    rewrite Hx, E3. eexists. split; [reflexivity|].
    destruct (replace_child_shape (replace_child s x s'') x s3) as [Na Ca].
    split; [exact Na|]. split; [exact Ca|]. intro q. destruct q as [|z q].
    { cbn. now rewrite Na, Ca. }
    cbn [get_nested]. rewrite (sec_getattr_replace_child r _ x s'' s3 z Hx N3).
    destruct (String.eqb z x) eqn:Ez; [|reflexivity].
    apply String.eqb_eq in Ez. subst z. rewrite Hx. apply S3.
Qed.

(** addressing an item sets the attribute for it *)
Lemma gf_item_set p st s1 r : (forall n own, see st p <> Some (SSec n own)) ->
  get_func_or_section_configs p st = (s1, Ok (Some r)) ->
  exists v, set_nested mgr_reserved (cs_root st) p v = Ok (cs_root s1).
Proof.
  intros Hs H. unfold get_func_or_section_configs in H. unfold see in Hs.
  destruct (lookup_at st p) as [[c|c|ref n|s0|]|] eqn:E; try discriminate.
  - unfold bind, set_item in H. destruct (set_nested _ _ p (NConf c)) as [rt|] eqn:Er; [|discriminate].
    injection H as <- _. exists (NConf c). exact Er.
  - unfold bind, set_item in H. destruct (set_nested _ _ p NSelf) as [rt|] eqn:Er; [|discriminate].
    injection H as <- _. exists NSelf. exact Er.
  - unfold bind, lift in H. destruct (read_file (cs_disk st) ref) as [content|]; [|discriminate]. unfold set_item in H.
    destruct (set_nested _ _ p _) as [rt|] eqn:Er; [|discriminate]. injection H as <- _. eexists. exact Er.
  - exfalso. now apply (Hs (s_name s0) (s_cfg s0)).
Qed.

Lemma cm_reset_create st base path r c st' o :
  let p := path_parts path in
  target st p = Some r -> (forall n own, see st p <> Some (SSec n own)) -> current st r = Some c ->
  cm_reset base (Some path) true st = (st', o) ->
  touches r st st' /\ current st' r = Some c.
Proof.
  intros p Ht Hns Hc H.
  destruct (stored_current st (Some path) r c Ht Hc) as [s1 E1]. cbn [stored_config] in E1. fold p in E1.
  assert (G := gf_spec _ _ _ _ E1). destruct G as (_ & T1 & L1 & Tr1 & _ & c1 & Gc & R1).
  rewrite Hc in Gc. injection Gc as <-.
  assert (R0 : forall st0, (forall q, see st0 q = see s1 q) -> cs_local st0 = cs_local s1 -> cs_disk st0 = cs_disk s1 ->
     touches r st st0 /\ current st0 r = Some c).
  { intros st0 S0 L0 D0. split.
    - eapply touches_trans; [exact T1|]. split; [now apply target_same|]. split; [intros; apply S0|auto].
    - apply read_current. rewrite read_cref_see in *. destruct r; rewrite ?S0, ?L0; exact R1. }
  unfold cm_reset, bind at 1 in H. fold p in H.
  assert (Hd : default_for base st p true = match read_file (cs_disk st) (item_file p) with
               | Ok content => Ok (DConf (item_default p content)) | Raise e => Raise e end).
  { unfold default_for, item_default. unfold target, see in Ht. unfold see in Hns.
    destruct (lookup_at st p) as [[c0|c0|ref0 n0|s0|]|] eqn:El; try reflexivity; try discriminate.
    exfalso. now apply (Hns (s_name s0) (s_cfg s0)). }
  rewrite Hd in H.
  destruct (read_file (cs_disk st) (item_file p)) as [content|e] eqn:Ef.
  2:{ injection H as <- _. split; [apply touches_refl|exact Hc]. }
  unfold bind at 1, cm_set in H. fold p in H. rewrite E1 in H.
  unfold bind at 1 in H. rewrite (deref_read _ _ _ R1) in H. unfold bind at 1, lift in H.
  destruct (value_as_kwargs _) as [u|]; [|injection H as <- _; now apply R0].
  unfold bind at 1 in H. destruct (would_update c (Some u) []) as [[]|]; [|injection H as <- _; now apply R0|injection H as <- _; now apply R0].
  unfold bind at 1, emit, modify in H. unfold bind, set_func_or_section_config in H. cbn [cs_root default_node] in H.
  destruct (gf_item_set p st s1 r Hns E1) as [v Ev].
  destruct (append_hidden _ _ _ _ _ (NConf (item_default p content)) Ev eq_refl) as (s2 & E2 & _ & _ & S2).
  rewrite E2 in H. injection H as <- _. apply R0; [|reflexivity|reflexivity].
  intro q. rewrite !see_eq. apply S2.
Qed.

(* ------------------------------------------------------------------ *)
(** * Loading from files *)

Definition sub_sections (rel : list string) : list (string * dir) -> res (list node) :=
  fix go (l : list (string * dir)) : res (list node) :=
    match l with
    | [] => Ok []
    | (n, d') :: rest =>
        if hidden n then go rest
        else match from_files n (rel ++ [n]) d' with
             | Raise e => Raise e
             | Ok s => match go rest with
                       | Raise e => Raise e
                       | Ok l' => Ok (NSec s :: l')
                       end
             end
    end.

Definition file_nodes (rel : list string) (files : list (string * res (dict pyval))) : list node :=
  map (fun f => NFile (rel, f) (strip_py f))
      (filter (fun f => negb (String.eqb f "section.py")) (filter (fun f => endswith f ".py") (map fst files))).

Lemma mem_In x l : mem x l = true <-> In x l.
Proof.
  unfold mem. rewrite existsb_exists. split.
  - intros (y & Hy & E). apply String.eqb_eq in E. now subst.
  - intro H. exists x. split; [exact H|apply String.eqb_refl].
Qed.

Lemma from_files_inv name rel d s : from_files name rel d = Ok s ->
  exists secs, sub_sections rel (dir_subs d) = Ok secs /\
    s = Sec name (folder_config name rel d) [] (file_nodes rel (dir_files d) ++ secs).
Proof.
  destruct d as [files subs]. intro H. cbn [from_files] in H.
  change ((fix go (l : list (string * dir)) : res (list node) :=
    match l with
    | [] => Ok []
    | (n, d') :: rest =>
        if hidden n then go rest
        else match from_files n (rel ++ [n]) d' with
             | Raise e => Raise e
             | Ok s => match go rest with
                       | Raise e => Raise e
                       | Ok l' => Ok (NSec s :: l')
                       end
             end
    end) subs) with (sub_sections rel subs) in H.
  assert (C : forall cfg, (if mem "section.py" (filter (fun f => endswith f ".py") (map fst files))
        then match read_file (Dir files subs) ([], "section.py") with
             | Ok content => Ok (Some (loaded_config name (rel, "section.py") content))
             | Raise ValueError => Ok None
             | Raise e => Raise e
             end
        else Ok None) = Ok cfg -> cfg = folder_config name rel (Dir files subs)).
  { intros cfg Hc. unfold folder_config. cbn [dir_files].
    destruct (mem "section.py" _) eqn:Em.
    - unfold read_file in Hc. cbn [find_dir fst snd dir_files] in Hc. cbv beta iota in Hc.
      destruct (dget "section.py" files) as [[content|e]|]; [now injection Hc as <-| |discriminate].
      destruct e; try discriminate. now injection Hc as <-.
    - injection Hc as <-. destruct (dget "section.py" files) as [r|] eqn:Eg; [|reflexivity].
      exfalso. assert (X : mem "section.py" (filter (fun f => endswith f ".py") (map fst files)) = true); [|congruence].
      apply mem_In. apply filter_In. split; [|reflexivity]. change (In "section.py" (dkeys files)).
      apply In_dkeys_dget. eauto. }
  match type of H with match ?x with _ => _ end = _ => destruct x as [cfg|e] eqn:Ec; [|discriminate] end.
  specialize (C cfg eq_refl). subst cfg. destruct (sub_sections rel subs) as [secs|e] eqn:Es; [|discriminate].
  injection H as <-. exists secs. split; [exact Es|reflexivity].
Qed.

Lemma from_files_name name rel d s : from_files name rel d = Ok s -> s_name s = name.
Proof. intro H. apply from_files_inv in H as (secs & _ & ->). reflexivity. Qed.

Lemma sub_sections_cons rel n d' rest : sub_sections rel ((n, d') :: rest) =
  if hidden n then sub_sections rel rest
  else match from_files n (rel ++ [n]) d' with
       | Raise e => Raise e
       | Ok s => match sub_sections rel rest with Raise e => Raise e | Ok l' => Ok (NSec s :: l') end
       end.
Proof. reflexivity. Qed.

Lemma sub_sections_named rel subs secs x : dwf subs -> sub_sections rel subs = Ok secs ->
  match (if hidden x then None else dget x subs) with
  | Some d' => exists s', from_files x (rel ++ [x]) d' = Ok s' /\ last_named x secs = Some (NSec s')
  | None => last_named x secs = None
  end.
Proof.
  revert secs. induction subs as [|[n d'] subs IH]; intros secs W H.
  - injection H as <-. destruct (hidden x); reflexivity.
  - rewrite sub_sections_cons in H. inversion W as [|? ? Hni W']; subst.
    destruct (hidden n) eqn:Hn.
    + specialize (IH secs W' H). cbn [dget]. destruct (String.eqb x n) eqn:E; [|exact IH].
      apply String.eqb_eq in E. subst n. rewrite Hn in *. exact IH.
    + destruct (from_files n (rel ++ [n]) d') as [s|] eqn:Ef; [|discriminate].
      destruct (sub_sections rel subs) as [l'|]; [|discriminate]. injection H as <-.
      specialize (IH l' W' eq_refl). cbn [dget last_named]. unfold has_name. cbn [node_name].
      rewrite (from_files_name _ _ _ _ Ef). destruct (String.eqb x n) eqn:E.
      * apply String.eqb_eq in E. subst n. rewrite Hn in *. exists s. split; [exact Ef|].
        assert (D : dget x subs = None) by (apply dget_None; exact Hni). rewrite D in IH. now rewrite IH.
      * destruct (hidden x); [now rewrite IH|]. destruct (dget x subs) as [dx|].
        -- destruct IH as (s' & E1 & E2). exists s'. split; [exact E1|]. now rewrite E2.
        -- now rewrite IH.
Qed.

Lemma strip_py_app x : strip_py (x ++ ".py") = x.
Proof.
  unfold strip_py. assert (E : endswith (x ++ ".py") ".py" = true) by (apply endswith_iff; eauto).
  rewrite E. exact (drop_last_app x ".py").
Qed.

Lemma section_py_app x : String.eqb (x ++ ".py") "section.py" = String.eqb x "section".
Proof.
  destruct (String.eqb x "section") eqn:E.
  - apply String.eqb_eq in E. now subst.
  - apply String.eqb_neq. intro H. apply String.eqb_neq in E. apply E.
    rewrite <- (strip_py_app x), H. reflexivity.
Qed.

Lemma file_nodes_named rel files x :
  last_named x (file_nodes rel files) =
  if String.eqb x "section" then None
  else if dmem (x ++ ".py")%string files then Some (NFile (rel, (x ++ ".py")%string) x) else None.
Proof.
  unfold file_nodes. induction files as [|[f v] files IH].
  - cbn. now destruct (String.eqb x "section").
  - unfold dmem in *. cbn [map fst filter dget]. destruct (endswith f ".py") eqn:Ep.
    + apply endswith_iff in Ep as [y ->]. cbn [filter]. rewrite section_py_app.
      destruct (String.eqb y "section") eqn:Es; cbn [negb].
      * rewrite IH. apply String.eqb_eq in Es. subst y. destruct (String.eqb x "section") eqn:Ex; [reflexivity|].
        assert (E : String.eqb (x ++ ".py") ("section" ++ ".py") = false) by exact (eq_trans (section_py_app x) Ex).
        now rewrite E.
      * cbn [map last_named]. rewrite IH. unfold has_name. cbn [node_name]. rewrite strip_py_app.
        assert (Ee : String.eqb (x ++ ".py") (y ++ ".py") = String.eqb x y).
        { destruct (String.eqb x y) eqn:E; [apply String.eqb_eq in E; subst; apply String.eqb_refl|].
          apply String.eqb_neq. intro H. apply String.eqb_neq in E. apply E.
          now rewrite <- (strip_py_app x), H, strip_py_app. }
        rewrite Ee. destruct (String.eqb x "section") eqn:Ex.
        -- destruct (String.eqb x y) eqn:E; [|reflexivity]. apply String.eqb_eq in E. subst y. congruence.
        -- destruct (String.eqb x y) eqn:E.
           ++ apply String.eqb_eq in E. subst y. now destruct (dget (x ++ ".py") files).
           ++ destruct (dget (x ++ ".py") files); reflexivity.
    + rewrite IH. destruct (String.eqb x "section"); [reflexivity|].
      destruct (String.eqb (x ++ ".py") f) eqn:E; [|reflexivity].
      apply String.eqb_eq in E. subst f. exfalso.
      assert (endswith (x ++ ".py") ".py" = true) by (apply endswith_iff; eauto). congruence.
Qed.

Lemma folder_config_name name rel d c : folder_config name rel d = Some c -> c_name c = Some name.
Proof.
  unfold folder_config. destruct (dget _ _) as [[content|]|]; try discriminate. now intros [= <-].
Qed.

(** the tree read from a folder shows exactly what the files say *)
Lemma from_files_seen p : forall reserved name rel d s, dir_ok d -> from_files name rel d = Ok s ->
  see_l (get_nested reserved s p) = disk_seen reserved name rel d p.
Proof.
  induction p as [|x rest IH]; intros reserved name rel d s Hok H;
    destruct (from_files_inv _ _ _ _ H) as (secs & Hs & ->); [reflexivity|].
  inversion Hok as [files subs Wf Ws Hsub E]. subst d. cbn [dir_subs dir_files] in *.
  cbn [get_nested disk_seen dir_subs dir_files]. unfold sec_getattr. cbn [s_attrs s_cfg s_items dget].
  destruct (mem x reserved); [rewrite see_l_leaf; now destruct rest|].
  set (cfg := folder_config name rel (Dir files subs)) in *.
  assert (Below : see_l match match last_named x (file_nodes rel files ++ secs) with
                  | Some n => Ok (node_lookup cfg n) | None => Raise KeyError end with
           | Ok (LSec s') => get_nested sec_reserved s' rest
           | Ok l => leaf_getattrs l rest
           | Raise e => Raise e
           end =
    match (if hidden x then None else dget x subs) with
    | Some d' => disk_seen sec_reserved x (rel ++ [x]) d' rest
    | None => if String.eqb x "section" then None
              else if dmem (x ++ ".py")%string files
                   then match rest with [] => Some (SFile (rel, (x ++ ".py")%string) x) | _ => None end
                   else None
    end).
  { rewrite last_named_app. assert (N := sub_sections_named rel subs secs x Ws Hs).
    destruct (if hidden x then None else dget x subs) as [d'|] eqn:Ed.
    - destruct N as (s' & E1 & E2). rewrite E2. cbn [node_lookup].
      apply IH; [|exact E1]. destruct (hidden x); [discriminate|]. apply dget_Some_In in Ed. now apply (Hsub x).
    - rewrite N, file_nodes_named. destruct (String.eqb x "section"); [reflexivity|].
      destruct (dmem (x ++ ".py") files); [|reflexivity]. cbn [node_lookup]. rewrite see_l_leaf. now destruct rest. }
  unfold own_config_named. cbn [s_cfg]. destruct cfg as [c|] eqn:Ec; [|exact Below].
  assert (Hn := folder_config_name _ _ _ _ Ec). rewrite Hn. destruct (String.eqb x name) eqn:Ex; [|exact Below].
  rewrite see_l_leaf. now destruct rest.
Qed.

Lemma load_seen base disk st p : dir_ok disk -> cm_load base disk = Ok st ->
  see st p = disk_seen mgr_reserved base [] disk p.
Proof.
  unfold cm_load, from_files_at. cbn [find_dir last]. intros Hok H.
  destruct (from_files base [] disk) as [s|] eqn:E; [|discriminate]. injection H as <-.
  rewrite see_eq. unfold lookup_at. cbn [cs_root]. now apply from_files_seen.
Qed.

(* ------------------------------------------------------------------ *)
(** * The tree read from files is well-formed *)

Lemma find_dir_app d a b : find_dir d (a ++ b) = match find_dir d a with Some d' => find_dir d' b | None => None end.
Proof.
  revert d. induction a as [|x a IH]; intro d; [reflexivity|]. cbn. destruct (dget x (dir_subs d)); [apply IH|reflexivity].
Qed.

(** every config found in a freshly read tree is the content of a file *)
Lemma disk_seen_own p : forall reserved name rel d d0 v, find_dir d0 rel = Some d ->
  disk_seen reserved name rel d p = Some v ->
  forall c, (v = SSelf c \/ exists n, v = SSec n (Some c)) ->
  exists ref content nm, read_file d0 ref = Ok content /\ c = loaded_config nm ref content.
Proof.
  induction p as [|x rest IH]; intros reserved name rel d d0 v Hd H c Hc.
  - cbn in H. injection H as <-. destruct Hc as [Hc|[n Hc]]; [discriminate|]. injection Hc as Hn Hc. subst n.
    unfold folder_config in Hc. destruct (dget "section.py" (dir_files d)) as [[content|]|] eqn:Eg; try discriminate.
    injection Hc as <-. exists (rel, "section.py"), content, name. split; [|reflexivity].
    unfold read_file. cbn [fst snd]. now rewrite Hd, Eg.
  - cbn [disk_seen] in H. destruct (mem x reserved); [discriminate|].
    assert (B : forall v0, match (if hidden x then None else dget x (dir_subs d)) with
    | Some d' => disk_seen sec_reserved x (rel ++ [x]) d' rest
    | None => if String.eqb x "section" then None
              else if dmem (x ++ ".py")%string (dir_files d)
                   then match rest with [] => Some (SFile (rel, (x ++ ".py")%string) x) | _ => None end
                   else None
    end = Some v0 -> (v0 = SSelf c \/ exists n, v0 = SSec n (Some c)) ->
    exists ref content nm, read_file d0 ref = Ok content /\ c = loaded_config nm ref content).
    { intros v0 H0 Hc0. destruct (if hidden x then None else dget x (dir_subs d)) as [d'|] eqn:Ed.
      - eapply (IH sec_reserved x (rel ++ [x]) d' d0 v0); [|exact H0|exact Hc0].
        rewrite find_dir_app, Hd. cbn. destruct (hidden x); [discriminate|]. now rewrite Ed.
      - destruct (String.eqb x "section"); [discriminate|]. destruct (dmem _ _); [|discriminate].
        destruct rest; [|discriminate]. injection H0 as <-. destruct Hc0 as [Hc0|[n Hc0]]; discriminate. }
    destruct (folder_config name rel d) as [cf|] eqn:Ef; [|now apply (B v)].
    destruct (String.eqb x name); [|now apply (B v)]. destruct rest; [|discriminate]. injection H as <-.
    destruct Hc as [Hc|[n Hc]]; [|discriminate]. injection Hc as ->.
    apply (IH [] name rel d d0 (SSec name (Some c))); [exact Hd|cbn; now rewrite Ef|eauto].
Qed.

Lemma loaded_config_wf n ref content : dwf content -> cfg_wf (loaded_config n ref content).
Proof. intro H. split; [exact H|apply dwf_nil]. Qed.

Lemma cm_load_wf base disk st : dir_ok disk -> disk_wf disk -> cm_load base disk = Ok st -> cms_wf st.
Proof.
  intros Hok Hw H. assert (S := fun p => load_seen base disk st p Hok H).
  assert (Hdisk : cs_disk st = disk /\ cs_local st = empty_config).
  { unfold cm_load in H. destruct (from_files_at base disk []); [|discriminate]. now injection H as <-. }
  destruct Hdisk as [Hd Hl]. split; [now rewrite Hd|]. intros r c Hc. destruct r as [|p|p]; cbn [current] in Hc.
  - injection Hc as <-. rewrite Hl. split; apply dwf_nil.
  - destruct (see st p) as [[c0|ref n| |]|] eqn:E; try discriminate.
    + exfalso. rewrite S in E. clear -E. revert E. generalize mgr_reserved base (@nil string) disk.
      induction p as [|x p IH]; intros l b rel d; cbn [disk_seen]; [discriminate|].
      destruct (mem x l); [discriminate|].
      assert (B : match (if hidden x then None else dget x (dir_subs d)) with
        | Some d' => disk_seen sec_reserved x (rel ++ [x]) d' p
        | None => if String.eqb x "section" then None
              else if dmem (x ++ ".py")%string (dir_files d)
                   then match p with [] => Some (SFile (rel, (x ++ ".py")%string) x) | _ => None end
                   else None
        end <> Some (SConf c0)).
      { destruct (if hidden x then None else dget x (dir_subs d)); [exact (IH _ _ _ _)|].
        destruct (String.eqb x "section"); [discriminate|]. destruct (dmem _ _); [|discriminate]. destruct p; discriminate. }
      destruct (folder_config b rel d); [|exact B]. destruct (String.eqb x b); [|exact B]. destruct p; discriminate.
    + destruct (read_file (cs_disk st) ref) as [content|] eqn:Er; [|discriminate]. injection Hc as <-.
      apply loaded_config_wf. rewrite Hd in Er. eapply Hw; exact Er.
  - destruct (see st p) as [[| |n own|]|] eqn:E; try discriminate. subst own. rewrite S in E.
    destruct (disk_seen_own p mgr_reserved base [] disk disk _ eq_refl E c) as (ref & content & nm & Hr & ->); [eauto|].
    apply loaded_config_wf. eapply Hw; exact Hr.
Qed.

(* ------------------------------------------------------------------ *)
(** * Reading twice *)

Lemma own_values_current st p : own_values st p = match current st (CItem p) with Some c => Some (c_vals c) | None => None end.
Proof.
  unfold own_values. cbn [current]. destruct (see st p) as [[]|]; try reflexivity. now destruct (read_file _ _).
Qed.

Lemma all_none_nil (d : dict pyval) : (forall k, dget k d = None) -> d = [].
Proof. destruct d as [|[k v] d]; [easy|]. intro H. specialize (H k). cbn in H. now rewrite String.eqb_refl in H. Qed.

Lemma effective_again st st1 r c c1 k :
  touches r st st1 -> r <> CLocal -> current st r = Some c -> read_cref st1 r = Some c1 ->
  (forall j, dget j (c_vals c1) = effective st (rpath r) (c_vals c) j) ->
  effective st1 (rpath r) (c_vals c1) k = dget k (c_vals c1).
Proof.
  intros T Hl Hc Hr H. destruct (c_vals c1) as [|kv vs] eqn:E1; [reflexivity|]. unfold effective at 1. rewrite <- E1 in *.
  assert (Hne : c_vals c <> []).
  { intro E. rewrite E in H. cbn in H. apply all_none_nil in H. congruence. }
  destruct (list_eq_dec string_dec (rpath r) []) as [Hn|Hn].
  - (* the project config itself *)
    rewrite Hn. unfold overriding_layers. cbn [prefixes rev map app first_of].
    assert (R : r = CSec []).
    { destruct r as [|p|p]; [now elim Hl| |cbn in Hn; now subst].
      exfalso. cbn in Hn. subst p. rewrite read_cref_see in Hr. cbn in Hr. discriminate. }
    subst r. cbn [rpath] in *. rewrite section_values_read, Hr.
    destruct (dget k (c_vals (cs_local st1))) as [v|] eqn:El.
    + rewrite H. unfold effective. destruct (c_vals c) eqn:Ecv; [congruence|].
      unfold overriding_layers. cbn [app first_of]. rewrite <- (proj1 (proj2 (proj2 T)) Hl). now rewrite El.
    + now destruct (dget k (c_vals c1)).
  - rewrite (overriding_touches st st1 r T Hl Hn). rewrite first_of_app. cbn [first_of].
    assert (Hk := H k). unfold effective in Hk. destruct (c_vals c) as [|kv' vs'] eqn:Ec'; [congruence|].
    rewrite first_of_app in Hk. destruct (first_of k (overriding_layers st (rpath r))) as [v|]; [now rewrite Hk|].
    now destruct (dget k (c_vals c1)).
Qed.

Lemma value_as_kwargs_noclash content : no_clash ["self"; "config_"; "section_path_str"; "d_"] content ->
  value_as_kwargs content = Ok content.
Proof.
  intro H. unfold value_as_kwargs, dmem. rewrite !H by (cbn; tauto). reflexivity.
Qed.

Lemma first_of_prefixes st p k v : dget k (section_values st p) = Some v -> forall l, In p (prefixes l) ->
  (forall q, In q (prefixes l) -> length p < length q -> dget k (section_values st q) = None) ->
  first_of k (map (section_values st) (rev (prefixes l))) = Some v.
Proof.
  intros Hv l. induction l as [|x l IH] using rev_ind; intros Hin Hd; [destruct Hin|].
  destruct l as [|y l]; [destruct Hin|]. rewrite prefixes_snoc in * by discriminate.
  rewrite rev_app_distr. cbn [rev app map first_of]. apply in_app_iff in Hin as [Hin|[<-|[]]].
  - rewrite Hd.
    + apply IH; [exact Hin|]. intros q Hq. apply Hd. apply in_app_iff. now left.
    + apply in_app_iff. right. now left.
    + apply prefixes_in in Hin as (_ & t & Ht & ->). rewrite app_length. destruct t; [easy|cbn; lia].
  - now rewrite Hv.
Qed.

Lemma mem_mgr_sec x : mem x mgr_reserved = false -> mem x sec_reserved = false.
Proof.
  intro H. destruct (mem x sec_reserved) eqn:X; [|reflexivity]. apply mem_In in X.
  assert (mem x mgr_reserved = true); [|congruence]. apply mem_In. unfold mgr_reserved. apply in_app_iff. now right.
Qed.

Lemma disk_seen_shadow p : forall reserved name rel d n c,
  disk_seen reserved name rel d p = Some (SSec n (Some c)) ->
  mem n (match p with [] => reserved | _ => sec_reserved end) = false ->
  disk_seen reserved name rel d (p ++ [n]) = Some (SSelf c).
Proof.
  induction p as [|x p IH]; intros reserved name rel d n c H Hm.
  - cbn [disk_seen app] in *. injection H as <- H. rewrite Hm, H, String.eqb_refl. reflexivity.
  - cbn [disk_seen app] in *. destruct (mem x reserved); [discriminate|].
    assert (B : forall r0, match (if hidden x then None else dget x (dir_subs d)) with
        | Some d' => disk_seen sec_reserved x (rel ++ [x]) d' p
        | None => r0 end = Some (SSec n (Some c)) -> r0 <> Some (SSec n (Some c)) ->
      forall r1, match (if hidden x then None else dget x (dir_subs d)) with
        | Some d' => disk_seen sec_reserved x (rel ++ [x]) d' (p ++ [n])
        | None => r1 end = Some (SSelf c)).
    { intros r0 H0 Hr r1. destruct (if hidden x then None else dget x (dir_subs d)); [|now elim Hr].
      apply IH; [exact H0|]. now destruct p. }
    assert (Hr : (if String.eqb x "section" then None
              else if dmem (x ++ ".py")%string (dir_files d)
                   then match p with [] => Some (SFile (rel, (x ++ ".py")%string) x) | _ => None end
                   else None) <> Some (SSec n (Some c))).
    { destruct (String.eqb x "section"); [discriminate|]. destruct (dmem _ _); [|discriminate]. destruct p; discriminate. }
    destruct (folder_config name rel d) as [cf|]; [|exact (B _ H Hr _)].
    destruct (String.eqb x name); [destruct p; discriminate|exact (B _ H Hr _)].
Qed.
