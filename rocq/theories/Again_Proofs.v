(** Proofs for [Again_Props]. *)
From Verif Require Import Again_Spec Iterate_Spec Iterate_Proofs Config_Proofs ConfigTree_Proofs ConfigOps_Proofs ConfigWf_Proofs ConfigLoad_Proofs RunnerOps_Proofs Failed_Proofs LastSet_Proofs OneArg_Spec OneArg_Proofs.
Local Open Scope string_scope.
Local Open Scope list_scope.

(** * Updates *)
Lemma no_change_again u d path persist kw s r c : target (r_cms s) (path_parts path) = Some r -> current (r_cms s) r = Some c ->
  dmem "config_" kw = false -> would_update c (Some (dupdate (opt_dict d) kw)) [] = Ok false ->
  exists s', runner_update u d (Some path) persist kw s = (s', Ok tt) /\ nothing_happens s s'.
Proof.
  intros Et Ec Ek Ew. destruct (runner_update u d (Some path) persist kw s) as [s' o] eqn:E. assert (S := runner_update_spec _ _ _ _ _ _ _ _ E). cbv zeta in S.
  rewrite Et in S. destruct S as (T & C & _ & S). rewrite Ec in S. unfold cfg_checked_update in S. rewrite Ek, Ew in S. destruct S as (R & -> & L & Tr).
  exists s'. split; [reflexivity|]. split; [apply (touched_same r); congruence|]. now rewrite Tr, app_nil_r.
Qed.
Lemma after_success u d path persist kw s s' : dwf kw -> dwf (opt_dict d) -> self_equal (dupdate (opt_dict d) kw) ->
  runner_update u d (Some path) persist kw s = (s', Ok tt) ->
  exists r c, target (r_cms s') (path_parts path) = Some r /\ current (r_cms s') r = Some c /\ dmem "config_" kw = false /\
    would_update c (Some (dupdate (opt_dict d) kw)) [] = Ok false.
Proof.
  intros Wk Wd Q H. assert (S := runner_update_spec _ _ _ _ _ _ _ _ H). cbv zeta in S. destruct (target (r_cms s) (path_parts path)) as [r|] eqn:Et.
  2:{ destruct S as (_ & e & S). discriminate. }
  destruct S as (T & _ & _ & S). destruct (current (r_cms s) r) as [c|] eqn:Ec.
  2:{ destruct S as (_ & e & S). discriminate. }
  assert (Et' : target (r_cms s') (path_parts path) = Some r) by (rewrite <- Et; apply T).
  unfold cfg_checked_update in S. destruct (dmem "config_" kw) eqn:Ek; [destruct S; discriminate|].
  destruct (would_update c (Some (dupdate (opt_dict d) kw)) []) as [[]|e1] eqn:Ew.
  3:{ destruct S; discriminate. }
  2:{ destruct S as (R & _). exists r, c. auto. }
  destruct (dmem "E" kw); [destruct S; discriminate|]. destruct S as (R & _). exists r, (cfg_update c d persist kw).
  split; [exact Et'|]. split; [exact R|]. split; [reflexivity|]. now apply update_again.
Qed.
Lemma update_twice u u' d path persist persist' kw s s' : dwf kw -> dwf (opt_dict d) -> self_equal (asked d kw) ->
  runner_update u d (Some path) persist kw s = (s', Ok tt) ->
  exists s'', runner_update u' d (Some path) persist' kw s' = (s'', Ok tt) /\ nothing_happens s' s''.
Proof.
  intros Wk Wd Q H. destruct (after_success _ _ _ _ _ _ _ Wk Wd Q H) as (r & c & Et & Ec & Ek & Ew). exact (no_change_again u' d path persist' kw s' r c Et Ec Ek Ew).
Qed.

(** the local config: it belongs to no item, so no loaded object is involved *)
Lemma local_update u d persist kw s : runner_update u d None persist kw s =
  match cm_update d None persist kw (r_cms s) with
  | (st, Ok _) => (RS st (r_loaded s) (r_next s) (r_calls s), Ok tt)
  | (st, Raise e) => (RS st (r_loaded s) (r_next s) (r_calls s), Raise e)
  end.
Proof.
  unfold runner_update, bind at 1, on_cms. destruct (cm_update d None persist kw (r_cms s)) as [st [[r b]|e]]; reflexivity.
Qed.
Lemma local_update_twice u u' d persist persist' kw s s' : dwf kw -> dwf (opt_dict d) -> self_equal (asked d kw) ->
  runner_update u d None persist kw s = (s', Ok tt) ->
  exists s'', runner_update u' d None persist' kw s' = (s'', Ok tt) /\ nothing_happens s' s''.
Proof.
  intros Wk Wd Q H. rewrite local_update in H. destruct (cm_update d None persist kw (r_cms s)) as [st [x|e]] eqn:E; [|discriminate]. injection H as <-.
  assert (S := cm_update_spec _ _ _ _ _ _ _ E). cbn [path_target] in S. destruct S as (T & S). destruct (current (r_cms s) CLocal) as [c|] eqn:Ec.
  2:{ destruct S as (_ & e & S). discriminate. }
  assert (X : exists c', current st CLocal = Some c' /\ dmem "config_" kw = false /\ would_update c' (Some (dupdate (opt_dict d) kw)) [] = Ok false).
  { unfold cfg_checked_update in S. destruct (dmem "config_" kw) eqn:Ek; [destruct S; discriminate|].
    destruct (would_update c (Some (dupdate (opt_dict d) kw)) []) as [[]|e1] eqn:Ew.
    3:{ destruct S; discriminate. }
    - destruct (dmem "E" kw); [destruct S; discriminate|]. destruct S as (_ & R & _). eexists. split; [exact R|]. split; [reflexivity|]. now apply update_again.
    - destruct S as (_ & R & _). eexists. split; [exact R|]. auto. }
  destruct X as (c' & X1 & X2 & X3). rewrite local_update. cbn [r_cms r_loaded r_next r_calls].
  destruct (cm_update d None persist' kw st) as [st2 o] eqn:E2. assert (S2 := cm_update_spec _ _ _ _ _ _ _ E2). cbn [path_target] in S2. destruct S2 as (T2 & S2).
  rewrite X1 in S2. unfold cfg_checked_update in S2. rewrite X2, X3 in S2. destruct S2 as (-> & R2 & Tr). eexists. split; [reflexivity|].
  split; [|cbn [r_cms]; now rewrite Tr, app_nil_r]. apply (touched_same CLocal); [exact T2| |reflexivity|reflexivity]. cbn [r_cms]. rewrite X1. exact R2.
Qed.
Lemma local_reset_twice base u u' b b' s s' : runner_reset base u None b s = (s', Ok tt) -> runner_reset base u' None b' s' = (s', Ok tt).
Proof.
  unfold runner_reset, bind, on_cms, cm_reset, bind, modify, ret, loaded_at, gets. cbn. now intros [= <-].
Qed.

(** * Refreshes *)
Lemma would_none c us : would_update c (Some us) [] = would_update_loop (c_vals c) us.
Proof. unfold would_update. cbn [opt_dict]. now rewrite dupdate_nil_r. Qed.
Lemma change_none c content : change_from_refresh c content = Ok [] -> would_update c (Some (refresh_updates c content)) [] = Ok false.
Proof.
  unfold change_from_refresh. destruct (would_update c _ _) as [[]|e] eqn:E; try discriminate; [|reflexivity].
  intros [= Z]. rewrite Z, would_none in E. discriminate.
Qed.
Lemma checked_refresh_inv c content c' b ups : dmem "E" (refresh_updates c content) = false -> cfg_checked_refresh c content = Ok (c', b, ups) ->
  if b then c' = cfg_update c None false (refresh_updates c content) /\ would_update c (Some (refresh_updates c content)) [] = Ok true
  else c' = c /\ would_update c (Some (refresh_updates c content)) [] = Ok false.
Proof.
  intros NE H. unfold cfg_checked_refresh in H. destruct (change_from_refresh c content) as [[|x l]|e] eqn:E; [| |discriminate].
  - injection H as <- <- _. split; [reflexivity|]. now apply change_none.
  - unfold cfg_refresh in H. destruct (_ || _)%bool; [discriminate|]. assert (NE' : dget "E" (refresh_updates c content) = None) by (unfold dmem in NE; now destruct (dget "E" (refresh_updates c content))). rewrite NE' in H. injection H as <- <- _. split; [reflexivity|].
    unfold change_from_refresh in E. destruct (would_update c _ _) as [[]|]; [reflexivity|discriminate|discriminate].
Qed.
Lemma refresh_values c us : dwf us -> forall k, dget k (c_vals (cfg_update c None false us)) = either (dget k us) (dget k (c_vals c)).
Proof. intros W k. cbn [cfg_update c_vals opt_dict]. rewrite dupdate_nil_r, dget_dupdate by exact W. now destruct (dget k us). Qed.

Lemma refresh_settles u path s s' own c ref content : cms_wf (r_cms s) -> disk_ok (cs_disk (r_cms s)) ->
  own_values (r_cms s) (path_parts path) = Some own ->
  current (r_cms s) (CItem (path_parts path)) = Some c -> c_file c = Some ref -> read_file (cs_disk (r_cms s)) ref = Ok content ->
  dmem "E" (refresh_updates c content) = false -> self_equal (refresh_updates c content) ->
  (forall L, In L (overriding_layers (r_cms s) (path_parts path)) -> self_equal L) ->
  runner_refresh u path s = (s', Ok tt) ->
  cs_disk (r_cms s') = cs_disk (r_cms s) /\ target (r_cms s') (path_parts path) = Some (CItem (path_parts path)) /\
  exists c', current (r_cms s') (CItem (path_parts path)) = Some c' /\ c_file c' = Some ref /\ would_update c' (Some (refresh_updates c' content)) [] = Ok false.
Proof.
  intros W Dk Ho Hc Hr Hf NE Q Ql H. unfold runner_refresh, bind at 1, on_cms in H. set (p := path_parts path) in *.
  assert (W1 := cm_refresh_wf (r_cms s) path W).
  destruct (cm_refresh path (r_cms s)) as [st o1] eqn:E. assert (S := cm_refresh_spec _ _ _ _ E). fold p in S. cbn [fst] in W1.
  assert (Ht : target (r_cms s) p = Some (CItem p)).
  { unfold target. cbn [current] in Hc. destruct (see (r_cms s) p) as [[]|]; try discriminate; reflexivity. }
  rewrite Ht, Hc, Hr, Hf in S. destruct S as (T & S). destruct (cfg_checked_refresh c content) as [[[c' b] ups]|e] eqn:Er.
  2:{ destruct S as (-> & R). discriminate. }
  destruct S as (-> & R & Tr). apply read_current in R as R'. apply (checked_refresh_inv _ _ _ _ _ NE) in Er.
  assert (Wu : dwf (refresh_updates c content)).
  { unfold refresh_updates. apply dupdate_wf. destruct ref as [folders f]. exact (proj2 Dk _ _ Hf). }
  assert (Wa : dwf (c_applied c)) by (apply (proj2 W) in Hc; apply Hc).
  assert (Ht1 : target st p = Some (CItem p)) by (rewrite <- Ht; apply T).
  assert (D1 : cs_disk st = cs_disk (r_cms s)) by apply T.
  assert (U : b = true -> c_file c' = Some ref /\ c_applied c' = c_applied c /\ (forall k, dget k (c_vals c') = either (dget k (refresh_updates c content)) (dget k (c_vals c)))).
  { intros ->. destruct Er as (-> & _). split; [exact Hr|]. split; [reflexivity|]. now apply refresh_values. }
  unfold bind at 1, loaded_at, gets in H. cbn [r_loaded] in H.
  assert (Settled : (b = true -> dget path (r_loaded s) = None) -> c_file c' = Some ref /\ would_update c' (Some (refresh_updates c' content)) [] = Ok false).
  { intros _. destruct b.
    - destruct (U eq_refl) as (U1 & U2 & U3). split; [exact U1|]. unfold refresh_updates at 1. rewrite U2. fold (refresh_updates c content).
      rewrite would_none. apply would_not_update. intros k v I. apply (In_dget _ _ _ Wu) in I. exists v. rewrite U3, I. split; [reflexivity|exact (Q _ _ I)].
    - destruct Er as (-> & Er). auto. }
  destruct (dget path (r_loaded s)) as [ob|] eqn:El.
  2:{ injection H as <-. cbn [r_cms]. split; [exact D1|]. split; [exact Ht1|]. exists c'. destruct (Settled ltac:(reflexivity)). auto. }
  destruct b.
  2:{ injection H as <-. cbn [r_cms]. split; [exact D1|]. split; [exact Ht1|]. exists c'. destruct (Settled ltac:(discriminate)). auto. }
  destruct (U eq_refl) as (U1 & U2 & U3). destruct Er as (Ec' & Ew).
  set (s1 := RS st (r_loaded s) (r_next s) (r_calls s)) in *.
  assert (Ho1 : own_values (r_cms s1) p = Some (c_vals c')).
  { rewrite own_values_current. cbn [r_cms s1]. now rewrite R'. }
  destruct (get_config_spec s1 path (c_vals c') W1 Ho1) as (cfg & s2 & E2 & (R1 & R2 & R3 & _) & Tr2 & T2 & Sc & W2 & Wc & V). fold p in Sc, V, T2.
  unfold bind at 1 in H. rewrite E2 in H. unfold bind at 1 in H. rewrite apply_config_eq in H.
  assert (Hcur : current (r_cms s2) (CItem p) = Some cfg) by (cbn [current]; now rewrite Sc).
  assert (Ov : overriding_layers st p = overriding_layers (r_cms s) p).
  { change p with (rpath (CItem p)). apply (overriding_touches (r_cms s) st (CItem p)); [exact T|discriminate|]. apply path_parts_nonempty. }
  assert (Nv : c_vals c' <> []).
  { intro Z. rewrite would_none in Ew. apply wul_true in Ew as (? & k & v & old & ? & _ & X & _). specialize (U3 k). rewrite Z in U3. cbn in U3. rewrite X in U3. now destruct (dget k (refresh_updates c content)). }
  assert (G : exists st2, cm_get path st = (st2, Ok (Some (CItem p))) /\ r_cms s2 = st2).
  { unfold get_config, bind, on_cms in E2. cbn [r_cms s1] in E2. destruct (cm_get path st) as [st2 o2] eqn:Eg. assert (Sg := cm_get_spec _ _ _ _ W1 Eg). fold p in Sg. rewrite Ht1 in Sg.
    destruct Sg as (_ & _ & Sg). rewrite R' in Sg. destruct Sg as (-> & _). exists st2. split; [reflexivity|].
    destruct (deref _ _) as [st3 [cc|]] eqn:Ed in E2; [|discriminate]. injection E2 as <- _. unfold deref in Ed. cbn [r_cms] in *. destruct (read_cref st2 (CItem p)); congruence. }
  destruct G as (st2 & Eg & E3).
  assert (Rd : read_cref st2 (CItem p) = Some cfg) by (rewrite <- E3, read_cref_see, Sc; reflexivity).
  assert (Sg := cm_get_spec _ _ _ _ W1 Eg). fold p in Sg. rewrite Ht1, R' in Sg. destruct Sg as (_ & _ & _ & c9 & Rc & _ & _ & Fc & _). rewrite Rd in Rc. injection Rc as <-.
  assert (K : forall k, dget k (c_applied cfg) = either (first_of k (overriding_layers st p)) (dget k (c_applied c'))).
  { intro k. exact (get_kept path k st st2 _ c' cfg W1 Ht1 R' Nv Eg Rd). }
  assert (V' : forall k, dget k (c_vals cfg) = either (first_of k (overriding_layers st p)) (dget k (c_vals c'))).
  { intro k. rewrite V. unfold effective. cbn [r_cms s1]. destruct (c_vals c') as [|kv vs]; [contradiction|]. rewrite first_of_app. cbn [first_of].
    destruct (first_of k (overriding_layers st p)); [reflexivity|]. cbn [either]. now destruct (dget k (kv :: vs)). }
  assert (Wcontent : dwf content) by (destruct ref as [folders f]; exact (proj2 Dk _ _ Hf)).
  assert (Fin : c_file cfg = Some ref /\ would_update cfg (Some (refresh_updates cfg content)) [] = Ok false).
  { split; [congruence|]. rewrite would_none. apply would_not_update. intros k v I. unfold refresh_updates in I.
    apply In_dget in I; [|now apply dupdate_wf]. rewrite dget_dupdate in I by apply Wc. rewrite K, U2 in I. rewrite V', U3. unfold refresh_updates. rewrite dget_dupdate by exact Wa.
    destruct (first_of k (overriding_layers st p)) as [w|] eqn:Ef; cbn [either] in *.
    - injection I as ->. exists v. split; [reflexivity|]. rewrite Ov in Ef. apply first_of_In in Ef as (L & IL & EL). exact (Ql L IL k v EL).
    - assert (X : dget k (refresh_updates c content) = Some v) by (unfold refresh_updates; rewrite dget_dupdate by exact Wa; exact I).
      exists v. rewrite I. split; [reflexivity|]. exact (Q k v X). }
  assert (D2 : cs_disk (r_cms s2) = cs_disk (r_cms s)) by (rewrite <- D1; apply T2).
  assert (Ht2 : target (r_cms s2) p = Some (CItem p)) by (rewrite <- Ht1; apply T2).
  destruct (applied_to u ob (c_vals cfg)) as [ob'|e]; [|discriminate].
  unfold on_cms, emit, modify in H. cbn in H. injection H as <-. cbn [r_cms].
  split; [exact D2|]. split; [exact Ht2|]. exists cfg. split; [exact Hcur|exact Fin].
Qed.
Lemma settled_refresh u path s c ref content : target (r_cms s) (path_parts path) = Some (CItem (path_parts path)) ->
  current (r_cms s) (CItem (path_parts path)) = Some c -> c_file c = Some ref -> read_file (cs_disk (r_cms s)) ref = Ok content ->
  would_update c (Some (refresh_updates c content)) [] = Ok false ->
  exists s', runner_refresh u path s = (s', Ok tt) /\ nothing_happens s s'.
Proof.
  intros Ht Hc Hr Hf Hw. unfold runner_refresh, bind at 1, on_cms. set (p := path_parts path) in *.
  destruct (cm_refresh path (r_cms s)) as [st o1] eqn:E. assert (S := cm_refresh_spec _ _ _ _ E). fold p in S. rewrite Ht, Hc, Hr, Hf in S.
  unfold cfg_checked_refresh, change_from_refresh in S. rewrite Hw in S. destruct S as (T & -> & R & Tr). rewrite app_nil_r in Tr.
  unfold bind, loaded_at, gets. cbn [r_loaded]. eexists. split; [destruct (dget path (r_loaded s)); reflexivity|].
  split; [|exact Tr]. apply (touched_same (CItem p)); [exact T| |reflexivity|reflexivity]. cbn [r_cms]. rewrite Hc. now apply read_current.
Qed.

(** * Resets *)
Lemma kwargs_part content ups k v : dwf content -> value_as_kwargs content = Ok ups -> In (k, v) ups -> dget k content = Some v.
Proof.
  unfold value_as_kwargs. intros W H I. destruct (_ || _)%bool; [discriminate|]. destruct (dget "d_" content) as [w|].
  - destruct w; try discriminate. injection H as <-. apply In_dget in I; [|now apply ddel_wf]. destruct (string_dec k "d_") as [->|N]; [rewrite dget_ddel_eq in I by exact W; discriminate|now rewrite dget_ddel_neq in I].
  - injection H as <-. now apply In_dget.
Qed.
Lemma reset_twice base u u' path s s' c content : 
  target (r_cms s) (path_parts path) = Some (CItem (path_parts path)) -> current (r_cms s) (CItem (path_parts path)) = Some c ->
  read_file (cs_disk (r_cms s)) (item_file (path_parts path)) = Ok content -> dwf content -> self_equal content ->
  runner_reset base u (Some path) false s = (s', Ok tt) ->
  exists s'', runner_reset base u' (Some path) false s' = (s'', Ok tt) /\ nothing_happens s' s''.
Proof.
  intros Ht Hc Hf Wc Q H. set (p := path_parts path) in *.
  assert (X : cs_disk (r_cms s') = cs_disk (r_cms s) /\ target (r_cms s') p = Some (CItem p) /\
    exists c' ups, current (r_cms s') (CItem p) = Some c' /\ value_as_kwargs content = Ok ups /\ would_update c' (Some ups) [] = Ok false).
  { unfold runner_reset, bind at 1, on_cms in H. destruct (cm_reset base (Some path) false (r_cms s)) as [st o1] eqn:E.
    destruct (cm_reset_item _ _ _ _ _ Ht E) as (T & S). fold p in S, T. rewrite Hf, Hc in S.
    assert (Ht1 : target st p = Some (CItem p)) by (rewrite <- Ht; apply T). assert (D1 : cs_disk st = cs_disk (r_cms s)) by apply T.
    destruct (value_as_kwargs content) as [ups|e] eqn:Ek; [|destruct S as (-> & _); discriminate].
    assert (N : would_update (item_default p content) (Some ups) [] = Ok false).
    { rewrite would_none. apply would_not_update. intros k v I. exists v. assert (Y := kwargs_part _ _ _ _ Wc Ek I). split; [exact Y|exact (Q _ _ Y)]. }
    assert (Y : r_cms s' = st \/ exists ev, r_cms s' = CMS (cs_root st) (cs_local st) (cs_disk st) (cs_trace st ++ [ev])).
    { destruct o1 as [[def b]|e]; [|discriminate]. unfold bind at 1, loaded_at, gets in H. cbn [r_loaded] in H. destruct (dget path (r_loaded s)) as [ob|].
      - destruct b; [|injection H as <-; now left]. destruct def as [dc|ds]; [|discriminate]. unfold bind at 1 in H. rewrite apply_config_eq in H.
        destruct (applied_to u ob _); [|discriminate]. unfold bind, lift in H. destruct (post_reset_updates _) as [ups'|]; [|discriminate].
        cbn in H. injection H as <-. right. eexists. reflexivity.
      - injection H as <-. now left. }
    assert (Z : exists c', current st (CItem p) = Some c' /\ would_update c' (Some ups) [] = Ok false).
    { destruct (would_update c (Some ups) []) as [[]|e] eqn:Ew; [| |destruct S as (-> & _); discriminate].
      - destruct S as (_ & R & _). exists (item_default p content). split; [now apply read_current|exact N].
      - destruct S as (_ & R & _). exists c. split; [now apply read_current|exact Ew]. }
    destruct Z as (c' & Z1 & Z2). destruct Y as [->|(ev & ->)].
    - split; [exact D1|]. split; [exact Ht1|]. exists c', ups. auto.
    - split; [exact D1|]. split; [exact Ht1|]. exists c', ups. auto. }
  destruct X as (D & Ht' & c' & ups & Hc' & Ek & Ew). rewrite <- D in Hf.
  unfold runner_reset, bind at 1, on_cms. destruct (cm_reset base (Some path) false (r_cms s')) as [st o1] eqn:E.
  destruct (cm_reset_item _ _ _ _ _ Ht' E) as (T & S). fold p in S, T. rewrite Hf, Hc', Ek, Ew in S. destruct S as (-> & R & Tr).
  unfold bind, loaded_at, gets. cbn [r_loaded]. eexists. split; [destruct (dget path (r_loaded s')); reflexivity|].
  split; [|exact Tr]. apply (touched_same (CItem p)); [exact T| |reflexivity|reflexivity]. cbn [r_cms]. rewrite Hc'. now apply read_current.
Qed.

(** * Two updates at once; undoing an update *)
Lemma known_update c d persist kw c' b : dwf kw -> dwf (opt_dict d) -> comparable c (asked d kw) ->
  all_known c (asked d kw) -> cfg_checked_update c d persist kw = Ok (c', b) ->
  plain_dict (c_vals c') /\ (forall k, dmem k (c_vals c') = dmem k (c_vals c)) /\
  forall k, same_opt (dget k (c_vals c')) (either (dget k (asked d kw)) (dget k (c_vals c))).
Proof.
  intros Wk Wd (P1 & P2) Kn H. assert (Wa : dwf (asked d kw)) by now apply dupdate_wf. unfold cfg_checked_update in H. destruct (dmem "config_" kw); [discriminate|].
  fold (asked d kw) in H. destruct (would_update c (Some (asked d kw)) []) as [[]|e] eqn:Ew; [|injection H as <- <-|discriminate].
  - destruct (dmem "E" kw); [discriminate|]. injection H as <- <-.
    assert (V : forall k, dget k (c_vals (cfg_update c d persist kw)) = either (dget k (asked d kw)) (dget k (c_vals c))).
    { intro k. rewrite (update_merged c d persist kw Wk Wd k). cbn [first_of]. unfold asked. rewrite dget_dupdate by exact Wk. destruct (dget k kw); [reflexivity|].
      destruct (dget k (opt_dict d)); [reflexivity|]. cbn [either]. now destruct (dget k (c_vals c)). }
    split; [|split].
    + intros k v. rewrite V. destruct (dget k (asked d kw)) as [w|] eqn:E; cbn [either]; [intros [= <-]; exact (P2 _ _ E)|apply P1].
    + intro k. unfold dmem. rewrite V. specialize (Kn k). unfold dmem in Kn. destruct (dget k (asked d kw)); [|reflexivity]. cbn [either]. now destruct (dget k (c_vals c)); [|discriminate Kn].
    + intro k. rewrite V. apply same_opt_refl.
  - split; [exact P1|]. split; [reflexivity|]. intro k. destruct (dget k (asked d kw)) as [w|] eqn:E; [|apply same_opt_refl]. cbn [either].
    specialize (Kn k). unfold dmem in Kn. rewrite E in Kn. destruct (dget k (c_vals c)) as [v|] eqn:Ev; [|discriminate Kn; reflexivity]. cbn [same_opt].
    rewrite would_none in Ew. apply values_norm; [exact (P1 _ _ Ev)|exact (P2 _ _ E)|]. exact (proj1 (wul_false _ _) Ew k w v (dget_Some_In _ _ _ E) Ev).
Qed.

Lemma success_config u d path persist kw s s' r c : target (r_cms s) (path_parts path) = Some r -> current (r_cms s) r = Some c ->
  runner_update u d (Some path) persist kw s = (s', Ok tt) ->
  exists c' b, cfg_checked_update c d persist kw = Ok (c', b) /\ target (r_cms s') (path_parts path) = Some r /\ current (r_cms s') r = Some c'.
Proof.
  intros Et Ec H. assert (S := runner_update_spec _ _ _ _ _ _ _ _ H). cbv zeta in S. rewrite Et in S. destruct S as (T & _ & _ & S). rewrite Ec in S.
  destruct (cfg_checked_update c d persist kw) as [[c' b]|e]; [|destruct S; discriminate]. destruct S as (R & _). exists c', b. split; [reflexivity|].
  split; [|exact R]. rewrite <- Et. apply T.
Qed.
Lemma same_opt_trans o a b : same_opt o a -> same_opt a b -> same_opt o b.
Proof. destruct o, a, b; cbn; try easy. apply same_trans. Qed.
Lemma same_opt_sym o a : same_opt o a -> same_opt a o.
Proof. destruct o, a; cbn; easy. Qed.
Lemma two_as_one u d kw d' kw' path p1 p2 p3 s s1 s2 s3 r c c2 c3 : dwf kw -> dwf (opt_dict d) -> dwf kw' -> dwf (opt_dict d') ->
  target (r_cms s) (path_parts path) = Some r -> current (r_cms s) r = Some c ->
  comparable c (asked d kw) -> comparable c (asked d' kw') -> all_known c (asked d kw) -> all_known c (asked d' kw') ->
  runner_update u d (Some path) p1 kw s = (s1, Ok tt) -> runner_update u d' (Some path) p2 kw' s1 = (s2, Ok tt) ->
  runner_update u (Some (asked_together d kw d' kw')) (Some path) p3 [] s = (s3, Ok tt) ->
  current (r_cms s2) r = Some c2 -> current (r_cms s3) r = Some c3 -> equal_values (c_vals c2) (c_vals c3).
Proof.
  intros Wk Wd Wk' Wd' Et Ec Cm Cm' Kn Kn' H1 H2 H3 E2 E3.
  destruct (success_config _ _ _ _ _ _ _ _ _ Et Ec H1) as (x1 & b1 & U1 & T1 & X1). destruct (success_config _ _ _ _ _ _ _ _ _ T1 X1 H2) as (x2 & b2 & U2 & T2 & X2).
  destruct (success_config _ _ _ _ _ _ _ _ _ Et Ec H3) as (x3 & b3 & U3 & T3 & X3). rewrite E2 in X2. injection X2 as <-. rewrite E3 in X3. injection X3 as <-.
  destruct (known_update _ _ _ _ _ _ Wk Wd Cm Kn U1) as (P1 & M1 & V1).
  assert (C1 : comparable x1 (asked d' kw')) by (split; [exact P1|apply Cm']).
  assert (K1 : all_known x1 (asked d' kw')) by (intros k Hk; rewrite M1; now apply Kn').
  destruct (known_update _ _ _ _ _ _ Wk' Wd' C1 K1 U2) as (_ & _ & V2).
  assert (Wa : dwf (asked d kw)) by now apply dupdate_wf. assert (Wa' : dwf (asked d' kw')) by now apply dupdate_wf.
  assert (A : forall k, dget k (asked (Some (asked_together d kw d' kw')) []) = either (dget k (asked d' kw')) (dget k (asked d kw))).
  { intro k. unfold asked at 1. cbn [opt_dict]. rewrite dupdate_nil_r. unfold asked_together. rewrite dget_dupdate by exact Wa'. now destruct (dget k (asked d' kw')). }
  assert (C3 : comparable c (asked (Some (asked_together d kw d' kw')) [])).
  { split; [apply Cm|]. intros k v. rewrite A. destruct (dget k (asked d' kw')) as [w|] eqn:E; cbn [either]; [intros [= <-]; exact (proj2 Cm' _ _ E)|apply Cm]. }
  assert (K3 : all_known c (asked (Some (asked_together d kw d' kw')) [])).
  { intros k. unfold dmem at 1. rewrite A. specialize (Kn k). specialize (Kn' k). unfold dmem at 1 in Kn. unfold dmem at 1 in Kn'. destruct (dget k (asked d' kw')); [easy|]. cbn [either]. now destruct (dget k (asked d kw)). }
  assert (W3 : dwf (opt_dict (Some (asked_together d kw d' kw')))) by (now apply dupdate_wf).
  destruct (known_update _ _ _ _ _ _ dwf_nil W3 C3 K3 U3) as (_ & _ & V3).
  intro k. assert (G : same_opt (dget k (c_vals c2)) (dget k (c_vals c3))).
  { eapply same_opt_trans; [apply V2|]. apply same_opt_sym. eapply same_opt_trans; [apply V3|]. rewrite A. apply same_opt_sym.
    destruct (dget k (asked d' kw')); cbn [either]; [apply same_refl|]. apply V1. }
  unfold same_opt in G. exact G.
Qed.

Lemma undone u d kw path s s1 s2 r c old : dwf kw -> dwf (opt_dict d) -> dwf (c_vals c) ->
  target (r_cms s) (path_parts path) = Some r -> current (r_cms s) r = Some c ->
  comparable c (asked d kw) -> all_known c (asked d kw) -> old_values c (asked d kw) old ->
  runner_update u d (Some path) false kw s = (s1, Ok tt) -> runner_update u (Some old) (Some path) false [] s1 = (s2, Ok tt) ->
  exists c2, current (r_cms s2) r = Some c2 /\ c_applied c2 = c_applied c /\ c_file c2 = c_file c /\ forall k, dget k (c_vals c2) = dget k (c_vals c).
Proof.
  intros Wk Wd Wc Et Ec (P1 & P2) Kn (Wo & O) H1 H2.
  destruct (success_config _ _ _ _ _ _ _ _ _ Et Ec H1) as (x1 & b1 & U1 & T1 & X1). destruct (success_config _ _ _ _ _ _ _ _ _ T1 X1 H2) as (x2 & b2 & U2 & T2 & X2).
  exists x2. split; [exact X2|]. assert (Wa : dwf (asked d kw)) by now apply dupdate_wf.
  unfold cfg_checked_update in U1. destruct (dmem "config_" kw); [discriminate|]. fold (asked d kw) in U1.
  destruct (would_update c (Some (asked d kw)) []) as [[]|e] eqn:Ew; [destruct (dmem "E" kw); [discriminate|]| |discriminate]; injection U1 as <- <-.
  - assert (V : forall k, dget k (c_vals (cfg_update c d false kw)) = either (dget k (asked d kw)) (dget k (c_vals c))).
    { intro k. rewrite (update_merged c d false kw Wk Wd k). cbn [first_of]. unfold asked. rewrite dget_dupdate by exact Wk. destruct (dget k kw); [reflexivity|].
      destruct (dget k (opt_dict d)); [reflexivity|]. cbn [either]. now destruct (dget k (c_vals c)). }
    unfold cfg_checked_update in U2. cbn [dmem dget] in U2. change (dupdate (opt_dict (Some old)) []) with (dupdate old []) in U2. rewrite dupdate_nil_r in U2.
    destruct (would_update (cfg_update c d false kw) (Some old) []) as [[]|e] eqn:Ew2; [| |discriminate]; injection U2 as <- <-.
    + split; [reflexivity|]. split; [reflexivity|]. intro k. cbn [cfg_update c_vals opt_dict]. rewrite dupdate_nil_r, dget_dupdate by exact Wo. rewrite O.
      specialize (V k). cbn [cfg_update c_vals] in V. rewrite V. unfold dmem. specialize (Kn k). unfold dmem in Kn. destruct (dget k (asked d kw)); cbn [either]; [|reflexivity].
      now destruct (dget k (c_vals c)); [|discriminate Kn].
    + exfalso. rewrite would_none in Ew, Ew2. destruct (proj1 (would_iff _ _ _ Wa Ew) eq_refl) as (k & ov & nv & K1 & K2 & K3).
      assert (Ko : dget k old = Some ov) by (rewrite O; unfold dmem; now rewrite K2).
      assert (Kv : dget k (c_vals (cfg_update c d false kw)) = Some nv) by (rewrite V, K2; reflexivity).
      assert (Eq := proj1 (wul_false _ _) Ew2 k ov nv (dget_Some_In _ _ _ Ko) Kv). apply K3.
      assert (Po := P1 _ _ K1). assert (Pn := P2 _ _ K2). rewrite plain_values in * by assumption. f_equal. injection Eq as Eq. apply equal_iff; try assumption.
      apply same_sym. now apply equal_iff.
  - assert (N : would_update c (Some old) [] = Ok false).
    { rewrite would_none. apply would_not_update. intros k v I. apply (In_dget _ _ _ Wo) in I. exists v. rewrite O in I. destruct (dmem k (asked d kw)); [|discriminate].
      split; [exact I|]. apply values_refl_plain. exact (P1 _ _ I). }
    unfold cfg_checked_update in U2. cbn [dmem dget] in U2. change (dupdate (opt_dict (Some old)) []) with (dupdate old []) in U2. rewrite dupdate_nil_r in U2.
    rewrite N in U2. injection U2 as <- <-. auto.
Qed.

Lemma refresh_again u u' path s s' own c ref content : cms_wf (r_cms s) -> disk_ok (cs_disk (r_cms s)) ->
  own_values (r_cms s) (path_parts path) = Some own ->
  current (r_cms s) (CItem (path_parts path)) = Some c -> c_file c = Some ref -> read_file (cs_disk (r_cms s)) ref = Ok content ->
  dmem "E" content = false -> dmem "E" (c_applied c) = false -> self_equal content -> self_equal (c_applied c) ->
  (forall L, In L (overriding_layers (r_cms s) (path_parts path)) -> self_equal L) ->
  runner_refresh u path s = (s', Ok tt) ->
  exists s'', runner_refresh u' path s' = (s'', Ok tt) /\ nothing_happens s' s''.
Proof.
  intros W Dk Ho Hc Hr Hf E1 E2 Q1 Q2 Ql H. assert (Wa : dwf (c_applied c)) by (apply (proj2 W) in Hc; apply Hc).
  assert (G : forall k, dget k (refresh_updates c content) = either (dget k (c_applied c)) (dget k content)).
  { intro k. unfold refresh_updates. rewrite dget_dupdate by exact Wa. now destruct (dget k (c_applied c)). }
  assert (NE : dmem "E" (refresh_updates c content) = false).
  { unfold dmem. rewrite G. unfold dmem in E1. unfold dmem in E2. destruct (dget "E" (c_applied c)); [discriminate|]. exact E1. }
  assert (Q : self_equal (refresh_updates c content)).
  { intros k v. rewrite G. destruct (dget k (c_applied c)) as [w|] eqn:E; cbn [either]; [intros [= <-]; exact (Q2 _ _ E)|apply Q1]. }
  destruct (refresh_settles u path s s' own c ref content W Dk Ho Hc Hr Hf NE Q Ql H) as (D & T & c' & Hc' & Hr' & Hw).
  apply (settled_refresh u' path s' c' ref content T Hc' Hr'); [now rewrite D|exact Hw].
Qed.

Lemma reset_again base u u' path s s' c content : disk_ok (cs_disk (r_cms s)) ->
  target (r_cms s) (path_parts path) = Some (CItem (path_parts path)) -> current (r_cms s) (CItem (path_parts path)) = Some c ->
  read_file (cs_disk (r_cms s)) (item_file (path_parts path)) = Ok content -> self_equal content ->
  runner_reset base u (Some path) false s = (s', Ok tt) ->
  exists s'', runner_reset base u' (Some path) false s' = (s'', Ok tt) /\ nothing_happens s' s''.
Proof.
  intros Dk Ht Hc Hf Q H. apply (reset_twice base u u' path s s' c content Ht Hc Hf); try assumption.
  destruct (item_file (path_parts path)) as [folders f]. exact (proj2 Dk _ _ Hf).
Qed.
