(** Proofs for C94. *)
From Verif Require Export Failed_Spec.
From Verif Require Import ConfigTree_Proofs ConfigOps_Proofs ConfigLoad_Proofs Runner_Proofs RunnerOps_Proofs Run_Proofs Config_Proofs IsolationRun_Proofs.
Local Open Scope string_scope.
Local Open Scope list_scope.

Lemma touched r a b : touches r (r_cms a) (r_cms b) -> r_calls b = r_calls a -> only_config r a b.
Proof.
  intros T C. split; [apply T|]. split; [|split; [apply T|exact C]]. intros r' N. now apply (touches_current r).
Qed.
Lemma touched_same r a b : touches r (r_cms a) (r_cms b) -> current (r_cms b) r = current (r_cms a) r -> r_loaded b = r_loaded a -> r_calls b = r_calls a ->
  as_before a b.
Proof.
  intros T E L C. split; [apply T|]. split; [|split; [apply T|split; [exact L|exact C]]]. intros r'.
  destruct (cref_eq_dec r' r) as [->|N]; [exact E|]. now apply (touches_current r).
Qed.
Lemma before_refl s : as_before s s. Proof. repeat split. Qed.

Lemma passed_relevant k vals : passed k vals (relevant_config k vals).
Proof. intro x. unfold relevant_config. apply dget_dfilter. Qed.

Lemma applied_given u o vals o' : dwf vals -> applied_to u o vals = Ok o' -> given_values vals o o'.
Proof.
  intros W H. destruct o as [id f b kw|id k calls]; cbn in H.
  - injection H as <-. cbn. repeat split. intro x. rewrite (apply_partial_get vals kw x W). destruct (dget x kw); [|reflexivity]. now destruct (dget x vals).
  - destruct (u_init u k _); [discriminate|]. injection H as <-. cbn. repeat split. exists (relevant_config k vals). split; [apply passed_relevant|reflexivity].
Qed.
Lemma applied_raises u path s o vals e : dget path (r_loaded s) = Some o -> applied_to u o vals = Raise e -> init_raises u path s vals e.
Proof.
  intros L H. destruct o as [id f b kw|id k calls]; cbn in H; [discriminate|]. destruct (u_init u k _) as [e'|] eqn:E; [|discriminate].
  injection H as ->. exists id, k, calls, (relevant_config k vals). split; [exact L|]. split; [apply passed_relevant|exact E].
Qed.

Definition merged (c : config) (d : option (dict pyval)) (kw : dict pyval) : dict pyval -> Prop :=
  fun vals => forall k, dget k vals = first_of k [kw; opt_dict d; c_vals c].
Lemma update_merged c d persist kw : dwf kw -> dwf (opt_dict d) -> merged c d kw (c_vals (cfg_update c d persist kw)).
Proof.
  intros Wk Wd k. cbn [cfg_update c_vals first_of]. rewrite !dget_dupdate by assumption. destruct (dget k kw); [reflexivity|].
  destruct (dget k (opt_dict d)); [reflexivity|]. now destruct (dget k (c_vals c)).
Qed.

Lemma failed_update u d path persist kw s s' e : cms_wf (r_cms s) -> dwf kw -> dwf (opt_dict d) ->
  runner_update u d (Some path) persist kw s = (s', Raise e) ->
  as_before s s' \/
  exists r c c', target (r_cms s) (path_parts path) = Some r /\ current (r_cms s) r = Some c /\ current (r_cms s') r = Some c' /\
    c' = cfg_update c d persist kw /\ would_update c (Some (dupdate (opt_dict d) kw)) [] = Ok true /\ dmem "config_" kw = false /\ dmem "E" kw = false /\
    only_config r s s' /\
    (init_raises u path s (c_vals c') e /\ r_loaded s' = r_loaded s \/
     dmem "d" kw = true /\ e = TypeError /\ exists o o', dget path (r_loaded s) = Some o /\ given_values (c_vals c') o o' /\ r_loaded s' = dset path o' (r_loaded s)).
Proof.
  intros W Wk Wd H. assert (S := runner_update_spec _ _ _ _ _ _ _ _ H). cbv zeta in S. destruct (target (r_cms s) (path_parts path)) as [r|] eqn:Et.
  2:{ destruct S as (-> & _). left. apply before_refl. }
  destruct S as (T & C & _ & S). destruct (current (r_cms s) r) as [c|] eqn:Ec.
  2:{ destruct S as (-> & _). left. apply before_refl. }
  assert (Wc := proj2 W r c Ec). unfold cfg_checked_update in S.
  destruct (dmem "config_" kw) eqn:Ek.
  { destruct S as (_ & L & R). left. apply (touched_same r); congruence. }
  destruct (would_update c (Some (dupdate (opt_dict d) kw)) []) as [[]|e1] eqn:Ew.
  3:{ destruct S as (_ & L & R). left. apply (touched_same r); congruence. }
  2:{ destruct S as (_ & X & _). discriminate. }
  destruct (dmem "E" kw) eqn:EE.
  { destruct S as (_ & L & R). left. apply (touched_same r); congruence. }
  destruct S as (R & S). destruct (dget path (r_loaded s)) as [ob|] eqn:El; [|destruct S; discriminate].
  right. exists r, c, (cfg_update c d persist kw). split; [reflexivity|]. split; [exact Ec|]. split; [exact R|]. split; [reflexivity|]. split; [exact Ew|].
  split; [first [exact Ek|reflexivity]|]. split; [first [exact EE|reflexivity]|]. split; [now apply touched|].
  destruct (applied_to u ob (c_vals (cfg_update c d persist kw))) as [ob'|e1] eqn:Ea.
  - destruct S as (L & S). destruct (dmem "d" kw); destruct S as (S & _); [|discriminate]. injection S as ->. right. split; [reflexivity|]. split; [reflexivity|].
    exists ob, ob'. split; [reflexivity|]. split; [|exact L]. eapply applied_given; [|exact Ea].
    cbn [cfg_update c_vals]. apply dupdate_wf, dupdate_wf, Wc.
  - destruct S as ([= ->] & L & _). left. split; [|exact L]. eapply applied_raises; eassumption.
Qed.

(** once the values are there, giving them again does nothing *)
Lemma would_not_update vals l : (forall k v, In (k, v) l -> exists w, dget k vals = Some w /\ values_are_equal w v = Ok true) -> would_update_loop vals l = Ok false.
Proof.
  induction l as [|[k v] l IH]; intro H; [reflexivity|]. cbn [would_update_loop]. destruct (H k v (or_introl eq_refl)) as (w & -> & ->).
  apply IH. intros k' v' I. apply H. now right.
Qed.
Lemma update_again c d persist kw : dwf kw -> dwf (opt_dict d) -> self_equal (dupdate (opt_dict d) kw) ->
  would_update (cfg_update c d persist kw) (Some (dupdate (opt_dict d) kw)) [] = Ok false.
Proof.
  intros Wk Wd Q. unfold would_update. cbn [opt_dict]. rewrite dupdate_nil_r. apply would_not_update. intros k v I.
  assert (W : dwf (dupdate (opt_dict d) kw)) by now apply dupdate_wf. apply (In_dget _ _ _ W) in I. exists v. split; [|now apply (Q k)].
  rewrite (update_merged c d persist kw Wk Wd k). cbn [first_of]. rewrite dget_dupdate in I by exact Wk.
  destruct (dget k kw); [exact I|]. now rewrite I.
Qed.
Lemma failed_again u u' d path persist persist' kw s s' e : cms_wf (r_cms s) -> dwf kw -> dwf (opt_dict d) -> self_equal (dupdate (opt_dict d) kw) ->
  runner_update u d (Some path) persist kw s = (s', Raise e) -> ~ as_before s s' ->
  exists s'', runner_update u' d (Some path) persist' kw s' = (s'', Ok tt) /\ as_before s' s''.
Proof.
  intros W Wk Wd Q H N. destruct (failed_update _ _ _ _ _ _ _ _ W Wk Wd H) as [B|(r & c & c' & Et & Ec & Ec' & Eq & Ew & Ek & EE & (O & _) & _)]; [contradiction|].
  destruct (runner_update u' d (Some path) persist' kw s') as [s'' o] eqn:E. assert (S := runner_update_spec _ _ _ _ _ _ _ _ E). cbv zeta in S.
  rewrite O, Et in S. destruct S as (T & C & _ & S). rewrite Ec' in S. unfold cfg_checked_update in S. rewrite Ek in S. subst c'.
  rewrite (update_again c d persist kw Wk Wd Q) in S. destruct S as (R & -> & L & _). exists s''. split; [reflexivity|].
  apply (touched_same r); congruence.
Qed.

Lemma update_passes u d path persist kw s s' id k calls : cms_wf (r_cms s) -> dwf kw -> dwf (opt_dict d) ->
  runner_update u d (Some path) persist kw s = (s', Ok tt) -> dget path (r_loaded s) = Some (LInst id k calls) ->
  as_before s s' \/
  exists r c c' args, target (r_cms s) (path_parts path) = Some r /\ current (r_cms s) r = Some c /\ current (r_cms s') r = Some c' /\
    merged c d kw (c_vals c') /\ passed k (c_vals c') args /\ dget path (r_loaded s') = Some (LInst id k (calls ++ [args])).
Proof.
  intros W Wk Wd H Ld. assert (S := runner_update_spec _ _ _ _ _ _ _ _ H). cbv zeta in S. destruct (target (r_cms s) (path_parts path)) as [r|] eqn:Et.
  2:{ destruct S as (_ & e & S). discriminate. }
  destruct S as (T & C & _ & S). destruct (current (r_cms s) r) as [c|] eqn:Ec.
  2:{ destruct S as (_ & e & S). discriminate. }
  unfold cfg_checked_update in S. destruct (dmem "config_" kw) eqn:Ek; [destruct S; discriminate|].
  destruct (would_update c (Some (dupdate (opt_dict d) kw)) []) as [[]|e1] eqn:Ew.
  3:{ destruct S; discriminate. }
  2:{ destruct S as (R & _ & L & _). left. apply (touched_same r); congruence. }
  destruct (dmem "E" kw) eqn:EE; [destruct S; discriminate|].
  destruct S as (R & S). rewrite Ld in S. cbn [applied_to] in S. destruct (u_init u k _); [destruct S; discriminate|]. destruct S as (L & _).
  right. exists r, c, (cfg_update c d persist kw), (relevant_config k (c_vals (cfg_update c d persist kw))).
  split; [reflexivity|]. split; [exact Ec|]. split; [exact R|]. split; [now apply update_merged|]. split; [apply passed_relevant|]. rewrite L. apply dget_dset_eq.
Qed.

(** * Refreshing *)
Lemma failed_refresh u path s s' e : cms_wf (r_cms s) -> target (r_cms s) (path_parts path) = Some (CItem (path_parts path)) ->
  runner_refresh u path s = (s', Raise e) ->
  as_before s s' \/
  only_config (CItem (path_parts path)) s s' /\ r_loaded s' = r_loaded s /\
  (exists c, current (r_cms s') (CItem (path_parts path)) = Some c /\ init_raises u path s (c_vals c) e) /\
  forall u', (forall k a, u_init u' k a = None) -> exists s'', runner_refresh u' path s = (s'', Ok tt) /\
    forall r, current (r_cms s'') r = current (r_cms s') r.
Proof.
  intros W Ht H. unfold runner_refresh, bind at 1, on_cms in H. set (p := path_parts path) in *.
  assert (W1 := cm_refresh_wf (r_cms s) path W).
  destruct (cm_refresh path (r_cms s)) as [st o1] eqn:E. assert (S := cm_refresh_spec _ _ _ _ E). fold p in S. cbn [fst] in W1. rewrite Ht in S. destruct S as (T & S).
  assert (K : forall c, current (r_cms s) (CItem p) = Some c -> read_cref st (CItem p) = Some c -> as_before s (RS st (r_loaded s) (r_next s) (r_calls s))).
  { intros c Hc R. apply (touched_same (CItem p)); [exact T| |reflexivity|reflexivity]. cbn [r_cms]. rewrite Hc. now apply read_current. }
  destruct (current (r_cms s) (CItem p)) as [c|] eqn:Ec.
  2:{ destruct S as (-> & e1 & ->). injection H as <- <-. left. destruct s. apply before_refl. }
  specialize (K c eq_refl). destruct (c_file c) as [ref|]; [|destruct S as (-> & R); injection H as <- <-; left; now apply K].
  destruct (read_file _ ref) as [content|]; [|destruct S as (-> & R); injection H as <- <-; left; now apply K].
  destruct (cfg_checked_refresh c content) as [[[c' b] ups]|]; [|destruct S as (-> & R); injection H as <- <-; left; now apply K].
  destruct S as (-> & R & Tr). apply read_current in R as R'. unfold bind at 1, loaded_at, gets in H. cbn [r_loaded] in H.
  destruct (dget path (r_loaded s)) as [ob|] eqn:El; [|discriminate]. destruct b; [|discriminate].
  set (s1 := RS st (r_loaded s) (r_next s) (r_calls s)) in *.
  assert (Ho1 : own_values (r_cms s1) p = Some (c_vals c')) by (rewrite own_values_current; cbn [r_cms s1]; now rewrite R').
  destruct (get_config_spec s1 path (c_vals c') W1 Ho1) as (cfg & s2 & E2 & (R1 & R2 & R3 & _) & Tr2 & T2 & Sc & W2 & Wc & V).
  unfold bind at 1 in H. rewrite E2 in H. unfold bind at 1 in H. rewrite apply_config_eq in H.
  destruct (applied_to u ob (c_vals cfg)) as [ob'|e1] eqn:Ea; [discriminate|]. injection H as <- <-. right.
  split; [apply touched; [eapply touches_trans; [exact T|exact T2]|exact R3]|]. split; [exact R1|]. split.
  - exists cfg. split; [cbn [current]; fold p in Sc; now rewrite Sc|]. eapply applied_raises; eassumption.
  - intros u' N. unfold runner_refresh, bind at 1, on_cms at 1. rewrite E. cbn [r_cms]. unfold bind at 1, loaded_at, gets. cbn [r_loaded]. rewrite El. fold s1.
    unfold bind at 1. rewrite E2. unfold bind at 1. rewrite apply_config_eq.
    assert (A : exists o2, applied_to u' ob (c_vals cfg) = Ok o2) by (destruct ob; cbn; [eauto|]; rewrite N; eauto). destruct A as [o2 ->].
    unfold on_cms, emit, modify. cbn. eexists. split; [reflexivity|]. intros [|q|q]; reflexivity.
Qed.

(** * Resetting *)
Lemma failed_reset base u path s s' e c : cms_wf (r_cms s) -> target (r_cms s) (path_parts path) = Some (CItem (path_parts path)) ->
  current (r_cms s) (CItem (path_parts path)) = Some c ->
  runner_reset base u (Some path) false s = (s', Raise e) ->
  as_before s s' \/
  exists content c', read_file (cs_disk (r_cms s)) (item_file (path_parts path)) = Ok content /\ only_config (CItem (path_parts path)) s s' /\
    current (r_cms s') (CItem (path_parts path)) = Some c' /\ c_vals c' = content /\ c_applied c' = [] /\
    (init_raises u path s content e /\ r_loaded s' = r_loaded s \/
     (exists v, dget "d" content = Some v /\ v <> VNone) /\ e = TypeError /\
     exists o o', dget path (r_loaded s) = Some o /\ given_values content o o' /\ r_loaded s' = dset path o' (r_loaded s)).
Proof.
  intros W Ht Hc H. unfold runner_reset, bind at 1, on_cms in H.
  destruct (cm_reset base (Some path) false (r_cms s)) as [st o1] eqn:E.
  destruct (cm_reset_item _ _ _ _ _ Ht E) as (T & S). set (p := path_parts path) in *.
  destruct (read_file (cs_disk (r_cms s)) (item_file p)) as [content|e1] eqn:Ef.
  2:{ destruct S as (-> & ->). injection H as <- <-. left. destruct s. apply before_refl. }
  rewrite Hc in S.
  assert (K : read_cref st (CItem p) = Some c -> as_before s (RS st (r_loaded s) (r_next s) (r_calls s))).
  { intros R. apply (touched_same (CItem p)); [exact T| |reflexivity|reflexivity]. cbn [r_cms]. rewrite Hc. now apply read_current. }
  destruct (value_as_kwargs content) as [ups|]; [|destruct S as (-> & R & _); injection H as <- <-; left; now apply K].
  destruct (would_update c (Some ups) []) as [[]|]; [| |destruct S as (-> & R & _); injection H as <- <-; left; now apply K].
  2:{ destruct S as (-> & R & Tr). unfold bind, loaded_at, gets in H. cbn [r_loaded] in H. destruct (dget path (r_loaded s)); discriminate. }
  destruct S as (-> & R & Tr). apply read_current in R as R'. unfold bind at 1, loaded_at, gets in H. cbn [r_loaded] in H.
  destruct (dget path (r_loaded s)) as [ob|] eqn:El; [|discriminate].
  unfold bind at 1 in H. cbn [opt_path item_default loaded_config c_vals] in H. rewrite apply_config_eq in H.
  cbn [r_cms r_loaded r_next r_calls] in H. right. exists content, (item_default p content). split; [reflexivity|].
  destruct (applied_to u ob content) as [ob'|e1] eqn:Ea.
  2:{ injection H as <- <-. split; [now apply touched|]. split; [exact R'|]. split; [reflexivity|]. split; [reflexivity|]. left. split; [|reflexivity]. eapply applied_raises; eassumption. }
  unfold bind at 1, lift in H. unfold post_reset_updates in H. destruct (dget "d" content) as [v|] eqn:Ed; [|discriminate].
  assert (N : v <> VNone) by (intros ->; discriminate).
  assert (X : (RS st (dset path ob' (r_loaded s)) (r_next s) (r_calls s), Raise (A := unit) TypeError) = (s', Raise e)) by (destruct v; try exact H; now elim N).
  injection X as <- <-. split; [now apply touched|]. split; [exact R'|]. split; [reflexivity|]. split; [reflexivity|]. right. split; [eauto|]. split; [reflexivity|].
  exists ob, ob'. split; [reflexivity|]. split; [|reflexivity]. eapply applied_given; [|exact Ea]. exact (proj1 W _ _ Ef).
Qed.

(** * Getting *)
Lemma failed_obj its u path s s' own e : cms_wf (r_cms s) -> own_values (r_cms s) (path_parts path) = Some own -> is_thing its path ->
  get_one_obj_with_config its u path s = (s', Raise e) -> only_config (CItem (path_parts path)) s s' /\ r_loaded s' = r_loaded s.
Proof.
  intros W Ho (b & t & Hf) H. destruct (get_config_spec s path own W Ho) as (c & s1 & E & (R1 & R2 & R3 & _) & Tr & T & Sc & W1 & Wc & V).
  unfold get_one_obj_with_config, bind at 1, gets in H. destruct (dget path (r_loaded s)); [discriminate|].
  unfold bind at 1, lift at 1 in H. rewrite Hf in H. unfold get_class_and_config in H. unfold bind at 1 in H. unfold bind at 1 in H. rewrite E in H.
  unfold bind at 1, lift in H. rewrite Hf in H. cbn [snd] in H.
  assert (D : s' = s1); [|subst; split; [now apply touched|exact R1]].
  destruct t; cbn [ret raise] in H; try (injection H as <- _; reflexivity).
  all: match type of H with context [u_init ?w ?k ?a] => destruct (u_init w k a) end; [injection H as <- _; reflexivity|discriminate].
Qed.
Lemma failed_func its path s s' own e : cms_wf (r_cms s) -> own_values (r_cms s) (path_parts path) = Some own -> is_thing its path ->
  get_one_func_with_config its path s = (s', Raise e) -> only_config (CItem (path_parts path)) s s' /\ r_loaded s' = r_loaded s.
Proof.
  intros W Ho (b & t & Hf) H. destruct (get_config_spec s path own W Ho) as (c & s1 & E & (R1 & R2 & R3 & _) & Tr & T & Sc & W1 & Wc & V).
  unfold get_one_func_with_config, bind at 1, gets in H. destruct (dget path (r_loaded s)); [discriminate|].
  unfold get_func_and_config in H. unfold bind at 1 in H. unfold bind at 1 in H. rewrite E in H.
  unfold bind at 1, lift in H. rewrite Hf in H. cbn [snd] in H.
  assert (D : s' = s1); [|subst; split; [now apply touched|exact R1]].
  destruct t; cbn [ret raise] in H; try discriminate; injection H as <- _; reflexivity.
Qed.
Lemma only_refl r s : only_config r s s. Proof. repeat split. Qed.
Lemma failed_get its u path s s' own e : cms_wf (r_cms s) -> own_values (r_cms s) (path_parts path) = Some own -> is_thing its path ->
  runner_get its u path s = (s', Raise e) -> only_config (CItem (path_parts path)) s s' /\ r_loaded s' = r_loaded s.
Proof.
  intros W Ho I H. assert (I' := I). destruct I' as (b & t & Hf). unfold runner_get, bind at 1, lift in H. rewrite Hf in H. cbn [snd] in H.
  unfold bind in H.
  destruct t.
  - destruct (get_one_func_with_config its path s) as [s1 [o|e1]] eqn:E; [discriminate|]. injection H as <- <-. now apply (failed_func its path s s1 own e1).
  - destruct (get_one_obj_with_config its u path s) as [s1 [o|e1]] eqn:E; [discriminate|]. injection H as <- <-. now apply (failed_obj its u path s s1 own e1).
  - injection H as <- <-. split; [apply only_refl|reflexivity].
  - injection H as <- <-. split; [apply only_refl|reflexivity].
  - destruct (get_one_obj_with_config its u path s) as [s1 [o|e1]] eqn:E; [discriminate|]. injection H as <- <-. now apply (failed_obj its u path s s1 own e1).
Qed.

Lemma config_again path s s1 c own : cms_wf (r_cms s) -> own_values (r_cms s) (path_parts path) = Some own -> get_config path s = (s1, Ok c) ->
  exists s2 c2, get_config path s1 = (s2, Ok c2) /\ same_run s1 s2 /\ forall k, dget k (c_vals c2) = dget k (c_vals c).
Proof.
  intros W Ho E. destruct (get_config_spec s path own W Ho) as (c0 & s0 & E0 & _ & _ & T & Sc & W1 & Wc & V). rewrite E in E0. injection E0 as <- <-.
  assert (Ec : current (r_cms s1) (CItem (path_parts path)) = Some c) by (cbn [current]; now rewrite Sc).
  assert (Ho1 : own_values (r_cms s1) (path_parts path) = Some (c_vals c)) by (now rewrite own_values_current, Ec).
  destruct (get_config_spec s1 path (c_vals c) W1 Ho1) as (c2 & s2 & E2 & R & _ & _ & _ & _ & _ & V2). exists s2, c2. split; [exact E2|]. split; [exact R|].
  intro k. rewrite V2. rewrite own_values_current in Ho. destruct (current (r_cms s) (CItem (path_parts path))) as [c1|] eqn:E1; [|discriminate]. injection Ho as <-.
  refine (effective_again (r_cms s) (r_cms s1) (CItem (path_parts path)) c1 c k T _ E1 _ V); [discriminate|].
  rewrite read_cref_see. now rewrite Sc.
Qed.

Lemma get_again its u path s s' own k e : cms_wf (r_cms s) -> own_values (r_cms s) (path_parts path) = Some own -> is_class its path k ->
  runner_get its u path s = (s', Raise e) ->
  exists args, u_init u k args = Some e /\ (forall x, dget x args = if mem x (class_args k) then effective (r_cms s) (path_parts path) own x else None) /\
  forall u', exists args', (forall x, dget x args' = dget x args) /\
    snd (runner_get its u' path s') = match u_init u' k args' with Some e' => Raise e' | None => Ok (GObj (LInst (r_next s') k [args'])) end.
Proof.
  intros W Ho (b & Hf) H. destruct (get_config_spec s path own W Ho) as (c & s1 & E & (R1 & R2 & R3 & _) & Tr & T & Sc & W1 & Wc & V).
  unfold runner_get, bind at 1, lift in H. rewrite Hf in H. cbn [snd] in H.
  unfold bind at 1, get_one_obj_with_config, bind at 1, gets in H. destruct (dget path (r_loaded s)) eqn:El; [discriminate|].
  unfold bind at 1, lift at 1 in H. rewrite Hf in H. unfold get_class_and_config in H. unfold bind at 1 in H. unfold bind at 1 in H. rewrite E in H.
  unfold bind at 1, lift in H. rewrite Hf in H. cbn [snd ret] in H. cbv zeta in H. set (args := for_function c (class_args k)) in *. destruct (u_init u k args) as [e1|] eqn:Eu; [|discriminate].
  injection H as <- <-. exists args. split; [exact Eu|]. split.
  { intro x. unfold args, for_function. rewrite dget_dfilter. destruct (mem x (class_args k)); [apply V|reflexivity]. }
  intro u'. destruct (config_again path s s1 c own W Ho E) as (s2 & c2 & E2 & (Q1 & Q2 & Q3 & _) & V2).
  set (args' := for_function c2 (class_args k)). exists args'. split.
  { intro x. unfold args', args, for_function. rewrite !dget_dfilter. destruct (mem x (class_args k)); [apply V2|reflexivity]. }
  rewrite <- Q2. unfold runner_get, bind at 1, lift. rewrite Hf. cbn [snd].
  unfold bind at 1, get_one_obj_with_config, bind at 1, gets. rewrite R1, El.
  unfold bind at 1, lift at 1. rewrite Hf. unfold get_class_and_config. unfold bind at 1. unfold bind at 1. rewrite E2.
  unfold bind at 1, lift. rewrite Hf. cbn [snd ret]. cbv zeta. fold args'. now destruct (u_init u' k args').
Qed.

(** * Running *)
(** what a step of a run does: at most the config of the item is different, and the object is loaded *)
Definition usable (path : string) (s : rs) : Prop := cms_wf (r_cms s) /\ exists own, own_values (r_cms s) (path_parts path) = Some own.
Definition found (path : string) (s s' : rs) (r : res lobj) : Prop :=
  touches (CItem (path_parts path)) (r_cms s) (r_cms s') /\ r_calls s' = r_calls s /\
  (forall q, q <> path -> dget q (r_loaded s') = dget q (r_loaded s)) /\ (usable path s -> usable path s') /\
  match r with Raise e => r_loaded s' = r_loaded s | Ok o => dget path (r_loaded s') = Some o /\ forall o', dget path (r_loaded s) = Some o' -> o = o' end.
Lemma found_here path s o : dget path (r_loaded s) = Some o -> found path s s (Ok o).
Proof. intro L. split; [apply touches_refl|]. split; [reflexivity|]. split; [reflexivity|]. split; [auto|]. split; [exact L|]. congruence. Qed.
Lemma found_after path s s1 s' r : touches (CItem (path_parts path)) (r_cms s) (r_cms s1) -> r_calls s1 = r_calls s -> r_loaded s1 = r_loaded s -> usable path s1 ->
  found path s1 s' r -> found path s s' r.
Proof.
  intros T C L U (T1 & C1 & L1 & U1 & R). split; [eapply touches_trans; eassumption|]. split; [congruence|]. split; [intros q N; rewrite <- L; now apply L1|].
  split; [auto|]. now rewrite <- L.
Qed.
Lemma found_nothing path s e : found path s s (Raise e).
Proof. split; [apply touches_refl|]. split; [reflexivity|]. split; [reflexivity|]. split; [auto|reflexivity]. Qed.
Lemma found_new path s o n : dget path (r_loaded s) = None -> found path s (RS (r_cms s) (dset path o (r_loaded s)) n (r_calls s)) (Ok o).
Proof.
  intro L. split; [apply touches_refl|]. split; [reflexivity|]. split; [intros q N; now apply dget_dset_neq|]. split; [auto|]. split; [apply dget_dset_eq|]. congruence.
Qed.
Lemma seen_usable path s c : cms_wf (r_cms s) -> see (r_cms s) (path_parts path) = Some (SConf c) -> usable path s.
Proof. intros W Sc. split; [exact W|]. exists (c_vals c). rewrite own_values_current. cbn [current]. now rewrite Sc. Qed.

Lemma obj_found its u path s own s' r : cms_wf (r_cms s) -> own_values (r_cms s) (path_parts path) = Some own -> is_thing its path ->
  get_one_obj_with_config its u path s = (s', r) -> found path s s' r.
Proof.
  intros W Ho (b & t & Hf) H. destruct (get_config_spec s path own W Ho) as (c & s1 & E & (R1 & R2 & R3 & _) & Tr & T & Sc & W1 & Wc & V).
  assert (U := seen_usable path s1 c W1 Sc).
  unfold get_one_obj_with_config, bind at 1, gets in H. destruct (dget path (r_loaded s)) as [o|] eqn:L; [injection H as <- <-; now apply found_here|].
  unfold bind at 1, lift at 1 in H. rewrite Hf in H. unfold get_class_and_config in H. unfold bind at 1 in H. unfold bind at 1 in H. rewrite E in H.
  unfold bind at 1, lift in H. rewrite Hf in H. cbn [snd] in H. apply (found_after path s s1); try assumption. rewrite <- R1 in L.
  destruct t; cbn [ret raise] in H; try (injection H as <- <-; apply found_nothing).
  all: match type of H with context [u_init ?w ?k ?a] => destruct (u_init w k a) end; injection H as <- <-; [apply found_nothing|now apply found_new].
Qed.
Lemma func_found its path s own s' r : cms_wf (r_cms s) -> own_values (r_cms s) (path_parts path) = Some own -> is_thing its path ->
  get_one_func_with_config its path s = (s', r) -> found path s s' r.
Proof.
  intros W Ho (b & t & Hf) H. destruct (get_config_spec s path own W Ho) as (c & s1 & E & (R1 & R2 & R3 & _) & Tr & T & Sc & W1 & Wc & V).
  assert (U := seen_usable path s1 c W1 Sc).
  unfold get_one_func_with_config, bind at 1, gets in H. destruct (dget path (r_loaded s)) as [o|] eqn:L; [injection H as <- <-; now apply found_here|].
  unfold get_func_and_config in H. unfold bind at 1 in H. unfold bind at 1 in H. rewrite E in H.
  unfold bind at 1, lift in H. rewrite Hf in H. cbn [snd] in H. apply (found_after path s s1); try assumption. rewrite <- R1 in L.
  destruct t; cbn [ret raise] in H; injection H as <- <-; first [apply found_nothing|now apply found_new].
Qed.
Lemma head_found its u path s own th s' r : cms_wf (r_cms s) -> own_values (r_cms s) (path_parts path) = Some own -> (exists b, get_func_or_collection its path = Ok (b, FThing th)) ->
  run_head its u path th s = (s', r) -> found path s s' r /\
  forall u' s2 o', usable path s2 -> dget path (r_loaded s2) = Some o' -> (exists o, r = Ok o) -> 
    exists s3, run_head its u' path th s2 = (s3, Ok o') /\ r_calls s3 = r_calls s2 /\ r_loaded s3 = r_loaded s2.
Proof.
  intros W Ho (b & Hf) H.
  assert (I : is_thing its path) by (exists b, th; exact Hf).
  assert (G : forall s own, cms_wf (r_cms s) -> own_values (r_cms s) (path_parts path) = Some own -> exists c s1,
    touches (CItem (path_parts path)) (r_cms s) (r_cms s1) /\ r_calls s1 = r_calls s /\ r_loaded s1 = r_loaded s /\ usable path s1 /\
    get_func_and_config its path s = (s1, match th with TFunc f => Ok (f, false, for_function c (f_args f)) | TClass k => Ok (k, true, for_function c (class_args k)) | _ => Raise TypeError end) /\
    get_class_and_config its path s = (s1, match th with TInst k => Ok (k, false, for_function c (class_args k)) | TClass k => Ok (k, true, for_function c (class_args k)) | _ => Raise TypeError end)).
  { clear - Hf. intros s own W Ho. destruct (get_config_spec s path own W Ho) as (c & s1 & E & (R1 & R2 & R3 & _) & Tr & T & Sc & W1 & Wc & V). exists c, s1.
    split; [exact T|]. split; [exact R3|]. split; [exact R1|]. split; [now apply (seen_usable path s1 c)|]. split.
    - unfold get_func_and_config, bind at 1. rewrite E. unfold bind at 1, lift. rewrite Hf. cbn [snd]. now destruct th.
    - unfold get_class_and_config, bind at 1. rewrite E. unfold bind at 1, lift. rewrite Hf. cbn [snd]. now destruct th. }
  destruct (G s own W Ho) as (c & s1 & T & R3 & R1 & U & Gf & Gc). split.
  - destruct U as (W1 & own1 & Ho1).
    destruct th; cbn [run_head] in H; unfold bind in H; try (injection H as <- <-; apply found_nothing); first [rewrite Gf in H|rewrite Gc in H];
      apply (found_after path s s1); try assumption; try (split; [exact W1|eauto]); first [now apply (func_found its path s1 own1)|now apply (obj_found its u path s1 own1)].
  - intros u' s2 o' (W2 & own2 & Ho2) L (o & ->). destruct (G s2 own2 W2 Ho2) as (c2 & s3 & T2 & C3 & L3 & _ & Gf2 & Gc2). exists s3. split; [|auto].
    destruct th; cbn [run_head] in H |- *; unfold bind; try discriminate; first [rewrite Gf2|rewrite Gc2];
      unfold get_one_func_with_config, get_one_obj_with_config, bind, gets; rewrite L3, L; reflexivity.
Qed.

Lemma failed_run its u path s s' own e : cms_wf (r_cms s) -> own_values (r_cms s) (path_parts path) = Some own -> is_thing its path -> u_pre_run u = [] ->
  pm_run its u Plain (AStr path) s = (s', Raise e) ->
  only_config (CItem (path_parts path)) s s' /\ r_loaded s' = r_loaded s \/
  exists o, (forall q, target (r_cms s') q = target (r_cms s) q) /\ (forall r, r <> CItem (path_parts path) -> current (r_cms s') r = current (r_cms s) r) /\
    cs_disk (r_cms s') = cs_disk (r_cms s) /\ (forall q, q <> path -> dget q (r_loaded s') = dget q (r_loaded s)) /\
    dget path (r_loaded s') = Some o /\ (forall o', dget path (r_loaded s) = Some o' -> o = o') /\
    r_calls s' = r_calls s ++ [(path, o)] /\ u_call u (r_calls s) path o = Raise e /\
    forall u', u_pre_run u' = [] -> let again := pm_run its u' Plain (AStr path) s' in
      r_calls (fst again) = r_calls s' ++ [(path, o)] /\ r_loaded (fst again) = r_loaded s' /\
      match u_call u' (r_calls s') path o with Raise e' => snd again = Raise e' | Ok v => u_post_run u' (RVal v) = [] -> snd again = Ok (RVal v) end.
Proof.
  intros W Ho I P H. destruct I as (b & th & Hf). rewrite (pm_run_eq its u path Plain s P), (run_one_eq its u path b th s Hf) in H.
  unfold bind in H. destruct (run_head its u path th s) as [s1 r] eqn:E. destruct (head_found its u path s own th s1 r W Ho (ex_intro _ b Hf) E) as (F & A).
  destruct r as [o|e1]; cbn [fst snd] in H.
  - destruct F as (T & C & L & U & D & D'). unfold call_object in H. cbn [fst snd] in H. right. exists o.
    assert (s' = fst (RS (r_cms s1) (r_loaded s1) (r_next s1) (r_calls s1 ++ [(path, o)]), tt)) by (cbn [fst]; congruence). subst s'. cbn [fst r_cms r_loaded r_calls].
    rewrite C in *. split; [apply T|]. split; [intros r N; now apply (touches_current (CItem (path_parts path)))|]. split; [apply T|]. split; [exact L|]. split; [exact D|]. split; [exact D'|]. split; [reflexivity|]. split.
    { destruct (u_call u (r_calls s) path o); [discriminate|]. cbn in H. congruence. }
    intros u' P'. cbv zeta. rewrite (pm_run_eq its u' path Plain _ P'), (run_one_eq its u' path b th _ Hf). unfold bind.
    set (s2 := RS (r_cms s1) (r_loaded s1) (r_next s1) (r_calls s ++ [(path, o)])).
    destruct (A u' s2 o (U (conj W (ex_intro _ own Ho))) D (ex_intro _ o eq_refl)) as (s3 & -> & C3 & L3). unfold call_object. cbn [fst snd r_calls r_loaded]. rewrite C3, L3.
    split; [reflexivity|]. split; [reflexivity|]. cbn [r_calls s2]. destruct (u_call u' _ path o); cbn; [|reflexivity]. now intros ->.
  - destruct F as (T & C & L & U & D). injection H as <- <-. left. split; [now apply touched|exact D].
Qed.
