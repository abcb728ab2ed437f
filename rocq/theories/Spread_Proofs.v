(** Proofs about what hooks are told while a change spreads (C108). *)
From Verif Require Export Spread_Spec Deps_Spec.
From Verif Require Import Deps_Proofs.
From Coq Require Import Permutation.
Local Open Scope string_scope.
Local Open Scope list_scope.
Local Open Scope monad_scope.

Section S.
Context {V : Type} (u : user V).
Variable objects : list (ev V) -> ev V -> option exn.
Notation ht := (@ht V).

Definition exn_of {A} (r : res A) : option exn := match r with Ok _ => None | Raise e => Some e end.

(* ------------------------------------------------------------------ *)
(** * Hooks that do not raise change nothing *)

Section Erase.
Hypothesis never : forall l e, objects l e = None.
Definition sim {A} (m : M ht A) (m0 : M (st V) A) : Prop := forall s l, exists k, m (s, l) = ((fst (m0 s), l ++ k), snd (m0 s)).

Lemma sim_ret {A} (a : A) : sim (ret a) (ret a).
Proof. intros s l. exists []. unfold ret; cbn. now rewrite app_nil_r. Qed.
Lemma sim_raise {A} e : sim (raise (A:=A) e) (raise e).
Proof. intros s l. exists []. unfold raise; cbn. now rewrite app_nil_r. Qed.
Lemma sim_on_st {A} (m : M (st V) A) : sim (on_st m) m.
Proof. intros s l. exists []. unfold on_st; cbn. destruct (m s); cbn. now rewrite app_nil_r. Qed.
Lemma sim_gets {A} (f : st V -> A) : sim (gets (fun h => f (fst h))) (gets f).
Proof. intros s l. exists []. unfold gets; cbn. now rewrite app_nil_r. Qed.
Lemma sim_bind {A B} (m : M ht A) m0 (f : A -> M ht B) f0 : sim m m0 -> (forall a, sim (f a) (f0 a)) -> sim (bind m f) (bind m0 f0).
Proof.
  intros H1 H2 s l. unfold bind. destruct (H1 s l) as [k E]. rewrite E. destruct (m0 s) as [s1 [a|e]]; cbn [fst snd].
  - destruct (H2 a s1 (l ++ k)) as [k2 E2]. exists (k ++ k2). rewrite E2. now rewrite app_assoc.
  - now exists k.
Qed.
Lemma sim_tell w i ups {A} (m : M ht A) m0 : sim m m0 -> sim (tell objects w i ups ;;; m) m0.
Proof.
  intros H s l. unfold bind, tell. cbn [fst snd]. rewrite never. match goal with |- context [l ++ [?e]] => set (x := e) end.
  destruct (H s (l ++ [x])) as [k E]. exists (x :: k). rewrite E. now rewrite <- app_assoc.
Qed.
Lemma sim_tell_last w i ups (m : M ht unit) m0 : sim m m0 -> sim (m ;;; tell objects w i ups) m0.
Proof.
  intros H s l. unfold bind. destruct (H s l) as [k E]. rewrite E. destruct (m0 s) as [s1 [[]|e]]; cbn [fst snd].
  - unfold tell. cbn [fst snd]. rewrite never. eexists. now rewrite <- app_assoc.
  - now exists k.
Qed.
Lemma sim_iterM {B} (f : B -> M ht unit) f0 : (forall x, sim (f x) (f0 x)) -> forall l, sim (iterM f l) (iterM f0 l).
Proof. intros H l. induction l as [|x l IH]; cbn [iterM]; [apply sim_ret|]. apply sim_bind; auto. Qed.
Lemma sim_dep_loop f f0 j : (forall x, sim (f x) (f0 x)) -> forall n upd done,
  sim (dep_loop (fun h : ht => dependents j (fst h)) (fun h => u_order u (fst h)) f n upd done) (dep_loop (dependents j) (u_order u) f0 n upd done).
Proof.
  intros H n. induction n as [|n IH]; intros upd done; destruct upd as [|x upd]; cbn [dep_loop]; try apply sim_ret; try apply sim_raise.
  apply sim_bind; [apply (sim_gets (fun s => u_order u s (x :: upd)))|]. intros todo.
  apply sim_bind; [apply sim_iterM; exact H|]. intros _. apply sim_bind; [apply (sim_gets (dependents j))|]. intros all. cbv zeta.
  destruct (same_set _ _); [apply sim_raise | apply IH].
Qed.
Lemma sim_after f f0 n i ups : (forall x, sim (f x) (f0 x)) -> sim (tell_after u objects f n i ups) (refresh_dependents u f0 n i).
Proof.
  intros H. unfold tell_after. apply sim_tell. apply sim_tell_last. unfold refresh_dependents_h, refresh_dependents.
  apply sim_bind; [apply (sim_gets (dependents i))|]. intros deps. now apply sim_dep_loop.
Qed.
Lemma sim_refresh n : forall i, sim (refresh_h u objects n i) (refresh u n i).
Proof.
  induction n as [|n IH]; intros i; cbn [refresh_h refresh]; [apply sim_raise|].
  apply sim_bind; [apply sim_on_st|]. intros _. apply sim_bind; [apply sim_on_st|]. intros d. apply sim_bind; [apply sim_on_st|]. intros c.
  destruct (would_update _ _ _); [|apply sim_ret]. apply sim_tell.
  apply sim_bind; [apply sim_on_st|]. intros d1. apply sim_bind; [apply sim_on_st|]. intros c1. cbv zeta.
  apply sim_bind; [apply sim_on_st|]. intros _. apply sim_bind; [apply (sim_gets (fun s => dget i (objs s)))|]. intros [o|]; [|apply sim_ret].
  apply sim_bind; [apply sim_on_st|]. intros c2. apply sim_bind; [apply sim_on_st|]. intros _. now apply sim_after.
Qed.
Lemma sim_update n i d persist : sim (update_h u objects n i d persist) (update u n i d persist).
Proof.
  unfold update_h, update. apply sim_bind; [apply sim_on_st|]. intros c. destruct (would_update _ _ _); [|apply sim_ret]. apply sim_tell.
  cbv zeta. apply sim_bind; [apply sim_on_st|]. intros _. apply sim_bind; [apply (sim_gets (fun s => dget i (objs s)))|].
  intros [o|]; [|apply sim_ret]. apply sim_bind; [apply sim_on_st|]. intros _. apply sim_after. apply sim_refresh.
Qed.
Lemma sim_op n o : sim (op_run_h u objects n o) (op_run u n o).
Proof. destruct o; cbn [op_run_h op_run]; [apply sim_on_st | apply sim_update | apply sim_refresh]. Qed.
End Erase.

(* ------------------------------------------------------------------ *)
(** * Relations between the state and the log before, and the state and what is told after *)

Lemma own_config_there ld i s s1 c : own_config u ld i s = (s1, Ok c) -> dget i (cfgs s1) = Some c.
Proof.
  rewrite own_config_eq. destruct (dget i (cfgs s)) eqn:E; [intros [= <- <-]; exact E|].
  destruct (exec _ _ _ s) as [s2 [d|e]]; [|discriminate]. intros [= <- <-]. apply dget_dset_eq.
Qed.

Section Rel.
Variable Q : st V -> st V -> Prop.
Hypothesis Q_refl : forall s, Q s s.
Hypothesis Q_trans : forall s1 s2 s3, Q s1 s2 -> Q s2 s3 -> Q s1 s3.
Hypothesis Q_add : forall i j s, Q s (add_dependency i j s).
(** the file may have been executed by a file it reads from, so that the config is there meanwhile *)
Hypothesis Q_new : forall i d s s1, dget i (cfgs s) = None -> Q s s1 -> Q s (state_set_cfg i (Conf d []) s1).
Hypothesis Q_obj : forall i o s, Q s (St (cfgs s) (dset i o (objs s)) (forced s)).
Hypothesis Q_inherit : forall i c s, dget i (cfgs s) = Some c -> Q s (state_set_cfg i (with_inherited u i c) s).

Definition loadsQ (ld : string -> M (st V) unit) : Prop := forall i s, Q s (fst (ld i s)).
Lemma by_view_Q ld : loadsQ ld -> loadsQ (by_view ld).
Proof. intros L i s. specialize (L i s). unfold by_view. destruct (ld i s) as [s1 [a|[]]]; exact L. Qed.
Lemma exec_Q ld i : loadsQ ld -> forall p s, Q s (fst (exec ld i p s)).
Proof.
  intros L p. induction p as [d|e|j k cont IH]; intro s; [apply Q_refl|apply Q_refl|].
  cbn [exec]. unfold bind, modify, gets. assert (X := Q_trans _ _ _ (Q_add i j s) (by_view_Q ld L j (add_dependency i j s))).
  destruct (by_view ld j (add_dependency i j s)) as [s1 [[]|e]]; [|exact X]. cbn [fst] in X.
  destruct (dget j (objs s1)) as [o|]; [|exact X]. destruct (dget k o) as [v|]; [|exact X]. eapply Q_trans; [exact X|apply IH].
Qed.
Lemma own_config_Q ld i : loadsQ ld -> forall s, Q s (fst (own_config u ld i s)).
Proof.
  intros L s. rewrite own_config_eq. destruct (dget i (cfgs s)) as [c|] eqn:Ec; [apply Q_refl|].
  assert (X := exec_Q ld i L (u_file u i) s). destruct (exec ld i (u_file u i) s) as [s1 [d|e]]; [|exact X]. now apply Q_new.
Qed.
Lemma config_get_Q ld i : loadsQ ld -> forall s, Q s (fst (config_get u ld i s)).
Proof.
  intros L s. rewrite config_get_eq. assert (X := own_config_Q ld i L s).
  destruct (own_config u ld i s) as [s1 [c|e]] eqn:E; [|exact X]. apply own_config_there in E. eapply Q_trans; [exact X|]. now apply Q_inherit.
Qed.
Lemma load_Q n : loadsQ (load u n).
Proof.
  induction n as [|n IH]; intros i s; cbn [load]; [apply Q_refl|]. unfold bind, gets. destruct (dget i (objs s)); [apply Q_refl|].
  assert (X := config_get_Q (load u n) i IH s). destruct (config_get u (load u n) i s) as [s1 [c|e]]; [|exact X]. unfold lift.
  destruct (u_init u i (vals c)) as [o|e]; [|exact X]. eapply Q_trans; [exact X|]. apply Q_obj.
Qed.
Lemma apply_Q i o c s : Q s (fst (apply_to_loaded u i o c s)).
Proof. unfold apply_to_loaded, lift, bind, set_obj, modify. destruct (u_apply u i o c); [apply Q_obj | apply Q_refl]. Qed.

(** the relation *)
Variable good : ev V -> Prop.
Variable R : st V -> list (ev V) -> list (ev V) -> st V -> option exn -> Prop.
Hypothesis R_quiet : forall s l s' x, Q s s' -> R s l [] s' x.
Hypothesis R_trans : forall s l k1 s1 k2 s2 x, R s l k1 s1 None -> R s1 (l ++ k1) k2 s2 x -> R s l (k1 ++ k2) s2 x.
Hypothesis R_tell : forall s l e, good e -> R s l [e] s (objects l e).
Hypothesis R_change : forall s l e c, e_when e = Before -> R s (l ++ [e]) [] (state_set_cfg (e_item e) c s) None.
Hypothesis good_before : forall i v ups, would_update u v ups = true -> good (Ev Before i (Some v) ups).
Hypothesis good_users : forall i c ups, dwf ups -> good (Ev Users i (Some (vals (with_inherited u i (cfg_update c ups false)))) ups).
Hypothesis good_users_own : forall i c ups persist, dwf ups -> good (Ev Users i (Some (vals (cfg_update c ups persist))) ups).
Hypothesis good_installed : forall i v ups, good (Ev Installed i v ups).

Definition rel {A} (m : M ht A) : Prop := forall s l, exists k, snd (fst (m (s, l))) = l ++ k /\ R s l k (fst (fst (m (s, l)))) (exn_of (snd (m (s, l)))).
Lemma rel_quiet {A} (m : M (st V) A) : (forall s, Q s (fst (m s))) -> rel (on_st m).
Proof.
  intros H s l. unfold on_st. cbn [fst snd]. specialize (H s). destruct (m s) as [s1 r]. cbn [fst snd] in *. exists []. rewrite app_nil_r. auto.
Qed.
Lemma rel_ret {A} (a : A) : rel (ret a).
Proof. intros s l. exists []. cbn. rewrite app_nil_r. auto. Qed.
Lemma rel_raise {A} e : rel (raise (A:=A) e).
Proof. intros s l. exists []. cbn. rewrite app_nil_r. auto. Qed.
Lemma rel_gets {A} (f : ht -> A) : rel (gets f).
Proof. intros s l. exists []. cbn. rewrite app_nil_r. auto. Qed.
Lemma rel_bind {A B} (m : M ht A) (f : A -> M ht B) : rel m -> (forall a, rel (f a)) -> rel (bind m f).
Proof.
  intros H1 H2 s l. unfold bind. destruct (H1 s l) as [k [E1 R1]]. destruct (m (s, l)) as [[s1 l1] [a|e]]; cbn [fst snd exn_of] in *.
  - subst l1. destruct (H2 a s1 (l ++ k)) as [k2 [E2 R2]]. exists (k ++ k2). rewrite app_assoc. split; [exact E2|]. eapply R_trans; eassumption.
  - exists k. auto.
Qed.
Lemma rel_installed i ups : rel (tell objects Installed i ups).
Proof.
  intros s l. unfold tell. cbn [fst snd]. eexists. split; [reflexivity|].
  match goal with |- R _ _ [?e] _ _ => replace (exn_of _) with (objects l e); [apply R_tell; apply good_installed|] end.
  destruct (objects l _); reflexivity.
Qed.
Lemma rel_iterM {B} (f : B -> M ht unit) : (forall x, rel (f x)) -> forall l, rel (iterM f l).
Proof. intros H l. induction l as [|x l IH]; cbn [iterM]; [apply rel_ret|]. apply rel_bind; auto. Qed.
Lemma rel_dep_loop f j : (forall x, rel (f x)) -> forall n upd done,
  rel (dep_loop (fun h : ht => dependents j (fst h)) (fun h => u_order u (fst h)) f n upd done).
Proof.
  intros H n. induction n as [|n IH]; intros upd done; destruct upd as [|x upd]; cbn [dep_loop]; try apply rel_ret; try apply rel_raise.
  apply rel_bind; [apply rel_gets|]. intros todo. apply rel_bind; [apply rel_iterM; exact H|]. intros _.
  apply rel_bind; [apply rel_gets|]. intros all. cbv zeta. destruct (same_set _ _); [apply rel_raise | apply IH].
Qed.
Lemma rel_dependents f n j : (forall x, rel (f x)) -> rel (refresh_dependents_h u f n j).
Proof. intros H. unfold refresh_dependents_h. apply rel_bind; [apply rel_gets|]. intros deps. now apply rel_dep_loop. Qed.

(** from a given state *)
Definition rel_at {A} (m : M ht A) (s : st V) (l : list (ev V)) : Prop :=
  exists k, snd (fst (m (s, l))) = l ++ k /\ R s l k (fst (fst (m (s, l)))) (exn_of (snd (m (s, l)))).
Lemma at_step {A B} (m : M (st V) A) (f : A -> M ht B) s l : (forall s, Q s (fst (m s))) ->
  (forall s1 a, m s = (s1, Ok a) -> rel_at (f a) s1 l) -> rel_at (bind (on_st m) f) s l.
Proof.
  intros H1 H2. unfold rel_at, bind, on_st. cbn [fst snd]. specialize (H1 s). destruct (m s) as [s1 [a|e]] eqn:E; cbn [fst snd exn_of] in *.
  - destruct (H2 s1 a eq_refl) as [k [E2 R2]]. exists k. split; [exact E2|]. eapply (R_trans s l [] s1 k); [apply R_quiet; exact H1|].
    rewrite app_nil_r. exact R2.
  - exists []. rewrite app_nil_r. auto.
Qed.
Lemma at_tell {B} w i ups (m : M ht B) s l v : dget i (cfgs s) = Some v -> good (Ev w i (Some (vals v)) ups) ->
  (objects l (Ev w i (Some (vals v)) ups) = None -> rel_at m s (l ++ [Ev w i (Some (vals v)) ups])) -> rel_at (tell objects w i ups ;;; m) s l.
Proof.
  intros E G H. unfold rel_at, bind, tell. cbn [fst snd]. rewrite E. cbn [option_map]. set (e := Ev w i (Some (vals v)) ups) in *.
  assert (T := R_tell s l e G). destruct (objects l e) as [x|] eqn:O.
  - exists [e]. split; [reflexivity|]. exact T.
  - destruct (H eq_refl) as [k [E2 R2]]. exists (e :: k). split; [rewrite E2; now rewrite <- app_assoc|].
    change (e :: k) with ([e] ++ k). eapply R_trans; eassumption.
Qed.
Lemma at_change {B} i c (m : M ht B) s l v ups : rel_at m (state_set_cfg i c s) (l ++ [Ev Before i v ups]) ->
  rel_at (on_st (set_cfg i c) ;;; m) s (l ++ [Ev Before i v ups]).
Proof.
  intros [k [E2 R2]]. unfold rel_at, bind, on_st, set_cfg, modify. cbn [fst snd]. fold (state_set_cfg i c s). exists k. split; [exact E2|].
  eapply (R_trans _ _ [] _ k); [apply (R_change s l (Ev Before i v ups) c); reflexivity|]. rewrite app_nil_r. exact R2.
Qed.
Lemma at_gets {A B} (f : st V -> A) (m : A -> M ht B) s l : rel_at (m (f s)) s l -> rel_at (bind (gets (fun h => f (fst h))) m) s l.
Proof. auto. Qed.
Lemma at_rel {A} (m : M ht A) s l : rel m -> rel_at m s l.
Proof. intros H. apply H. Qed.

Lemma at_after f n i ups s l v : (forall x, rel (f x)) -> dget i (cfgs s) = Some v -> good (Ev Users i (Some (vals v)) ups) ->
  rel_at (tell_after u objects f n i ups) s l.
Proof.
  intros H E G. unfold tell_after. eapply at_tell; [exact E | exact G|]. intros _. apply at_rel. apply rel_bind; [now apply rel_dependents|].
  intros _. apply rel_installed.
Qed.
Lemma apply_cfgs i o c s s1 : apply_to_loaded u i o c s = (s1, Ok tt) -> cfgs s1 = cfgs s.
Proof. unfold apply_to_loaded, lift, bind, set_obj, modify. destruct (u_apply u i o c); [intros [= <-]; reflexivity | discriminate]. Qed.
Lemma exec_dwf ld i : forall (p : prog V) s s1 (d : dict V), exec ld i p s = (s1, Ok d) -> dwf d.
Proof.
  induction p as [d0|e|j k cont IH]; intros s s1 d; cbn [exec]; unfold bind, ret, raise, modify, gets; [intros [= <- <-]; apply dict_of_wf | discriminate|].
  destruct (by_view ld j (add_dependency i j s)) as [s2 [[]|e]]; [|discriminate]. destruct (dget j (objs s2)) as [o|]; [|discriminate].
  destruct (dget k o) as [v|]; [|discriminate]. apply IH.
Qed.

Lemma refresh_rel n : forall i, rel (refresh_h u objects n i).
Proof.
  induction n as [|n IH]; intros i; cbn [refresh_h]; [apply rel_raise|]. intros s l. assert (L := load_Q n).
  apply at_step; [now apply own_config_Q|]. intros s1 _ _. apply at_step; [now apply exec_Q|]. intros s2 d _.
  apply at_step; [now apply own_config_Q|]. intros s3 c E3. apply own_config_there in E3.
  destruct (would_update u (vals c) (dupdate d (applied c))) eqn:Wd; [|apply at_rel, rel_ret].
  eapply at_tell; [exact E3 | now apply good_before|]. intros _.
  apply at_step; [now apply exec_Q|]. intros s4 d1 E4. apply exec_dwf in E4.
  apply at_step; [now apply own_config_Q|]. intros s5 c1 E5. cbv zeta. set (ups := dupdate d1 (applied c1)).
  apply at_change. apply (at_gets (fun s => dget i (objs s))). destruct (dget i (objs _)) as [o|]; [|apply at_rel, rel_ret].
  apply at_step; [now apply config_get_Q|]. intros s7 c7 E7.
  assert (X : c7 = with_inherited u i (cfg_update c1 ups false) /\ dget i (cfgs s7) = Some c7).
  { rewrite config_get_eq, own_config_eq in E7. cbn [state_set_cfg cfgs] in E7. rewrite dget_dset_eq in E7. injection E7 as <- <-.
    split; [reflexivity|]. apply dget_dset_eq. }
  destruct X as [-> E8]. apply at_step; [intros; apply apply_Q|]. intros s8 [] E9. apply apply_cfgs in E9. rewrite <- E9 in E8.
  eapply at_after; [exact IH | exact E8|]. apply good_users. now apply dupdate_wf.
Qed.
Lemma update_rel n i d persist : rel (update_h u objects n i d persist).
Proof.
  intros s l. assert (L := load_Q n). unfold update_h.
  apply at_step; [now apply own_config_Q|]. intros s3 c E3. apply own_config_there in E3.
  destruct (would_update u (vals c) (dict_of d)) eqn:Wd; [|apply at_rel, rel_ret].
  eapply at_tell; [exact E3 | now apply good_before|]. intros _. cbv zeta. apply at_change. apply (at_gets (fun s => dget i (objs s))).
  destruct (dget i (objs _)) as [o|]; [|apply at_rel, rel_ret].
  apply at_step; [intros; apply apply_Q|]. intros s8 [] E9. apply apply_cfgs in E9.
  eapply at_after; [apply refresh_rel | rewrite E9; apply dget_dset_eq|]. apply good_users_own. apply dict_of_wf.
Qed.
Lemma op_rel n o : rel (op_run_h u objects n o).
Proof. destruct o; cbn [op_run_h]; [apply rel_quiet; intros; apply load_Q | apply update_rel | apply refresh_rel]. Qed.
End Rel.

(* ------------------------------------------------------------------ *)
(** * Instances *)

(** once a hook raises nothing more is told *)
Definition stops (s : st V) (l k : list (ev V)) (s' : st V) (x : option exn) : Prop :=
  forall p e q y, k = p ++ e :: q -> objects (l ++ p) e = Some y -> q = [] /\ x = Some y.
Lemma stops_trans s l k1 s1 k2 s2 x : stops s l k1 s1 None -> stops s1 (l ++ k1) k2 s2 x -> stops s l (k1 ++ k2) s2 x.
Proof.
  intros H1 H2 p e q y E O. apply app_eq_app in E. destruct E as [m [[E1 E2]|[E1 E2]]].
  - destruct m as [|e' m]; cbn [app] in E2.
    + apply (H2 [] e q y); [now rewrite <- E2|]. rewrite app_nil_r in *. subst. exact O.
    + injection E2 as -> E2. destruct (H1 p e' m y E1 O) as [_ X]. discriminate.
  - apply (H2 m e q y E2). now rewrite <- app_assoc, <- E1.
Qed.
Lemma op_stops n o s l : exists k, snd (fst (op_run_h u objects n o (s, l))) = l ++ k /\
  stops s l k (fst (fst (op_run_h u objects n o (s, l)))) (exn_of (snd (op_run_h u objects n o (s, l)))).
Proof.
  apply (op_rel (fun _ _ => True)) with (good := fun _ => True); auto.
  - intros s0 l0 s' x _ p e q y E. destruct p; discriminate.
  - intros *. apply stops_trans.
  - intros s0 l0 e _ p e' q y E O. destruct p as [|? p]; [|destruct p; discriminate]. injection E as <- <-. rewrite app_nil_r in O. auto.
  - intros s0 l0 e c _ p e' q y E. destruct p; discriminate.
Qed.

(** what is told is true *)
Definition true_event (e : ev V) : Prop := match e_when e with Before => would_change u e | Users => has_changed u e | Installed => True end.
Lemma op_true n o s l : exists k, snd (fst (op_run_h u objects n o (s, l))) = l ++ k /\ Forall true_event k.
Proof.
  apply (op_rel (fun _ _ => True)) with (good := true_event) (R := fun _ _ k _ _ => Forall true_event k); auto.
  - intros. apply Forall_app. auto.
  - intros i v ups H. unfold true_event, would_change; cbn. unfold would_update in H. apply existsb_exists in H. destruct H as [[k y] [I H]].
    cbn [fst snd] in H. destruct (dget k v) as [x|] eqn:E; [|discriminate]. exists v, k, x, y. repeat split; auto. now destruct (u_eq u x y).
  - intros i c ups Wf. unfold true_event, has_changed; cbn. eexists. split; [reflexivity|]. intros k x E N.
    assert (X : dget k (vals (cfg_update c ups false)) = Some x) by (cbn [cfg_update vals]; rewrite dget_dupdate by exact Wf; now rewrite E).
    unfold with_inherited. set (c1 := cfg_update c ups false) in *. clearbody c1. destruct (vals c1) eqn:D; [now rewrite D|].
    cbn [cfg_update vals]. rewrite D. rewrite dget_dupdate by apply dict_of_wf. now rewrite N.
  - intros i c ups persist Wf. unfold true_event, has_changed; cbn. eexists. split; [reflexivity|]. intros k x E _.
    rewrite dget_dupdate by exact Wf. now rewrite E.
  - intros. exact I.
Qed.

(** changes are announced *)
Definition same_configs (s s' : st V) : Prop :=
  forall j c, dget j (cfgs s) = Some c -> exists c', dget j (cfgs s') = Some c' /\ vals c' = vals c.
Definition announced_after (s : st V) (l k : list (ev V)) (s' : st V) (x : option exn) : Prop := announced s (l ++ k) s'.
Lemma announced_trans (s : st V) k1 s1 k2 s2 : announced s k1 s1 -> (forall e, In e k1 -> In e k2) -> announced s1 k2 s2 -> announced s k2 s2.
Proof.
  intros H1 I H2 j c E. destruct (H1 j c E) as (c1 & E1 & X1). destruct (H2 j c1 E1) as (c2 & E2 & X2). exists c2. split; [exact E2|].
  destruct X2 as [X2|X2]; [|now right]. destruct X1 as [X1 | (e & Ie & P)]; [left; congruence | right; exists e; auto].
Qed.
Lemma op_announced n o s l : (forall i, u_inherited u i = []) -> exists k, snd (fst (op_run_h u objects n o (s, l))) = l ++ k /\
  announced s (l ++ k) (fst (fst (op_run_h u objects n o (s, l)))).
Proof.
  intros Nil. apply (op_rel same_configs) with (good := fun _ => True) (R := announced_after); auto.
  - intros s0 j c E. eauto.
  - intros s1 s2 s3 H1 H2 j c E. destruct (H1 j c E) as (c1 & E1 & X1). destruct (H2 j c1 E1) as (c2 & E2 & X2). exists c2. split; [exact E2|congruence].
  - intros i j s0. destruct (add_dependency_other i j s0) as [A _]. intros k c E. rewrite A. eauto.
  - intros i d s0 s1 N H j c E. destruct (H j c E) as (c1 & E1 & X1). exists c1. split; [|exact X1]. cbn. rewrite dget_dset.
    destruct (String.eqb_spec j i) as [->|]; [congruence|exact E1].
  - intros i o0 s0 j c E. eauto.
  - intros i c s0 E j c0 E0. cbn. rewrite dget_dset. destruct (String.eqb_spec j i) as [->|]; [|eauto].
    rewrite E in E0. injection E0 as <-. eexists. split; [reflexivity|]. unfold with_inherited. destruct (vals c) eqn:D; [exact D|].
    rewrite Nil. cbn. now rewrite D.
  - intros s0 l0 s' x H j c E. destruct (H j c E) as (c1 & E1 & X1). eauto.
  - intros s0 l0 k1 s1 k2 s2 x H1 H2. unfold announced_after in *. rewrite app_assoc. eapply announced_trans; [exact H1| |exact H2].
    intros e I. apply in_or_app. now left.
  - intros s0 l0 e _ j c E. eauto.
  - intros s0 l0 e c W j c0 E. cbn. rewrite dget_dset. destruct (String.eqb_spec j (e_item e)) as [->|]; [|eauto].
    eexists. split; [reflexivity|]. right. exists e. repeat split; [|exact W]. rewrite app_nil_r. apply in_or_app. right. now left.
Qed.

(* ------------------------------------------------------------------ *)
(** * What is told, in which order *)

Scheme told_ind' := Induction for told Sort Prop with told_deps_ind' := Induction for told_deps Sort Prop.
Lemma told_mono (F G : string -> string -> Prop) (N N' : string -> Prop) : (forall i j, F i j -> G i j) -> (forall i, N i -> N' i) ->
  forall i (k : list (ev V)), told F N i k -> told G N' i k.
Proof.
  intros H HN. apply (told_ind' V F N (fun i k _ => told G N' i k) (fun i k _ => told_deps G N' i k)); intros; econstructor; eauto.
Qed.
Lemma told_deps_mono (F G : string -> string -> Prop) (N N' : string -> Prop) : (forall i j, F i j -> G i j) -> (forall i, N i -> N' i) ->
  forall i (k : list (ev V)), told_deps F N i k -> told_deps G N' i k.
Proof. intros H HN i k T. induction T; econstructor; eauto. eapply told_mono; eassumption. Qed.
Lemma told_deps_app F N i (k1 k2 : list (ev V)) : told_deps F N i k1 -> told_deps F N i k2 -> told_deps F N i (k1 ++ k2).
Proof. intros T1 T2. induction T1; [exact T2|]. rewrite <- app_assoc. econstructor; eauto. Qed.

Definition grows (s s' : st V) : Prop := (forall i j, dep s i j -> dep s' i j) /\ (forall i, unloaded s' i -> unloaded s i).
Lemma grows_refl s : grows s s. Proof. split; auto. Qed.
Lemma grows_trans s1 s2 s3 : grows s1 s2 -> grows s2 s3 -> grows s1 s3. Proof. intros [A1 B1] [A2 B2]. split; auto. Qed.
Lemma grows_add i j s : grows s (add_dependency i j s).
Proof.
  split; [intros k x H; apply dependents_add; now left|]. intros k. unfold unloaded. now destruct (add_dependency_other i j s) as [_ ->].
Qed.
Lemma grows_obj i o s : grows s (St (cfgs s) (dset i o (objs s)) (forced s)).
Proof. split; [auto|]. intros j. unfold unloaded. cbn. rewrite dget_dset. destruct (String.eqb j i); [discriminate | auto]. Qed.
Lemma grows_cfg i c s s1 : grows s s1 -> grows s (state_set_cfg i c s1). Proof. intros [A B]. split; auto. Qed.

Lemma load_grows n : loadsQ grows (load u n).
Proof. apply load_Q; try (intros; apply grows_add); try (intros; apply grows_obj); try (intros; apply grows_cfg; auto using grows_refl); [exact grows_refl | exact grows_trans]. Qed.
Lemma exec_grows n i p s : grows s (fst (exec (load u n) i p s)).
Proof. apply (exec_Q grows); try apply load_grows; try (intros; apply grows_add); [exact grows_refl | exact grows_trans]. Qed.
Lemma own_config_grows n i s : grows s (fst (own_config u (load u n) i s)).
Proof.
  apply (own_config_Q grows); try apply load_grows; try (intros; apply grows_add); [exact grows_refl | exact grows_trans |].
  intros. now apply grows_cfg.
Qed.
Lemma config_get_grows n i s : grows s (fst (config_get u (load u n) i s)).
Proof.
  apply (config_get_Q grows); try apply load_grows; try (intros; apply grows_add); try (intros; apply grows_obj); try (intros; apply grows_cfg; auto using grows_refl);
    [exact grows_refl | exact grows_trans].
Qed.

(** all the time, what is not loaded is in N *)
Variable N : string -> Prop.
Definition outside (s : st V) : Prop := forall i, unloaded s i -> N i.
Lemma outside_grows s s' : outside s -> grows s s' -> outside s'.
Proof. intros H [_ G] i D. auto. Qed.
Definition tells (P : (string -> string -> Prop) -> list (ev V) -> Prop) (m : M ht unit) (s : st V) (l : list (ev V)) : Prop :=
  outside s -> forall h, m (s, l) = (h, Ok tt) -> exists k, snd h = l ++ k /\ grows s (fst h) /\ P (dep (fst h)) k.
Lemma tells_step {A} P (m : M (st V) A) f s l : (forall s, grows s (fst (m s))) ->
  (forall s1 a, m s = (s1, Ok a) -> tells P (f a) s1 l) -> tells P (bind (on_st m) f) s l.
Proof.
  intros G H O h E. unfold bind, on_st in E. cbn [fst snd] in E. specialize (G s). destruct (m s) as [s1 [a|e]] eqn:Em; [|discriminate].
  destruct (H s1 a eq_refl (outside_grows _ _ O G) h E) as (k & E1 & G1 & T). exists k. split; [exact E1|]. split; [eapply grows_trans; eassumption | exact T].
Qed.
Lemma tells_tell P w i ups f s l : (forall v, tells (fun F k => P F (Ev w i v ups :: k)) f s (l ++ [Ev w i v ups])) ->
  tells P (tell objects w i ups ;;; f) s l.
Proof.
  intros H O h E. unfold bind, tell in E. cbn [fst snd] in E. destruct (objects l _); [discriminate|].
  apply H in E; [|exact O]. destruct E as (k & E1 & G1 & T). eexists. split; [rewrite E1, <- app_assoc; reflexivity|]. auto.
Qed.
Lemma tells_ret (P : (string -> string -> Prop) -> list (ev V) -> Prop) s l : (outside s -> forall F, P F []) -> tells P (ret tt) s l.
Proof. intros H O h [= <-]. exists []. cbn. rewrite app_nil_r. split; [reflexivity|]. split; [apply grows_refl | now apply H]. Qed.

Hypothesis order : set_order u.
Lemma iterM_tells f j : (forall x s l, tells (fun F => told F N x) (f x) s l) -> forall todo s l, (forall x, In x todo -> dep s j x) ->
  tells (fun F => told_deps F N j) (iterM f todo) s l.
Proof.
  intros H todo. induction todo as [|x todo IH]; intros s l D O h E; cbn [iterM] in E; unfold bind in E.
  - injection E as <-. exists []. cbn. rewrite app_nil_r. split; [reflexivity|]. split; [apply grows_refl | constructor].
  - destruct (f x (s, l)) as [[s1 l1] [[]|e]] eqn:E1; [|discriminate]. apply H in E1; [|exact O]. cbn [fst snd] in E1.
    destruct E1 as (k & -> & G1 & T1). apply IH in E; [|intros y I; apply G1, D; now right | eapply outside_grows; eassumption].
    destruct E as (k2 & E2 & G2 & T2). exists (k ++ k2). split; [now rewrite app_assoc|]. split; [eapply grows_trans; eassumption|].
    apply (td_cons _ _ _ x); [apply G2, G1, D; now left | eapply told_mono; [apply G2 | intros ? X; exact X | exact T1] | exact T2].
Qed.
Lemma dep_loop_tells f j : (forall x s l, tells (fun F => told F N x) (f x) s l) -> forall n upd done s l, (forall x, In x upd -> dep s j x) ->
  tells (fun F => told_deps F N j) (dep_loop (fun h : ht => dependents j (fst h)) (fun h => u_order u (fst h)) f n upd done) s l.
Proof.
  intros H n. induction n as [|n IH]; intros upd done s l D O h E; destruct upd as [|x upd]; cbn [dep_loop] in E;
    try discriminate; try (injection E as <-; exists []; cbn; rewrite app_nil_r; split; [reflexivity|]; split; [apply grows_refl | constructor]).
  unfold bind, gets in E. cbn [fst snd] in E. destruct (iterM f _ (s, l)) as [[s1 l1] [[]|e]] eqn:E1; [|discriminate].
  eapply iterM_tells in E1; [|exact H| |exact O]; cycle 1.
  { intros y I. apply D. eapply Permutation_in; [apply order | exact I]. }
  destruct E1 as (k & E1 & G1 & T1). cbn [fst snd] in *. subst l1. destruct (same_set _ _); [discriminate|].
  apply IH in E; [|intros y I; apply In_minus in I; apply I | eapply outside_grows; eassumption]. destruct E as (k2 & E2 & G2 & T2). exists (k ++ k2).
  split; [now rewrite app_assoc|]. split; [eapply grows_trans; eassumption|]. apply told_deps_app; [|exact T2].
  eapply told_deps_mono; [apply G2 | intros ? X; exact X | exact T1].
Qed.
Lemma after_tells f n i ups s l : (forall x s l, tells (fun F => told F N x) (f x) s l) ->
  tells (fun F k => exists v1 v2 k', told_deps F N i k' /\ k = Ev Users i v1 ups :: k' ++ [Ev Installed i v2 ups]) (tell_after u objects f n i ups) s l.
Proof.
  intros H. unfold tell_after. apply tells_tell. intros v1 O h E. unfold bind in E.
  destruct (refresh_dependents_h u f n i _) as [[s1 l1] [[]|e]] eqn:E1; [|discriminate].
  unfold refresh_dependents_h, bind, gets in E1. cbn [fst snd] in E1. eapply dep_loop_tells in E1; [|exact H|intros x I; exact I|exact O].
  destruct E1 as (k & E1 & G1 & T1). cbn [fst snd] in *. subst l1. unfold tell in E. cbn [fst snd] in E.
  destruct (objects _ _); [discriminate|]. injection E as <-. cbn [fst snd]. eexists. split; [now rewrite <- app_assoc|]. split; [exact G1|].
  exists v1. eexists. exists k. split; [exact T1 | reflexivity].
Qed.
Lemma tells_told i ups0 v0 ups f s l :
  tells (fun F k => exists v1 v2 k', told_deps F N i k' /\ k = Ev Users i v1 ups :: k' ++ [Ev Installed i v2 ups]) f s l ->
  tells (fun F k => told F N i (Ev Before i v0 ups0 :: k)) f s l.
Proof.
  intros H O h E. destruct (H O h E) as (k & E1 & G1 & v1 & v2 & k' & T & ->). eexists. split; [exact E1|]. split; [exact G1|]. now constructor.
Qed.
Lemma set_cfg_grows i c s : grows s (fst (set_cfg (V := V) i c s)). Proof. apply (grows_cfg i c), grows_refl. Qed.
Lemma apply_grows i o c s : grows s (fst (apply_to_loaded u i o c s)).
Proof. unfold apply_to_loaded, lift, bind, set_obj, modify. destruct (u_apply u i o c); [apply grows_obj | apply grows_refl]. Qed.

Lemma refresh_tells n : forall i s l, tells (fun F => told F N i) (refresh_h u objects n i) s l.
Proof.
  induction n as [|n IH]; intros i s l; cbn [refresh_h]; [intros O h E; discriminate|].
  apply tells_step; [intros; apply own_config_grows|]. intros s1 c1 _. apply tells_step; [intros; apply exec_grows|]. intros s2 d _.
  apply tells_step; [intros; apply own_config_grows|]. intros s3 c _.
  destruct (would_update _ _ _); [|apply tells_ret; constructor]. apply tells_tell. intros v.
  apply tells_step; [intros; apply exec_grows|]. intros s4 d4 _. apply tells_step; [intros; apply own_config_grows|]. intros s5 c5 _. cbv zeta.
  apply tells_step; [intros; apply set_cfg_grows|]. intros s6 _ _. set (ups := dupdate d4 (applied c5)).
  intros O h E. unfold bind at 1, gets in E. cbn [fst] in E. revert O h E.
  destruct (dget i (objs s6)) as [o|] eqn:Eo; [|apply (tells_ret (fun F k => told F N i (Ev Before i v (dupdate d (applied c)) :: k))); intros O F; apply told_before; now apply O].
  apply (tells_step (fun F k => told F N i (Ev Before i v (dupdate d (applied c)) :: k))); [intros; apply config_get_grows|]. intros s7 c7 _.
  apply tells_step; [intros; apply apply_grows|]. intros s8 _ _. eapply tells_told. apply after_tells. exact IH.
Qed.
Lemma update_tells n i d persist s l : tells (fun F => told F N i) (update_h u objects n i d persist) s l.
Proof.
  unfold update_h. apply tells_step; [intros; apply own_config_grows|]. intros s3 c _.
  destruct (would_update _ _ _); [|apply tells_ret; constructor]. apply tells_tell. intros v. cbv zeta.
  apply tells_step; [intros; apply set_cfg_grows|]. intros s6 _ _.
  intros O h E. unfold bind at 1, gets in E. cbn [fst] in E. revert O h E.
  destruct (dget i (objs s6)) as [o|] eqn:Eo; [|apply (tells_ret (fun F k => told F N i (Ev Before i v (dict_of d) :: k))); intros O F; apply told_before; now apply O].
  apply (tells_step (fun F k => told F N i (Ev Before i v (dict_of d) :: k))); [intros; apply apply_grows|]. intros s8 _ _.
  eapply tells_told. apply after_tells. intros. apply refresh_tells.
Qed.

Lemma update_exact n i d persist s l h c : dget i (cfgs s) = Some c -> outside s -> update_h u objects n i d persist (s, l) = (h, Ok tt) ->
  if would_update u (vals c) (dict_of d) then
    match dget i (objs s) with
    | None => snd h = l ++ [Ev Before i (Some (vals c)) (dict_of d)]
    | Some _ => exists k v, told_deps (dep (fst h)) N i k /\
        snd h = l ++ Ev Before i (Some (vals c)) (dict_of d) :: Ev Users i (Some (dupdate (vals c) (dict_of d))) (dict_of d) ::
          k ++ [Ev Installed i v (dict_of d)]
    end
  else snd h = l.
Proof.
  intros Ec O E. unfold update_h in E. unfold bind at 1, on_st at 1 in E. cbn [fst snd] in E. rewrite own_config_eq, Ec in E.
  destruct (would_update u (vals c) (dict_of d)); [|now injection E as <-].
  unfold bind at 1, tell in E. cbn [fst snd] in E. rewrite Ec in E. cbn [option_map] in E. destruct (objects l _); [discriminate|]. cbv zeta in E.
  unfold bind at 1, on_st at 1, set_cfg, modify in E. cbn [fst snd] in E. unfold bind at 1, gets in E. cbn [fst objs] in E.
  destruct (dget i (objs s)) as [o|]; [|now injection E as <-].
  unfold bind at 1, on_st at 1 in E. cbn [fst snd] in E. destruct (apply_to_loaded u i o _ _) as [s1 [[]|e]] eqn:E1; [|discriminate].
  assert (X := apply_cfgs _ _ _ _ _ E1). assert (G := apply_grows i o (vals (cfg_update c (dict_of d) persist)) (state_set_cfg i (cfg_update c (dict_of d) persist) s)).
  unfold state_set_cfg in G. rewrite E1 in G. cbn [fst] in G.
  unfold tell_after, bind at 1, tell in E. cbn [fst snd] in E. rewrite X in E. cbn [cfgs] in E. rewrite dget_dset_eq in E. cbn [option_map] in E.
  destruct (objects _ _); [discriminate|]. unfold bind at 1 in E.
  destruct (refresh_dependents_h u _ n i _) as [[s2 l2] [[]|e]] eqn:E2; [|discriminate].
  unfold refresh_dependents_h, bind, gets in E2. cbn [fst snd] in E2.
  eapply dep_loop_tells in E2; [|intros; apply refresh_tells | intros x I; exact I | eapply outside_grows; [|exact G]; exact O].
  destruct E2 as (k & E2 & G2 & T). cbn [fst snd] in *. subst l2. destruct (objects _ _); [discriminate|]. injection E as <-. cbn [fst snd].
  exists k. eexists. split; [exact T|]. rewrite <- !app_assoc. reflexivity.
Qed.
End S.
