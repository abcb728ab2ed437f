(** Proofs for C38: the result does not depend on the order in which dependents are visited. *)
From Verif Require Import Deps_Model Deps_Spec Deps_Proofs.
From Coq Require Import Permutation Lia.
Local Open Scope string_scope.
Local Open Scope list_scope.
Local Open Scope monad_scope.

Section Order.
Context {V : Type} (u : user V) (keys : string -> string -> bool) (rank : string -> nat).
Hypothesis Reg : regular u keys.
Hypothesis Hac : acyclic u rank.
Notation load := (load u).

(** the persisted updates [A] and the values [B] determined by neither file nor persisted updates stay as they are *)
Definition frame (A : string -> dict V) (B : string -> string -> option V) (s : st V) : Prop :=
  (forall x c, dget x (cfgs s) = Some c -> applied c = A x /\
     (forall k, keys x k = true \/ dmem k (A x) = true -> dmem k (vals c) = true) /\
     (forall k, keys x k = false -> dmem k (A x) = false -> dget k (vals c) = B x k)) /\
  (forall x, dget x (cfgs s) = None -> A x = [] /\ forall k, keys x k = false -> B x k = None) /\
  (forall x o, dget x (objs s) = Some o -> exists c, dget x (cfgs s) = Some c /\ u_init u x (vals c) = Ok o).

Section Frame.
Variable A : string -> dict V.
Variable B : string -> string -> option V.
Hypothesis HA : forall x, dwf (A x).
Notation J := (frame A B).

Lemma J_same_cfgs s s' : J s -> (forall x, dget x (cfgs s') = dget x (cfgs s)) -> objs s' = objs s -> J s'.
Proof.
  intros (J1 & J2 & J3) Hc Ho. split; [|split].
  - intros x c. rewrite Hc. apply J1.
  - intros x. rewrite Hc. apply J2.
  - intros x o. rewrite Ho, Hc. apply J3.
Qed.
Lemma J_add i j s : J s -> J (add_dependency i j s).
Proof. intro H. destruct (add_dependency_other i j s) as [X Y]. apply (J_same_cfgs s); [exact H|now rewrite X|exact Y]. Qed.

Definition keeps (ld : string -> M (st V) unit) : Prop := forall j s, J s -> J (fst (ld j s)).

Lemma by_view_keeps ld : keeps ld -> keeps (by_view ld).
Proof. intros L j s H. specialize (L j s H). unfold by_view. destruct (ld j s) as [s1 [a|[]]]; exact L. Qed.
Lemma exec_J ld i p : keeps ld -> forall s, J s -> J (fst (exec ld i p s)).
Proof.
  intro L. induction p as [d|e|j k cont IH]; intros s H; [exact H|exact H|]. cbn [exec]. unfold bind, modify, gets.
  assert (X := by_view_keeps ld L j _ (J_add i j s H)). destruct (by_view ld j (add_dependency i j s)) as [s1 [[]|e]]; [|exact X]. cbn [fst] in X.
  destruct (dget j (objs s1)) as [o|]; [|exact X]. destruct (dget k o) as [v|]; [|exact X]. now apply IH.
Qed.

(** [i] gets a config, its object (if any) being made from it *)
Lemma J_set_cfg i c s o : J s -> applied c = A i -> (forall k, keys i k = true \/ dmem k (A i) = true -> dmem k (vals c) = true) ->
  (forall k, keys i k = false -> dmem k (A i) = false -> dget k (vals c) = B i k) ->
  (forall x, x <> i -> dget x (dset i c (cfgs s)) = dget x (cfgs s)) ->
  (forall x, x <> i -> dget x o = dget x (objs s)) ->
  (forall o', dget i o = Some o' -> u_init u i (vals c) = Ok o') -> J (St (dset i c (cfgs s)) o (forced s)).
Proof.
  intros (J1 & J2 & J3) Ha Hk Hb Hx Ho Hi. split; [|split]; cbn [cfgs objs].
  - intros x c'. destruct (String.eqb_spec x i) as [->|Hne]; [rewrite dget_dset_eq; intros [= <-]; auto|rewrite Hx by exact Hne; apply J1].
  - intros x. destruct (String.eqb_spec x i) as [->|Hne]; [rewrite dget_dset_eq; discriminate|rewrite Hx by exact Hne; apply J2].
  - intros x o'. destruct (String.eqb_spec x i) as [->|Hne].
    + intro H. exists c. split; [apply dget_dset_eq|auto].
    + rewrite (Ho x Hne), (Hx x Hne). apply J3.
Qed.

Lemma own_config_J ld i : keeps ld -> loads u rank ld -> (forall s, dget i (objs (fst (exec ld i (u_file u i) s))) = dget i (objs s)) ->
  forall s, J s -> J (fst (own_config u ld i s)).
Proof.
  intros L L' Ho s H. rewrite own_config_eq. destruct (dget i (cfgs s)) as [c|] eqn:Ec; [exact H|].
  assert (X := exec_J ld i (u_file u i) L s H). assert (O := Ho s). destruct (exec ld i (u_file u i) s) as [s1 [d|e]] eqn:E; [|exact X].
  cbn [fst] in X, O |- *. destruct (exec_yields' u rank Hac ld i s s1 d L' E) as (l & Y & _ & _).
  assert (K := fun k => reg_keys u keys Reg i _ _ _ k Y). destruct H as (_ & H2 & H3). destruct (H2 i Ec) as [EA EB].
  apply J_set_cfg.
  - exact X.
  - now rewrite EA.
  - cbn [vals]. intros k Hk. rewrite EA in Hk. destruct Hk as [Hk|Hk]; [now rewrite K|discriminate].
  - cbn [vals]. intros k Hk _. rewrite EB by exact Hk. specialize (K k). rewrite Hk in K. unfold dmem in K. now destruct (dget k d).
  - intros x Hx. rewrite dget_dset. destruct (String.eqb_spec x i); [contradiction|reflexivity].
  - reflexivity.
  - intros o' E'. exfalso. rewrite O in E'. apply H3 in E' as (c & Hc & _). congruence.
Qed.

Lemma no_inherited i c : with_inherited u i c = c.
Proof. unfold with_inherited. rewrite (reg_inherited u keys Reg). destruct c as [v a]. cbn. now destruct v. Qed.

Lemma config_get_J ld i : (forall s, J s -> J (fst (own_config u ld i s))) -> (forall s c, snd (own_config u ld i s) = Ok c -> dget i (cfgs (fst (own_config u ld i s))) = Some c) ->
  forall s, J s -> J (fst (config_get u ld i s)).
Proof.
  intros Ho Hc s H. rewrite config_get_eq. specialize (Ho s H). specialize (Hc s). destruct (own_config u ld i s) as [s1 [c|e]]; [|exact Ho].
  cbn [fst snd] in *. rewrite no_inherited. apply (J_same_cfgs s1); [exact Ho| |reflexivity]. intro x. cbn [state_set_cfg cfgs]. rewrite dget_dset.
  destruct (String.eqb_spec x i) as [->|]; [|reflexivity]. symmetry. now apply Hc.
Qed.

Lemma load_J n : keeps (load n).
Proof.
  induction n as [|n IH]; intros i s H; [exact H|]. rewrite load_eq. destruct (dget i (objs s)) as [o|] eqn:Eo; [exact H|].
  assert (L := load_loads u rank Hac n). assert (OC := fun s => proj2 (own_config_ext u rank Hac (load n) i L s)).
  assert (X : J (fst (config_get u (load n) i s))).
  { apply config_get_J; [|exact OC|exact H]. apply own_config_J; [exact IH|exact L|]. intro s0. apply (exec_objs u rank (load n) i L); [apply Hac|lia]. }
  destruct (config_get_ext u rank Hac (load n) i L s) as [_ Hc].
  destruct (config_get u (load n) i s) as [s1 [c|e]]; [|exact X]. cbn [fst snd] in X, Hc. destruct (u_init u i (vals c)) as [o|e] eqn:Ei; [|exact X].
  cbn [fst]. destruct X as (J1 & J2 & J3). split; [exact J1|]. split; [exact J2|]. cbn [cfgs objs]. intros x o'. rewrite dget_dset.
  destruct (String.eqb_spec x i) as [->|]; [|apply J3]. intros [= <-]. exists c. split; [now apply Hc|exact Ei].
Qed.

Definition refreshJ (f : string -> M (st V) unit) : Prop := forall i s s', J s -> f i s = (s', Ok tt) -> J s'.

Lemma iter_J f : refreshJ f -> forall l s s', J s -> iterM f l s = (s', Ok tt) -> J s'.
Proof.
  intros F l. induction l as [|i l IH]; intros s s' H E; cbn [iterM] in E; [now injection E as <-|].
  unfold bind in E. destruct (f i s) as [s1 [[]|e]] eqn:E1; [|discriminate]. eauto.
Qed.
Lemma refresh_dependents_J f n j : refreshJ f -> forall s s', J s -> refresh_dependents u f n j s = (s', Ok tt) -> J s'.
Proof.
  intros F s s' H E. unfold refresh_dependents, bind, gets in E. revert E. generalize (dependents j s) as upd, (@nil string) as done. revert s H.
  induction n as [|n IH]; intros s H upd done E.
  - destruct upd; [|discriminate]. now injection E as <-.
  - destruct upd as [|y upd]; [now injection E as <-|]. rewrite dep_loop_eq in E by discriminate.
    destruct (iterM f (u_order u s (y :: upd)) s) as [s1 [[]|e]] eqn:E1; [|discriminate]. eapply IH; [|exact E]. eapply iter_J; eassumption.
Qed.

Lemma refresh_J n : refreshJ (refresh u n).
Proof.
  induction n as [|n IH]; intros i s s' H E; [discriminate|]. rewrite refresh_eq in E. assert (L := load_loads u rank Hac n). assert (LJ := load_J n).
  assert (EO : forall s, dget i (objs (fst (exec (load n) i (u_file u i) s))) = dget i (objs s)) by (intro; apply (exec_objs u rank (load n) i L); [apply Hac|lia]).
  assert (OJ := own_config_J (load n) i LJ L EO). assert (OC := fun s => proj2 (own_config_ext u rank Hac (load n) i L s)).
  assert (X1 := OJ s H). destruct (own_config u (load n) i s) as [s1 [c1|e]]; [|discriminate]. cbn [fst] in X1.
  assert (X2 := exec_J (load n) i (u_file u i) LJ s1 X1). destruct (exec (load n) i (u_file u i) s1) as [s2 [d|e]] eqn:E2; [|discriminate]. cbn [fst] in X2.
  assert (X3 := OJ s2 X2). destruct (own_config u (load n) i s2) as [s3 [c|e]]; [|discriminate]. cbn [fst] in X3.
  destruct (would_update u (vals c) (dupdate d (applied c))); [|now injection E as <-].
  assert (X4 := exec_J (load n) i (u_file u i) LJ s3 X3). destruct (exec (load n) i (u_file u i) s3) as [s4 [d'|e]] eqn:E4; [|discriminate]. cbn [fst] in X4.
  destruct (exec_yields' u rank Hac (load n) i s3 s4 d' L E4) as (l & Y & _ & Wd).
  assert (K := fun k => reg_keys u keys Reg i _ _ _ k Y).
  assert (X5 := OJ s4 X4). assert (C5 := OC s4). destruct (own_config u (load n) i s4) as [s5 [c'|e]]; [|discriminate]. cbn [fst snd] in X5, C5.
  specialize (C5 c' eq_refl). cbv zeta in E. destruct (proj1 X5 i c' C5) as (Ea & Kv & Bv). rewrite Ea in E.
  set (c6 := cfg_update c' (dupdate d' (A i)) false) in *.
  assert (Q1 : applied c6 = A i) by exact Ea.
  assert (Q2 : forall k, keys i k = true \/ dmem k (A i) = true -> dmem k (vals c6) = true).
  { intros k Hk. specialize (Kv k Hk). unfold dmem in Kv |- *. cbn [c6 cfg_update vals]. rewrite dget_dupdate by (now apply dupdate_wf).
    now destruct (dget k (dupdate d' (A i))). }
  assert (Q3 : forall k, keys i k = false -> dmem k (A i) = false -> dget k (vals c6) = B i k).
  { intros k Hk1 Hk2. cbn [c6 cfg_update vals]. rewrite dget_dupdate by (now apply dupdate_wf). rewrite dget_dupdate by apply HA.
    specialize (K k). rewrite Hk1 in K. unfold dmem in K, Hk2. destruct (dget k (A i)) eqn:Z; [discriminate|]. destruct (dget k d'); [discriminate|].
    apply Bv; [exact Hk1|]. unfold dmem. now rewrite Z. }
  assert (Q4 : forall x, x <> i -> dget x (dset i c6 (cfgs s5)) = dget x (cfgs s5)).
  { intros x Hx. rewrite dget_dset. destruct (String.eqb_spec x i); [contradiction|reflexivity]. }
  destruct (dget i (objs (state_set_cfg i c6 s5))) as [o|] eqn:Eo.
  - rewrite config_get_eq, own_config_eq in E. cbn [state_set_cfg cfgs] in E. rewrite dget_dset_eq in E. rewrite no_inherited in E.
    rewrite (reg_apply u keys Reg) in E. destruct (u_init u i (vals c6)) as [o'|e] eqn:Ei; [|discriminate].
    eapply refresh_dependents_J; [exact IH| |exact E]. cbn [state_set_cfg objs cfgs forced].
    assert (Z : J (St (dset i c6 (cfgs s5)) (dset i o' (objs s5)) (forced s5))).
    { apply J_set_cfg; [exact X5|exact Q1|exact Q2|exact Q3|exact Q4| |].
      - intros x Hne. rewrite dget_dset. destruct (String.eqb_spec x i); [contradiction|reflexivity].
      - intros o2. rewrite dget_dset_eq. intros [= <-]. exact Ei. }
    apply (J_same_cfgs _ _ Z); [|reflexivity]. intro x. cbn [cfgs]. rewrite dget_dset. destruct (String.eqb_spec x i) as [->|]; [now rewrite dget_dset_eq|reflexivity].
  - injection E as <-. apply J_set_cfg; [exact X5|exact Q1|exact Q2|exact Q3|exact Q4| |].
    + reflexivity.
    + cbn [state_set_cfg objs] in Eo. congruence.
Qed.
End Frame.

(** two states with the same frame in which everything is up to date agree *)
Lemma yields_same o1 o2 i (p : prog V) l1 l2 d1 d2 : reads_before rank i p ->
  (forall j a b, rank j < rank i -> dget j o1 = Some a -> dget j o2 = Some b -> a = b) ->
  yields o1 p = Some (l1, d1) -> yields o2 p = Some (l2, d2) -> d1 = d2.
Proof.
  intros R H. revert l1 l2. induction R as [d|e|j k cont Hj _ IH]; intros l1 l2 E1 E2; cbn [yields] in E1, E2; [congruence|discriminate|].
  destruct (dget j o1) as [a|] eqn:Ea; [|discriminate]. destruct (dget j o2) as [b|] eqn:Eb; [|discriminate].
  assert (a = b) as <- by eauto. destruct (dget k a) as [v|]; [|discriminate].
  destruct (yields o1 (cont v)) as [[m1 e1]|] eqn:Y1; [|discriminate]. destruct (yields o2 (cont v)) as [[m2 e2]|] eqn:Y2; [|discriminate].
  injection E1 as <- <-. injection E2 as <- <-. eauto.
Qed.

Lemma agree A B s1 s2 : (forall x, dwf (A x)) -> frame A B s1 -> frame A B s2 -> (forall x, clean u s1 x) -> (forall x, clean u s2 x) ->
  forall x, (forall c1 c2, dget x (cfgs s1) = Some c1 -> dget x (cfgs s2) = Some c2 -> forall k, dget k (vals c1) = dget k (vals c2)) /\
            (forall a b, dget x (objs s1) = Some a -> dget x (objs s2) = Some b -> a = b).
Proof.
  intros HA F1 F2 C1 C2. assert (X : forall n x, rank x < n ->
    (forall c1 c2, dget x (cfgs s1) = Some c1 -> dget x (cfgs s2) = Some c2 -> forall k, dget k (vals c1) = dget k (vals c2)) /\
    (forall a b, dget x (objs s1) = Some a -> dget x (objs s2) = Some b -> a = b)).
  { induction n as [|n IH]; intros x Hn; [lia|].
    assert (P : forall c1 c2, dget x (cfgs s1) = Some c1 -> dget x (cfgs s2) = Some c2 -> forall k, dget k (vals c1) = dget k (vals c2)).
    { intros c1 c2 E1 E2 k. destruct (C1 x c1 E1) as (l1 & d1 & Y1 & _ & U1), (C2 x c2 E2) as (l2 & d2 & Y2 & _ & U2).
      assert (d1 = d2) as <-. { eapply yields_same; [apply (Hac x)| |exact Y1|exact Y2]. intros j a b Hj. apply IH. lia. }
      destruct (proj1 F1 x c1 E1) as (A1 & K1 & B1), (proj1 F2 x c2 E2) as (A2 & K2 & B2). rewrite A1 in U1. rewrite A2 in U2.
      destruct (dget k (dupdate d1 (A x))) as [v|] eqn:Ev.
      - assert (Hk : keys x k = true \/ dmem k (A x) = true).
        { rewrite dget_dupdate in Ev by apply HA. rewrite <- (reg_keys u keys Reg x _ _ _ k Y1). unfold dmem.
          destruct (dget k (A x)); [now right|]. rewrite Ev. now left. }
        specialize (K1 k Hk). specialize (K2 k Hk). unfold dmem in K1, K2. destruct (dget k (vals c1)) as [w1|] eqn:W1; [|discriminate].
        destruct (dget k (vals c2)) as [w2|] eqn:W2; [|discriminate].
        assert (w1 = v) by (destruct (U1 k v w1 Ev W1) as [|Q]; [assumption|now apply (reg_eq u keys Reg)]).
        assert (w2 = v) by (destruct (U2 k v w2 Ev W2) as [|Q]; [assumption|now apply (reg_eq u keys Reg)]). congruence.
      - rewrite dget_dupdate in Ev by apply HA. assert (Za : dmem k (A x) = false) by (unfold dmem; now destruct (dget k (A x))).
        assert (Zk : keys x k = false). { rewrite <- (reg_keys u keys Reg x _ _ _ k Y1). unfold dmem. destruct (dget k (A x)); [discriminate|]. now rewrite Ev. }
        now rewrite B1, B2. }
    split; [exact P|]. intros a b Ea Eb. apply (proj2 (proj2 F1)) in Ea as (c1 & E1 & I1). apply (proj2 (proj2 F2)) in Eb as (c2 & E2 & I2).
    rewrite (reg_init u keys Reg x _ _ (P c1 c2 E1 E2)) in I1. congruence. }
  intro x. apply (X (S (rank x))). lia.
Qed.

(** every settled state has a frame *)
Definition A_of (s : st V) (x : string) : dict V := match dget x (cfgs s) with Some c => applied c | None => [] end.
Definition B_of (s : st V) (x k : string) : option V := match dget x (cfgs s) with Some c => dget k (vals c) | None => None end.

Lemma frame_of s : (forall x c k, dget x (cfgs s) = Some c -> keys x k = true \/ dmem k (applied c) = true -> dmem k (vals c) = true) ->
  (forall x o, dget x (objs s) = Some o -> exists c, dget x (cfgs s) = Some c /\ u_init u x (vals c) = Ok o) -> frame (A_of s) (B_of s) s.
Proof.
  intros K S. split; [|split; [|exact S]].
  - intros x c E. unfold A_of, B_of. rewrite E. split; [reflexivity|]. split; [intro k; now apply K|reflexivity].
  - intros x E. unfold A_of, B_of. rewrite E. auto.
Qed.
Lemma A_of_wf s : st_wf s -> forall x, dwf (A_of s x).
Proof. intros W x. unfold A_of. destruct (dget x (cfgs s)) eqn:E; [exact (W _ _ E)|apply dwf_nil]. Qed.

Lemma frame_complete A B s : frame A B s ->
  (forall x c k, dget x (cfgs s) = Some c -> keys x k = true \/ dmem k (applied c) = true -> dmem k (vals c) = true) /\
  (forall x o, dget x (objs s) = Some o -> exists c, dget x (cfgs s) = Some c /\ u_init u x (vals c) = Ok o).
Proof.
  intros (F1 & _ & F3). split; [|exact F3]. intros x c k E. destruct (F1 x c E) as (-> & H & _). apply H.
Qed.

(** the state of an update before the dependents are refreshed *)
Lemma update_frame n i d s c s1 : settled u keys s -> own_config u (load n) i s = (s1, Ok c) ->
  let c2 := cfg_update c (dict_of d) true in
  (forall o o', dget i (objs s1) = Some o -> u_apply u i o (vals c2) = Ok o' ->
     let s2 := St (dset i c2 (cfgs s1)) (dset i o' (objs s1)) (forced s1) in frame (A_of s2) (B_of s2) s2 /\ st_wf s2) /\
  (dget i (objs s1) = None -> let s2 := state_set_cfg i c2 s1 in frame (A_of s2) (B_of s2) s2 /\ st_wf s2).
Proof.
  intros (W & C & K & S) E c2. assert (L := load_loads u rank Hac n).
  assert (J1 : frame (A_of s) (B_of s) s1).
  { assert (X := own_config_J (A_of s) (B_of s) (load n) i (load_J _ _ n) L
      (fun s => exec_objs u rank (load n) i L _ (Hac i) s i (Nat.le_refl _)) s (frame_of s K S)). rewrite E in X. exact X. }
  destruct (own_config_ext u rank Hac (load n) i L s) as [X Hc]. rewrite E in X, Hc. cbn [fst snd] in X, Hc. specialize (Hc c eq_refl).
  destruct X as (_ & _ & X). destruct (X W) as [W1 _]. apply frame_complete in J1 as [K1 S1].
  assert (Wc2 : dwf (applied c2)) by (cbn; apply dupdate_wf; exact (W1 _ _ Hc)).
  assert (Kc2 : forall k, keys i k = true \/ dmem k (applied c2) = true -> dmem k (vals c2) = true).
  { intros k Hk. cbn [c2 cfg_update vals applied] in *. unfold dmem in Hk |- *. rewrite dget_dupdate by apply dict_of_wf. destruct (dget k (dict_of d)) eqn:Z; [reflexivity|].
    apply (K1 i c k Hc). unfold dmem. destruct Hk as [Hk|Hk]; [now left|right]. rewrite dget_dupdate, Z in Hk by apply dict_of_wf. exact Hk. }
  split.
  - intros o o' Eo Ea s2. assert (W2 : st_wf s2) by (intros x c'; exact (set_cfg_wf i c2 s1 Wc2 W1 x c')). split; [|exact W2]. apply frame_of; cbn [s2 cfgs objs].
    + intros x c' k. rewrite dget_dset. destruct (String.eqb_spec x i) as [->|]; [intros [= <-]; apply Kc2|apply K1].
    + intros x o2. rewrite !dget_dset. destruct (String.eqb_spec x i) as [->|]; [|apply S1]. intros [= <-]. exists c2. split; [reflexivity|].
      now rewrite <- (reg_apply u keys Reg i o).
  - intros Eo s2. assert (W2 : st_wf s2) by (now apply set_cfg_wf). split; [|exact W2]. apply frame_of; cbn [s2 state_set_cfg cfgs objs].
    + intros x c' k. rewrite dget_dset. destruct (String.eqb_spec x i) as [->|]; [intros [= <-]; apply Kc2|apply K1].
    + intros x o2. rewrite dget_dset. destruct (String.eqb_spec x i) as [->|]; [congruence|apply S1].
Qed.
End Order.

Section Two.
Context {V : Type} (u : user V) (keys : string -> string -> bool) (rank : string -> nat).
Hypothesis Reg : regular u keys.
Hypothesis Hac : acyclic u rank.

Lemma with_order_regular o : regular (with_order u o) keys.
Proof. destruct Reg. split; assumption. Qed.
Lemma with_order_clean o s x : clean (with_order u o) s x <-> clean u s x.
Proof. split; intro H; exact H. Qed.

(** an update leaves a frame that does not depend on the order *)
Lemma update_keeps_frame n i d s : settled u keys s -> exists A B, (forall x, dwf (A x)) /\
  forall order s', update (with_order u order) n i d true s = (s', Ok tt) -> frame u keys A B s'.
Proof.
  intro St. destruct (own_config u (load u n) i s) as [s1 [c|e]] eqn:E.
  - set (c2 := cfg_update c (dict_of d) true). destruct (would_update u (vals c) (dict_of d)) eqn:Ew.
    + destruct (update_frame u keys rank Reg Hac n i d s c s1 St E) as [F1 F2]. fold c2 in F1, F2.
      destruct (dget i (objs s1)) as [o|] eqn:Eo.
      * destruct (u_apply u i o (vals c2)) as [o'|e] eqn:Ea.
        -- destruct (F1 o o' eq_refl Ea) as [F W]. cbv zeta in F, W. set (s2 := Deps_Model.St (dset i c2 (cfgs s1)) (dset i o' (objs s1)) (forced s1)) in *.
           exists (A_of s2), (B_of s2). split; [now apply A_of_wf|]. intros order s' E'. rewrite update_eq in E'.
           change (own_config (with_order u order) (load (with_order u order) n) i s) with (own_config u (load u n) i s) in E'. rewrite E in E'.
           change (would_update (with_order u order)) with (would_update u) in E'. rewrite Ew in E'. cbv zeta in E'. cbn [state_set_cfg objs cfgs forced] in E'.
           rewrite Eo in E'. fold c2 in E'. change (u_apply (with_order u order)) with (u_apply u) in E'. rewrite Ea in E'. fold s2 in E'.
           exact (refresh_dependents_J (with_order u order) keys _ _ _ n i
             (refresh_J (with_order u order) keys rank (with_order_regular order) Hac _ _ (A_of_wf s2 W) n) s2 s' F E').
        -- exists (A_of s), (B_of s). split; [apply A_of_wf, St|]. intros order s' E'. rewrite update_eq in E'.
           change (own_config (with_order u order) (load (with_order u order) n) i s) with (own_config u (load u n) i s) in E'. rewrite E in E'.
           change (would_update (with_order u order)) with (would_update u) in E'. rewrite Ew in E'. cbv zeta in E'. cbn [state_set_cfg objs cfgs forced] in E'.
           rewrite Eo in E'. fold c2 in E'. change (u_apply (with_order u order)) with (u_apply u) in E'. rewrite Ea in E'. discriminate.
      * destruct (F2 eq_refl) as [F W]. cbv zeta in F, W. exists (A_of (state_set_cfg i c2 s1)), (B_of (state_set_cfg i c2 s1)). split; [now apply A_of_wf|].
        intros order s' E'. rewrite update_eq in E'.
        change (own_config (with_order u order) (load (with_order u order) n) i s) with (own_config u (load u n) i s) in E'. rewrite E in E'.
        change (would_update (with_order u order)) with (would_update u) in E'. rewrite Ew in E'. cbv zeta in E'. cbn [state_set_cfg objs] in E'.
        rewrite Eo in E'. injection E' as <-. exact F.
    + exists (A_of s), (B_of s). split; [apply A_of_wf, St|]. intros order s' E'. rewrite update_eq in E'.
      change (own_config (with_order u order) (load (with_order u order) n) i s) with (own_config u (load u n) i s) in E'. rewrite E in E'.
      change (would_update (with_order u order)) with (would_update u) in E'. rewrite Ew in E'. injection E' as <-.
      assert (L := load_loads u rank Hac n). destruct St as (W & C & K & S).
      assert (X := own_config_J u keys rank Reg Hac (A_of s) (B_of s) (load u n) i (load_J u keys rank Reg Hac _ _ n) L
      (fun s => exec_objs u rank (load u n) i L _ (Hac i) s i (Nat.le_refl _)) s (frame_of u keys s K S)). rewrite E in X. exact X.
  - exists (A_of s), (B_of s). split; [apply A_of_wf, St|]. intros order s' E'. rewrite update_eq in E'.
    change (own_config (with_order u order) (load (with_order u order) n) i s) with (own_config u (load u n) i s) in E'. rewrite E in E'. discriminate.
Qed.
End Two.

(** ** The statements *)
Section Final.
Context {V : Type} (u : user V) (keys : string -> string -> bool) (rank : string -> nat).
Hypothesis Reg : regular u keys.
Hypothesis Hac : acyclic u rank.

Lemma order_independent n i d o1 o2 s s1 s2 : set_order (with_order u o1) -> set_order (with_order u o2) -> settled u keys s ->
  update (with_order u o1) n i d true s = (s1, Ok tt) -> update (with_order u o2) n i d true s = (s2, Ok tt) ->
  forall x, (forall c1 c2, dget x (cfgs s1) = Some c1 -> dget x (cfgs s2) = Some c2 -> same_values (vals c1) (vals c2)) /\
            (forall a b, dget x (objs s1) = Some a -> dget x (objs s2) = Some b -> a = b).
Proof.
  intros H1 H2 S E1 E2. destruct (update_keeps_frame u keys rank Reg Hac n i d s S) as (A & B & HA & F).
  assert (F1 := F _ _ E1). assert (F2 := F _ _ E2). destruct S as (W & C & _ & _).
  apply (agree u keys rank Reg Hac A B s1 s2 HA F1 F2).
  - intro x. destruct (update_clean (with_order u o1) rank Hac H1 n i d true s s1 W E1) as [_ X]. apply X; [apply C|now left].
  - intro x. destruct (update_clean (with_order u o2) rank Hac H2 n i d true s s2 W E2) as [_ X]. apply X; [apply C|now left].
Qed.

Lemma settled_of_frame A B s : st_wf s -> (forall x, clean u s x) -> frame u keys A B s -> settled u keys s.
Proof. intros W C F. apply frame_complete in F as [K S]. exact (conj W (conj C (conj K S))). Qed.

Lemma op_settled n o s s' : set_order u -> settled u keys s -> (match o with Update _ _ p => p = true | _ => True end) ->
  op_run u n o s = (s', Ok tt) -> settled u keys s'.
Proof.
  intros Hord S Hp E. assert (S' := S). destruct S' as (W & C & K & So). destruct o as [i|i d p|i]; cbn [op_run] in E.
  - destruct (load_loads u rank Hac n i s) as ((_ & _ & X) & _). destruct (X W) as [W' C']. rewrite E in W', C'. cbn [fst] in W', C'.
    assert (F := load_J u keys rank Reg Hac _ _ n i s (frame_of u keys s K So)). rewrite E in F. eapply settled_of_frame; [exact W'|auto|exact F].
  - subst p. destruct (update_keeps_frame u keys rank Reg Hac n i d s S) as (A & B & _ & F).
    destruct (update_clean u rank Hac Hord n i d true s s' W E) as [W' C'].
    assert (E' : update (with_order u (u_order u)) n i d true s = (s', Ok tt)) by (destruct u; exact E).
    eapply settled_of_frame; [exact W'|auto|exact (F _ _ E')].
  - destruct (refresh_refreshes u rank Hac Hord n i s s' W E) as [W' C']. eapply settled_of_frame; [exact W'|auto|].
    exact (refresh_J u keys rank Reg Hac _ _ (A_of_wf s W) n i s s' (frame_of u keys s K So) E).
Qed.
End Final.
