(** Proofs about resets (C110). *)
From Verif Require Export Undo_Spec Deps_Proofs DepsOrder_Proofs Spread_Proofs.
From Coq Require Import Permutation Lia.
Local Open Scope string_scope.
Local Open Scope list_scope.
Local Open Scope monad_scope.

Section Clean.
Context {V : Type} (u : user V) (rank : string -> nat).
Hypothesis Hac : acyclic u rank.
Hypothesis Hord : set_order u.

Lemma reset_eq n i s : reset u n i s =
  match exec (load u n) i (u_file u i) s with
  | (s1, Raise e) => (s1, Raise e)
  | (s1, Ok d) =>
  match own_config u (load u n) i s1 with
  | (s2, Raise e) => (s2, Raise e)
  | (s2, Ok c) =>
    if would_update u (vals c) d then
      let s3 := state_set_cfg i (Conf d []) s2 in
      match dget i (objs s3) with
      | None => (s3, Ok tt)
      | Some o => match u_apply u i o d with
                  | Raise e => (s3, Raise e)
                  | Ok o' => refresh_dependents u (refresh u n) n i (St (cfgs s3) (dset i o' (objs s3)) (forced s3))
                  end
      end
    else (s2, Ok tt)
  end
  end.
Proof.
  unfold reset. unfold bind at 1. destruct (exec (load u n) i (u_file u i) s) as [s1 [d|e]]; [|reflexivity].
  unfold bind at 1. destruct (own_config u (load u n) i s1) as [s2 [c|e]]; [|reflexivity].
  destruct (would_update u (vals c) d); [|reflexivity]. unfold bind at 1. unfold set_cfg at 1, modify at 1.
  fold (state_set_cfg i (Conf d []) s2). cbv zeta. set (s3 := state_set_cfg i _ s2).
  unfold bind at 1. unfold gets at 1. destruct (dget i (objs s3)) as [o|]; [|reflexivity].
  unfold bind at 1. unfold apply_to_loaded, bind, lift. destruct (u_apply u i o _); reflexivity.
Qed.

(** how far a reset gets before the dependents *)
Definition reaches n i s s2 d c : Prop :=
  exists s1, exec (load u n) i (u_file u i) s = (s1, Ok d) /\ own_config u (load u n) i s1 = (s2, Ok c).
Lemma reset_reaches n i s s' : reset u n i s = (s', Ok tt) -> exists s2 d c, reaches n i s s2 d c.
Proof.
  rewrite reset_eq. destruct (exec (load u n) i (u_file u i) s) as [s1 [d|e]] eqn:E1; [|discriminate].
  destruct (own_config u (load u n) i s1) as [s2 [c|e]] eqn:E2; [|discriminate]. intros _. exists s2, d, c, s1. auto.
Qed.
Lemma reset_from n i s s2 d c : reaches n i s s2 d c -> reset u n i s =
  if would_update u (vals c) d then
    match dget i (objs s2) with
    | None => (state_set_cfg i (Conf d []) s2, Ok tt)
    | Some o => match u_apply u i o d with
                | Raise e => (state_set_cfg i (Conf d []) s2, Raise e)
                | Ok o' => refresh_dependents u (refresh u n) n i (St (dset i (Conf d []) (cfgs s2)) (dset i o' (objs s2)) (forced s2))
                end
    end
  else (s2, Ok tt).
Proof. intros (s1 & E1 & E2). rewrite reset_eq, E1, E2. reflexivity. Qed.

Lemma reaches_facts n i s s2 d c : reaches n i s s2 d c -> ext u s s2 /\ dget i (cfgs s2) = Some c /\ dwf d /\
  exists l, yields (objs s2) (u_file u i) = Some (l, d) /\ forall j, In j l -> In i (dependents j s2).
Proof.
  intros (s1 & E1 & E2). assert (L := load_loads u rank Hac n). assert (X1 := exec_ext u rank (load u n) i L (u_file u i) s). rewrite E1 in X1. cbn [fst] in X1.
  destruct (exec_yields' u rank Hac (load u n) i s s1 d L E1) as (l & Y & D & W).
  destruct (own_config_ext u rank Hac (load u n) i L s1) as [X2 Hc]. rewrite E2 in X2, Hc. cbn [fst snd] in X2, Hc.
  split; [eapply ext_trans; eassumption|]. split; [now apply Hc|]. split; [exact W|]. exists l. destruct X2 as (O & P & _).
  split; [eapply yields_mono; [exact O | exact Y]|]. intros j Hj. apply P. now apply D.
Qed.

Lemma reset_clean n i s s' : st_wf s -> reset u n i s = (s', Ok tt) -> st_wf s' /\ forall x, clean u s x -> clean u s' x.
Proof.
  intros W E. destruct (reset_reaches _ _ _ _ E) as (s2 & d & c & R). rewrite (reset_from _ _ _ _ _ _ R) in E.
  destruct (reaches_facts _ _ _ _ _ _ R) as (X & Hc & Wd & l & Y & D). destruct X as (_ & _ & X). destruct (X W) as [W2 C2].
  destruct (would_update u (vals c) d); [|injection E as <-; auto].
  set (s3 := state_set_cfg i (Conf d []) s2) in *. assert (W3 : st_wf s3) by (apply set_cfg_wf; [apply dwf_nil | exact W2]).
  assert (C3 : forall x, clean u s x -> clean u s3 x).
  { intros x Hx. destruct (String.eqb_spec x i) as [->|Hne]; [|now apply set_cfg_clean_other, C2].
    eapply set_cfg_clean_same; [exact Y | exact D|]. intros k v w. cbn. intros -> [= ->]. now left. }
  destruct (dget i (objs s2)) as [o|]; [|injection E as <-; auto].
  destruct (u_apply u i o d) as [o'|e]; [|discriminate].
  change (refresh_dependents u (refresh u n) n i (St (cfgs s3) (dset i o' (objs s3)) (forced s3)) = (s', Ok tt)) in E.
  destruct (changed_object u rank Hac Hord _ _ _ _ _ _ (refresh_refreshes u rank Hac Hord n) W3 E) as [W4 C4].
  split; [exact W4|]. auto.
Qed.
(** if something changes, even a config that was out of date is brought up to date *)
Lemma reset_clean_own n i s s' s2 d c : st_wf s -> reset u n i s = (s', Ok tt) -> reaches n i s s2 d c -> would_update u (vals c) d = true -> clean u s' i.
Proof.
  intros W E R Wu. rewrite (reset_from _ _ _ _ _ _ R), Wu in E.
  destruct (reaches_facts _ _ _ _ _ _ R) as (X & Hc & Wd & l & Y & D). destruct X as (_ & _ & X). destruct (X W) as [W2 C2].
  set (s3 := state_set_cfg i (Conf d []) s2) in *. assert (W3 : st_wf s3) by (apply set_cfg_wf; [apply dwf_nil | exact W2]).
  assert (C3 : clean u s3 i) by (eapply set_cfg_clean_same; [exact Y | exact D|]; intros k v w; cbn; intros -> [= ->]; now left).
  destruct (dget i (objs s2)) as [o|]; [|injection E as <-; auto].
  destruct (u_apply u i o d) as [o'|e]; [|discriminate].
  change (refresh_dependents u (refresh u n) n i (St (cfgs s3) (dset i o' (objs s3)) (forced s3)) = (s', Ok tt)) in E.
  now apply (changed_object u rank Hac Hord _ _ _ _ _ _ (refresh_refreshes u rank Hac Hord n) W3 E).
Qed.
End Clean.

(* ------------------------------------------------------------------ *)
(** * Frames *)

Definition at_ {T} (i : string) (a : T) (A : string -> T) (x : string) : T := if String.eqb x i then a else A x.
Lemma at_same {T} i (a : T) A : at_ i a A i = a. Proof. unfold at_. now rewrite String.eqb_refl. Qed.
Lemma at_other {T} i (a : T) A x : x <> i -> at_ i a A x = A x. Proof. unfold at_. now destruct (String.eqb_spec x i). Qed.

Section Frames.
Context {V : Type} (u : user V) (keys : string -> string -> bool) (rank : string -> nat).
Hypothesis Reg : regular u keys.
Hypothesis Hac : acyclic u rank.

Lemma set_frame i A A' (B B' : string -> string -> option V) s c o : frame u keys A B s -> (forall x, x <> i -> A' x = A x /\ B' x = B x) -> applied c = A' i ->
  (forall k, keys i k = true \/ dmem k (A' i) = true -> dmem k (vals c) = true) ->
  (forall k, keys i k = false -> dmem k (A' i) = false -> dget k (vals c) = B' i k) ->
  (forall x, x <> i -> dget x o = dget x (objs s)) -> (forall o', dget i o = Some o' -> u_init u i (vals c) = Ok o') ->
  frame u keys A' B' (St (dset i c (cfgs s)) o (forced s)).
Proof.
  intros (J1 & J2 & J3) HA Ha Hk Hb Ho Hi. split; [|split]; cbn [cfgs objs].
  - intros x c'. rewrite dget_dset. destruct (String.eqb_spec x i) as [->|Hne]; [intros [= <-]; auto|]. destruct (HA x Hne) as [-> ->]. apply J1.
  - intros x. rewrite dget_dset. destruct (String.eqb_spec x i) as [->|Hne]; [discriminate|]. destruct (HA x Hne) as [-> ->]. apply J2.
  - intros x o'. rewrite dget_dset. destruct (String.eqb_spec x i) as [->|Hne]; [intro H; exists c; auto|]. rewrite (Ho x Hne). apply J3.
Qed.

Lemma own_config_frame A B n i s : frame u keys A B s -> frame u keys A B (fst (own_config u (load u n) i s)).
Proof.
  intro F. assert (L := load_loads u rank Hac n). apply (own_config_J u keys rank Reg Hac A B (load u n) i (load_J u keys rank Reg Hac A B n) L); [|exact F].
  intro s0. apply (exec_objs u rank (load u n) i L); [apply Hac | lia].
Qed.
Lemma reaches_frame A B n i s s2 d c : frame u keys A B s -> reaches u n i s s2 d c -> frame u keys A B s2.
Proof.
  intros F (s1 & E1 & E2). assert (F1 := exec_J u keys A B (load u n) i (u_file u i) (load_J u keys rank Reg Hac A B n) s F). rewrite E1 in F1.
  assert (F2 := own_config_frame A B n i s1 F1). now rewrite E2 in F2.
Qed.

(** the persisted updates and the values of other names that a reset leaves *)
Lemma reset_frame order A B n i s s' s2 d c : set_order (with_order u order) -> (forall x, dwf (A x)) -> frame u keys A B s ->
  reset (with_order u order) n i s = (s', Ok tt) -> reaches u n i s s2 d c ->
  if would_update u (vals c) d then frame u keys (at_ i [] A) (at_ i (fun _ => None) B) s' else frame u keys A B s' /\ s' = s2.
Proof.
  intros Ho HA F E R. assert (R' : reaches (with_order u order) n i s s2 d c) by exact R. rewrite (reset_from _ _ _ _ _ _ _ R') in E.
  change (would_update (with_order u order)) with (would_update u) in E. change (u_apply (with_order u order)) with (u_apply u) in E.
  assert (F2 := reaches_frame A B n i s s2 d c F R). destruct (reaches_facts u rank Hac _ _ _ _ _ _ R) as (_ & Hc & Wd & l & Y & _).
  destruct (would_update u (vals c) d); [|injection E as <-; auto]. assert (K := fun k => reg_keys u keys Reg i _ _ _ k Y).
  assert (P : forall o, (forall x, x <> i -> dget x o = dget x (objs s2)) -> (forall o', dget i o = Some o' -> u_init u i d = Ok o') ->
    frame u keys (at_ i [] A) (at_ i (fun _ => None) B) (St (dset i (Conf d []) (cfgs s2)) o (forced s2))).
  { intros o O1 O2. apply (set_frame i A _ B); auto.
    - intros x Hne. now rewrite !at_other by exact Hne.
    - now rewrite at_same.
    - intros k Hk. rewrite at_same in Hk. destruct Hk as [Hk|Hk]; [cbn [vals]; now rewrite K | discriminate].
    - intros k Hk _. rewrite at_same. specialize (K k). rewrite Hk in K. unfold dmem in K. cbn [vals]. now destruct (dget k d). }
  destruct (dget i (objs s2)) as [o|] eqn:Eo.
  - destruct (u_apply u i o d) as [o'|e] eqn:Ea; [|discriminate]. rewrite (reg_apply u keys Reg) in Ea.
    assert (Z : frame u keys (at_ i [] A) (at_ i (fun _ => None) B) (St (dset i (Conf d []) (cfgs s2)) (dset i o' (objs s2)) (forced s2))).
    { apply P; [intros x Hne; rewrite dget_dset; now destruct (String.eqb_spec x i)|]. intros o2. rewrite dget_dset_eq. now intros [= <-]. }
    refine (refresh_dependents_J (with_order u order) keys _ _ _ n i (refresh_J (with_order u order) keys rank (with_order_regular u keys Reg order) Hac _ _ _ n) _ s' Z E).
    intro x. unfold at_. destruct (String.eqb x i); [apply dwf_nil | apply HA].
  - injection E as <-. apply P; [reflexivity|]. congruence.
Qed.
Lemma with_own_order : with_order u (u_order u) = u. Proof. now destruct u. Qed.

Lemma update_frame_at a (A : string -> dict V) B n i d s s' : set_order u -> (forall x, dwf (at_ i a A x)) -> (forall k v, In (k, v) d -> keys i k = true) ->
  frame u keys (at_ i a A) B s -> update u n i d true s = (s', Ok tt) ->
  frame u keys (at_ i a A) B s' \/ frame u keys (at_ i (dupdate a (dict_of d)) A) B s'.
Proof.
  intros Ho HA Hd F E. rewrite update_eq in E. assert (F1 := own_config_frame _ _ n i s F). assert (Ow := own_config_there u (load u n) i s).
  destruct (own_config u (load u n) i s) as [s1 [c|e]]; [|discriminate]. cbn [fst] in F1. specialize (Ow s1 c eq_refl).
  destruct (would_update u (vals c) (dict_of d)); [|injection E as <-; now left]. right. cbv zeta in E.
  set (c2 := cfg_update c (dict_of d) true) in *. assert (F1' := F1). destruct F1' as (J1 & _ & _). destruct (J1 i c Ow) as (Ea & Kc & Bc). rewrite at_same in Ea, Kc, Bc.
  assert (N : forall k, keys i k = false -> dget k (dict_of d) = None).
  { intros k Hk. apply dget_None. intro I. apply In_dkeys_dupdate in I as [[]|I]. unfold dkeys in I. apply in_map_iff in I as ([k' v] & <- & I).
    cbn in Hk. rewrite (Hd _ _ I) in Hk. discriminate. }
  assert (P : forall o, (forall x, x <> i -> dget x o = dget x (objs s1)) -> (forall o', dget i o = Some o' -> u_init u i (vals c2) = Ok o') ->
    frame u keys (at_ i (dupdate a (dict_of d)) A) B (St (dset i c2 (cfgs s1)) o (forced s1))).
  { intros o O1 O2. apply (set_frame i (at_ i a A) _ B); auto.
    - intros x Hne. now rewrite !at_other by exact Hne.
    - rewrite at_same. cbn. now rewrite Ea.
    - intros k. rewrite at_same. cbn [c2 cfg_update vals]. unfold dmem. rewrite !dget_dupdate by apply dict_of_wf. destruct (dget k (dict_of d)); [reflexivity|].
      apply Kc.
    - intros k Hk. rewrite at_same. cbn [c2 cfg_update vals]. unfold dmem. rewrite !dget_dupdate by apply dict_of_wf. rewrite (N k Hk). intro X. now apply Bc. }
  destruct (dget i (objs (state_set_cfg i c2 s1))) as [o|] eqn:Eo; cbn [state_set_cfg objs cfgs forced] in *.
  - destruct (u_apply u i o (vals c2)) as [o'|e] eqn:Eap; [|discriminate]. rewrite (reg_apply u keys Reg) in Eap.
    assert (Z : frame u keys (at_ i (dupdate a (dict_of d)) A) B (St (dset i c2 (cfgs s1)) (dset i o' (objs s1)) (forced s1))).
    { apply P; [intros x Hne; rewrite dget_dset; now destruct (String.eqb_spec x i)|]. intros o2. rewrite dget_dset_eq. now intros [= <-]. }
    refine (refresh_dependents_J u keys _ _ _ n i (refresh_J u keys rank Reg Hac _ _ _ n) _ s' Z E).
    intro x. specialize (HA x). unfold at_ in *. destruct (String.eqb x i); [now apply dupdate_wf | exact HA].
  - injection E as <-. apply P; [reflexivity|]. congruence.
Qed.

Lemma frame_ext A A' (B B' : string -> string -> option V) s : (forall x, A' x = A x) -> (forall x, B' x = B x) -> frame u keys A B s -> frame u keys A' B' s.
Proof.
  intros HA HB (J1 & J2 & J3). split; [|split; [|exact J3]].
  - intros x c E. rewrite HA, HB. now apply J1.
  - intros x E. rewrite HA, HB. now apply J2.
Qed.

(** only the updates of [i] may differ *)
Definition inv (A : string -> dict V) B i (s : st V) : Prop := exists a, dwf a /\ (forall k, dmem k a = true -> keys i k = true) /\
  frame u keys (at_ i a A) (at_ i (fun _ => None) B) s /\ st_wf s /\ forall x, clean u s x.

Lemma at_wf a (A : string -> dict V) i : dwf a -> (forall x, dwf (A x)) -> forall x, dwf (at_ i a A x).
Proof. intros H HA x. unfold at_. now destruct (String.eqb x i). Qed.

Lemma step_inv A B i n t s s' : set_order u -> (forall x, dwf (A x)) -> only_changes keys i t -> inv A B i s -> step_run u n t s = (s', Ok tt) -> inv A B i s'.
Proof.
  intros Ho HA Ht (a & Wa & Ka & F & W & C) E. assert (HA' := at_wf a A i Wa HA). destruct t as [[x|x d p|x]|x]; cbn [step_run op_run only_changes] in *.
  - destruct (load_loads u rank Hac n x s) as ((_ & _ & X) & _). destruct (X W) as [W' C']. rewrite E in W', C'. cbn [fst] in W', C'.
    assert (F' := load_J u keys rank Reg Hac _ _ n x s F). rewrite E in F'. exists a. auto 7.
  - destruct Ht as (-> & -> & Hd). destruct (update_clean u rank Hac Ho n i d true s s' W E) as [W' C'].
    destruct (update_frame_at a A _ n i d s s' Ho HA' Hd F E) as [F'|F']; [exists a; auto 7|]. exists (dupdate a (dict_of d)).
    split; [now apply dupdate_wf|]. split; [|auto 7]. intros k. unfold dmem. rewrite dget_dupdate by apply dict_of_wf. destruct (dget k (dict_of d)) as [v|] eqn:Ek; [|apply Ka].
    intros _. assert (I : In k (dkeys (dict_of d))) by (apply dget_Some_In in Ek; apply in_map_iff; exists (k, v); auto).
    apply In_dkeys_dupdate in I as [[]|I]. unfold dkeys in I. apply in_map_iff in I as ([k' v'] & <- & I). now apply (Hd _ v').
  - destruct (refresh_refreshes u rank Hac Ho n x s s' W E) as [W' C'].
    assert (F' := refresh_J u keys rank Reg Hac _ _ HA' n x s s' F E). exists a. auto 7.
  - subst x. destruct (reset_clean u rank Hac Ho n i s s' W E) as [W' C']. destruct (reset_reaches _ _ _ _ _ E) as (s2 & d & c & R).
    assert (Q := reset_frame (u_order u) (at_ i a A) (at_ i (fun _ => None) B) n i s s' s2 d c). rewrite with_own_order in Q. specialize (Q Ho HA' F E R).
    destruct (would_update u (vals c) d); [|destruct Q as [Q _]; exists a; auto 7]. exists []. split; [apply dwf_nil|]. split; [discriminate|]. split; [|auto].
    revert Q. apply frame_ext; intro y; unfold at_; now destruct (String.eqb y i).
Qed.
Lemma steps_inv A B i n l s s' : set_order u -> (forall x, dwf (A x)) -> Forall (only_changes keys i) l -> inv A B i s -> steps_run u n l s = (s', Ok tt) -> inv A B i s'.
Proof.
  intros Ho HA Hl. revert s. induction Hl as [|t l Ht _ IH]; intros s I E; [injection E as <-; exact I|].
  unfold steps_run in E. cbn [iterM] in E. unfold bind in E. destruct (step_run u n t s) as [s1 [[]|e]] eqn:E1; [|discriminate].
  apply (IH s1); [|exact E]. exact (step_inv A B i n t s s1 Ho HA Ht I E1).
Qed.

Lemma undo i n l s s1 s' : set_order u -> settled u keys s -> untouched keys s i -> Forall (only_changes keys i) l ->
  steps_run u n l s = (s1, Ok tt) -> reset u n i s1 = (s', Ok tt) -> same_world s s'.
Proof.
  intros Ho (W & C & K & So) Hu Hl E1 E2. set (A := A_of s). set (B := B_of s).
  assert (HA : forall x, dwf (A x)) by now apply A_of_wf.
  assert (F0 : frame u keys (at_ i [] A) (at_ i (fun _ => None) B) s).
  { destruct (frame_of u keys s K So) as (J1 & J2 & J3). fold A B in J1, J2. split; [|split; [|exact J3]].
    - intros x c Ec. unfold at_. destruct (String.eqb_spec x i) as [->|]; [|now apply J1]. destruct (Hu c Ec) as [Ha Hk]. destruct (J1 i c Ec) as (_ & Kc & _).
      split; [exact Ha|]. split; [|now intros k Z _; apply Hk]. intros k [Z|Z]; [apply Kc; now left | discriminate].
    - intros x Ec. unfold at_. destruct (String.eqb_spec x i) as [->|]; [auto|]. now apply J2. }
  assert (HA0 := at_wf [] A i dwf_nil HA).
  assert (I0 : inv A B i s). { exists []. split; [apply dwf_nil|]. split; [discriminate|]. auto. }
  destruct (steps_inv A B i n l s s1 Ho HA Hl I0 E1) as (a & Wa & Ka & F1 & W1 & C1). assert (HA1 := at_wf a A i Wa HA).
  destruct (reset_clean u rank Hac Ho n i s1 s' W1 E2) as [W' C']. destruct (reset_reaches _ _ _ _ _ E2) as (s2 & d & c & R).
  assert (Q := reset_frame (u_order u) (at_ i a A) (at_ i (fun _ => None) B) n i s1 s' s2 d c). rewrite with_own_order in Q. specialize (Q Ho HA1 F1 E2 R).
  destruct (would_update u (vals c) d) eqn:Ew.
  - assert (Q' : frame u keys (at_ i [] A) (at_ i (fun _ => None) B) s') by (revert Q; apply frame_ext; intro y; unfold at_; now destruct (String.eqb y i)).
    intro x. apply (agree u keys rank Reg Hac _ _ s s' HA0 F0 Q' C). auto.
  - destruct Q as [Q ->]. destruct (reaches_facts u rank Hac _ _ _ _ _ _ R) as (_ & Hc & Wd & m & Y & D).
    set (s3 := state_set_cfg i (Conf (vals c) []) s2). destruct Q as (J1 & J2 & J3). destruct (J1 i c Hc) as (_ & Kc & Bc). rewrite !at_same in Kc, Bc.
    assert (F3 : frame u keys (at_ i [] A) (at_ i (fun _ => None) B) s3).
    { apply (set_frame i (at_ i a A) _ (at_ i (fun _ => None) B)); [exact (conj J1 (conj J2 J3))|..].
      - intros x Hne. now rewrite !at_other by exact Hne.
      - now rewrite at_same.
      - intros k. rewrite at_same. intros [Z|Z]; [apply Kc; now left|discriminate].
      - intros k Z _. cbn [vals]. apply Bc; [exact Z|]. destruct (dmem k a) eqn:M; [|reflexivity]. rewrite (Ka k M) in Z. discriminate.
      - reflexivity.
      - intros o' Eo. destruct (J3 i o' Eo) as (c' & Ec' & I'). cbn [vals]. congruence. }
    assert (C3 : forall x, clean u s3 x).
    { intros x. destruct (String.eqb_spec x i) as [->|Hne]; [|apply set_cfg_clean_other; auto].
      eapply set_cfg_clean_same; [exact Y | exact D|]. cbn [vals applied]. now apply would_update_false. }
    intro x. destruct (agree u keys rank Reg Hac _ _ s s3 HA0 F0 F3 C C3 x) as [X1 X2]. split; [|exact X2].
    intros c0 c' Ec0 Ec'. unfold same_values. destruct (String.eqb_spec x i) as [->|Hne].
    + rewrite Hc in Ec'. injection Ec' as <-. apply (X1 c0 (Conf (vals c) []) Ec0). unfold s3, state_set_cfg. cbn [cfgs]. apply dget_dset_eq.
    + apply (X1 c0 c' Ec0). unfold s3, state_set_cfg. cbn [cfgs]. now rewrite dget_dset_neq by congruence.
Qed.

Lemma reset_settled n i s s' : set_order u -> settled u keys s -> reset u n i s = (s', Ok tt) -> settled u keys s'.
Proof.
  intros Ho (W & C & K & So) E. destruct (reset_clean u rank Hac Ho n i s s' W E) as [W' C']. destruct (reset_reaches _ _ _ _ _ E) as (s2 & d & c & R).
  assert (Q := reset_frame (u_order u) (A_of s) (B_of s) n i s s' s2 d c). rewrite with_own_order in Q. specialize (Q Ho (A_of_wf s W) (frame_of u keys s K So) E R).
  destruct (would_update u (vals c) d); [|destruct Q as [Q _]]; (eapply settled_of_frame; [exact W'|auto|exact Q]).
Qed.

(** the names of the file have the values of the file *)
Lemma reset_values n i s s' c' : set_order u -> settled u keys s -> reset u n i s = (s', Ok tt) -> dget i (cfgs s') = Some c' ->
  exists l d, yields (objs s') (u_file u i) = Some (l, d) /\ forall k v, dget k d = Some v -> dget k (vals c') = Some v.
Proof.
  intros Ho (W & C & K & So) E Ec. destruct (reset_clean u rank Hac Ho n i s s' W E) as [W' C']. destruct (reset_reaches _ _ _ _ _ E) as (s2 & d & c & R).
  assert (Q := reset_frame (u_order u) (A_of s) (B_of s) n i s s' s2 d c). rewrite with_own_order in Q. specialize (Q Ho (A_of_wf s W) (frame_of u keys s K So) E R).
  assert (G : forall l d0, yields (objs s') (u_file u i) = Some (l, d0) -> up_to_date u (vals c') d0 -> (forall k, keys i k = true -> dmem k (vals c') = true) ->
    forall k v, dget k d0 = Some v -> dget k (vals c') = Some v).
  { intros l d0 Y U Kc k v Ek. assert (M := reg_keys u keys Reg i _ _ _ k Y). unfold dmem at 1 in M. rewrite Ek in M. specialize (Kc k (eq_sym M)).
    unfold dmem in Kc. destruct (dget k (vals c')) as [w|] eqn:Ew; [|discriminate]. f_equal. destruct (U k v w Ek Ew) as [|H]; [assumption|].
    now apply (reg_eq u keys Reg). }
  destruct (would_update u (vals c) d) eqn:Ew.
  - destruct (proj1 Q i c' Ec) as (Ha & Kc & _). rewrite at_same in Ha, Kc. destruct (C' i (C i) c' Ec) as (l & d' & Y & _ & U). rewrite Ha in U.
    exists l, d'. split; [exact Y|]. apply (G l d' Y U). intros k Hk. apply Kc. now left.
  - destruct Q as [Q ->]. destruct (reaches_facts u rank Hac _ _ _ _ _ _ R) as (_ & Hc & Wd & m & Y & _). rewrite Hc in Ec. injection Ec as <-.
    destruct (proj1 Q i c Hc) as (_ & Kc & _). exists m, d. split; [exact Y|]. apply (G m d Y); [now apply would_update_false|]. intros k Hk. apply Kc. now left.
Qed.

Lemma reset_order n i o1 o2 s s1 s2 : set_order (with_order u o1) -> set_order (with_order u o2) -> settled u keys s ->
  reset (with_order u o1) n i s = (s1, Ok tt) -> reset (with_order u o2) n i s = (s2, Ok tt) -> same_world s1 s2.
Proof.
  intros H1 H2 (W & C & K & So) E1 E2. destruct (reset_reaches _ _ _ _ _ E1) as (s3 & d & c & R). change (reaches u n i s s3 d c) in R.
  assert (Q1 := reset_frame o1 _ _ n i s s1 s3 d c H1 (A_of_wf s W) (frame_of u keys s K So) E1 R).
  assert (Q2 := reset_frame o2 _ _ n i s s2 s3 d c H2 (A_of_wf s W) (frame_of u keys s K So) E2 R).
  destruct (reset_clean (with_order u o1) rank Hac H1 n i s s1 W E1) as [_ C1]. destruct (reset_clean (with_order u o2) rank Hac H2 n i s s2 W E2) as [_ C2].
  destruct (would_update u (vals c) d).
  - intro x. apply (agree u keys rank Reg Hac _ _ s1 s2 (at_wf [] _ i dwf_nil (A_of_wf s W)) Q1 Q2); intro y; [apply C1 | apply C2]; apply C.
  - destruct Q1 as [_ ->], Q2 as [_ ->]. intro x. split; intros ? ? Z1 Z2; [intro k|]; congruence.
Qed.

Lemma steps_settled n l s s' : set_order u -> Forall persisted l -> settled u keys s -> steps_run u n l s = (s', Ok tt) -> settled u keys s'.
Proof.
  intros Ho Hl. revert s. induction Hl as [|t l Ht _ IH]; intros s S E; [injection E as <-; exact S|].
  unfold steps_run in E. cbn [iterM] in E. unfold bind in E. destruct (step_run u n t s) as [s1 [[]|e]] eqn:E1; [|discriminate].
  apply (IH s1); [|exact E]. destruct t as [o|i]; [|exact (reset_settled n i s s1 Ho S E1)]. apply (op_settled u keys rank Reg Hac n o s s1 Ho S); [|exact E1].
  destruct o; auto.
Qed.
End Frames.

Section History.
Context {V : Type} (u : user V) (rank : string -> nat).
Hypothesis Hac : acyclic u rank.
Hypothesis Hord : set_order u.
Lemma steps_clean n l : Forall persisted l -> forall s s', st_wf s -> (forall x, clean u s x) -> steps_run u n l s = (s', Ok tt) -> st_wf s' /\ forall x, clean u s' x.
Proof.
  induction 1 as [|t l Ht _ IH]; intros s s' W C E; [injection E as <-; auto|].
  unfold steps_run in E. cbn [iterM] in E. unfold bind in E. destruct (step_run u n t s) as [s1 [[]|e]] eqn:E1; [|discriminate].
  assert (st_wf s1 /\ forall x, clean u s1 x) as [W1 C1].
  { destruct t as [[x|x d p|x]|x]; cbn [step_run op_run] in E1.
    - destruct (load_loads u rank Hac n x s) as ((_ & _ & X) & _). destruct (X W) as [W' C']. rewrite E1 in W', C'. cbn [fst] in W', C'. auto.
    - cbn in Ht. subst p. destruct (update_clean u rank Hac Hord n x d true s s1 W E1) as [W' C']. auto.
    - destruct (refresh_refreshes u rank Hac Hord n x s s1 W E1) as [W' C']. auto.
    - destruct (reset_clean u rank Hac Hord n x s s1 W E1) as [W' C']. auto. }
  now apply (IH s1).
Qed.
End History.

(* ------------------------------------------------------------------ *)
(** * Hooks *)

Section Hooks.
Context {V : Type} (u : user V) (objects : list (ev V) -> ev V -> option exn).

Lemma sim_reset n i : (forall l e, objects l e = None) -> sim (reset_h u objects n i) (reset u n i).
Proof.
  intros H. unfold reset_h, reset. apply sim_bind; [apply sim_on_st|]. intros d. apply sim_bind; [apply sim_on_st|]. intros c.
  destruct (would_update _ _ _); [|apply sim_ret]. apply sim_tell; [exact H|].
  apply sim_bind; [apply sim_on_st|]. intros _. apply sim_bind; [apply (sim_gets (fun s => dget i (objs s)))|].
  intros [o|]; [|apply sim_ret]. apply sim_bind; [apply sim_on_st|]. intros _. apply sim_after; [exact H|]. intro x. now apply sim_refresh.
Qed.

Section Rel.
Variable Q : st V -> st V -> Prop.
Hypothesis Q_refl : forall s, Q s s.
Hypothesis Q_trans : forall s1 s2 s3, Q s1 s2 -> Q s2 s3 -> Q s1 s3.
Hypothesis Q_add : forall i j s, Q s (add_dependency i j s).
Hypothesis Q_new : forall i d s s1, dget i (cfgs s) = None -> Q s s1 -> Q s (state_set_cfg i (Conf d []) s1).
Hypothesis Q_obj : forall i o s, Q s (St (cfgs s) (dset i o (objs s)) (forced s)).
Hypothesis Q_inherit : forall i c s, dget i (cfgs s) = Some c -> Q s (state_set_cfg i (with_inherited u i c) s).
Variable good : ev V -> Prop.
Variable R : st V -> list (ev V) -> list (ev V) -> st V -> option exn -> Prop.
Hypothesis R_quiet : forall s l s' x, Q s s' -> R s l [] s' x.
Hypothesis R_trans : forall s l k1 s1 k2 s2 x, R s l k1 s1 None -> R s1 (l ++ k1) k2 s2 x -> R s l (k1 ++ k2) s2 x.
Hypothesis R_tell : forall s l e, good e -> R s l [e] s (objects l e).
Hypothesis R_change : forall s l e c, e_when e = Before -> R s (l ++ [e]) [] (state_set_cfg (e_item e) c s) None.
Hypothesis good_before : forall i v ups, would_update u v ups = true -> good (Ev Before i (Some v) ups).
Hypothesis good_users : forall i c ups, dwf ups -> good (Ev Users i (Some (vals (with_inherited u i (cfg_update c ups false)))) ups).
Hypothesis good_users_own : forall i c ups persist, dwf ups -> good (Ev Users i (Some (vals (cfg_update c ups persist))) ups).
Hypothesis good_installed : forall i v ups, good (Ev Installed i v ups).

Lemma reset_rel n i : rel R (reset_h u objects n i).
Proof.
  intros s l. assert (L : loadsQ Q (load u n)) by (apply (load_Q u Q); assumption). unfold reset_h.
  apply (at_step Q R R_quiet R_trans); [intro s0; now apply (exec_Q Q)|]. intros s1 d E1. apply exec_dwf in E1.
  apply (at_step Q R R_quiet R_trans); [intro s0; now apply (own_config_Q u Q)|]. intros s3 c E3. apply own_config_there in E3.
  destruct (would_update u (vals c) d) eqn:Wd; [|apply at_rel; now apply (rel_ret Q)].
  eapply (at_tell objects good R R_trans R_tell); [exact E3 | now apply good_before|]. intros _. apply (at_change R R_trans R_change).
  apply (at_gets R (fun s => dget i (objs s))). destruct (dget i (objs _)) as [o|]; [|apply at_rel; now apply (rel_ret Q)].
  apply (at_step Q R R_quiet R_trans); [intros; now apply (apply_Q u Q)|]. intros s8 [] E9. apply apply_cfgs in E9.
  eapply (at_after u objects Q) with (good := good) (v := Conf d []); try eassumption; [|rewrite E9; apply dget_dset_eq|].
  - intro x. eapply (refresh_rel u objects Q) with (good := good); eauto.
  - assert (X := good_users_own i (Conf [] []) d false E1). cbn [cfg_update vals] in X. fold (dict_of d) in X. now rewrite (dict_of_id d E1) in X.
Qed.
End Rel.

Lemma reset_stops n i s l : exists k, snd (fst (reset_h u objects n i (s, l))) = l ++ k /\
  stops objects s l k (fst (fst (reset_h u objects n i (s, l)))) (exn_of (snd (reset_h u objects n i (s, l)))).
Proof.
  apply (reset_rel (fun _ _ => True)) with (good := fun _ => True); auto.
  - intros s0 l0 s' x _ p e q y E. destruct p; discriminate.
  - intros *. apply stops_trans.
  - intros s0 l0 e _ p e' q y E O. destruct p as [|? p]; [|destruct p; discriminate]. injection E as <- <-. rewrite app_nil_r in O. auto.
  - intros s0 l0 e c _ p e' q y E. destruct p; discriminate.
Qed.
Lemma reset_true n i s l : exists k, snd (fst (reset_h u objects n i (s, l))) = l ++ k /\ Forall (true_event u) k.
Proof.
  apply (reset_rel (fun _ _ => True)) with (good := true_event u) (R := fun _ _ k _ _ => Forall (true_event u) k); auto.
  - intros. apply Forall_app. auto.
  - intros i0 v ups H. unfold true_event, would_change; cbn. unfold would_update in H. apply existsb_exists in H. destruct H as [[k y] [I H]].
    cbn [fst snd] in H. destruct (dget k v) as [x|] eqn:E; [|discriminate]. exists v, k, x, y. repeat split; auto. now destruct (u_eq u x y).
  - intros i0 c ups Wf. unfold true_event, has_changed; cbn. eexists. split; [reflexivity|]. intros k x E N.
    assert (X : dget k (vals (cfg_update c ups false)) = Some x) by (cbn [cfg_update vals]; rewrite dget_dupdate by exact Wf; now rewrite E).
    unfold with_inherited. set (c1 := cfg_update c ups false) in *. clearbody c1. destruct (vals c1) eqn:D; [now rewrite D|].
    cbn [cfg_update vals]. rewrite D. rewrite dget_dupdate by apply dict_of_wf. now rewrite N.
  - intros i0 c ups persist Wf. unfold true_event, has_changed; cbn. eexists. split; [reflexivity|]. intros k x E _.
    rewrite dget_dupdate by exact Wf. now rewrite E.
  - intros. exact I.
Qed.

Lemma reset_tells N n i s l : set_order u -> tells N (fun F => told F N i) (reset_h u objects n i) s l.
Proof.
  intros Ho. unfold reset_h. apply tells_step; [intros; apply exec_grows|]. intros s2 d _. apply tells_step; [intros; apply own_config_grows|]. intros s3 c _.
  destruct (would_update _ _ _); [|apply tells_ret; constructor]. apply tells_tell. intros v.
  apply tells_step; [intros; apply set_cfg_grows|]. intros s6 _ _.
  intros O h E. unfold bind at 1, gets in E. cbn [fst] in E. revert O h E.
  destruct (dget i (objs s6)) as [o|] eqn:Eo; [|apply (tells_ret N (fun F k => told F N i (Ev Before i v d :: k))); intros O F; apply told_before; now apply O].
  apply (tells_step N (fun F k => told F N i (Ev Before i v d :: k))); [intros; apply apply_grows|]. intros s8 _ _.
  eapply tells_told. apply after_tells; [exact Ho|]. intros. now apply refresh_tells.
Qed.
End Hooks.

(* ------------------------------------------------------------------ *)
(** * The example *)

Lemma un_regular : regular un_user un_keys.
Proof.
  constructor.
  - intros v w H. now apply Nat.eqb_eq.
  - reflexivity.
  - intros i c c' H. cbn. unfold sp_init. cbn [flat_map]. now rewrite !H.
  - reflexivity.
  - intros i o l d k. cbn [un_user u_file]. unfold sp_file, un_keys. destruct (String.eqb i "a"); [|destruct (String.eqb i "b"); [|destruct (String.eqb i "c"); [|discriminate]]].
    + intros [= <- <-]. unfold dmem. cbn. now destruct (String.eqb k "x").
    + cbn [yields]. destruct (dget "a" o) as [oa|]; [|discriminate]. destruct (dget "x" oa); [|discriminate]. intros [= <- <-]. unfold dmem. cbn. now destruct (String.eqb k "y").
    + cbn [yields]. destruct (dget "b" o) as [oa|]; [|discriminate]. destruct (dget "y" oa); [|discriminate]. intros [= <- <-]. unfold dmem. cbn.
      destruct (String.eqb k "z"); [reflexivity|]. now destruct (String.eqb k "w").
Qed.
Lemma un_acyclic : acyclic un_user un_rank.
Proof.
  intro i. cbn [un_user u_file]. unfold sp_file. destruct (String.eqb i "a"); [constructor|].
  destruct (String.eqb i "b") eqn:Eb; [apply String.eqb_eq in Eb as ->|destruct (String.eqb i "c") eqn:Ec; [apply String.eqb_eq in Ec as ->|constructor]].
  - constructor; [vm_compute; lia|]. intro. constructor.
  - constructor; [vm_compute; lia|]. intro. constructor.
Qed.
Lemma un_order : set_order un_user.
Proof. intros s l. apply Permutation_refl. Qed.
Lemma settled_empty {V} (u : user V) keys : settled u keys empty_st.
Proof. repeat split; intros; discriminate. Qed.
Lemma un_settled : settled un_user un_keys un_start.
Proof.
  apply (steps_settled un_user un_keys un_rank un_regular un_acyclic 6 [Op (Load "c")] empty_st); [exact un_order| |apply settled_empty | vm_compute; reflexivity].
  repeat constructor.
Qed.
Lemma un_untouched : untouched un_keys un_start "a".
Proof.
  intros c E. assert (X : dget "a" (cfgs un_start) = Some (Conf [("x", 1)] [])) by (vm_compute; reflexivity). rewrite X in E. injection E as <-.
  split; [reflexivity|]. intros k. cbn. now destruct (String.eqb k "x").
Qed.
