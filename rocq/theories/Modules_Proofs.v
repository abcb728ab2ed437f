From Verif Require Import Modules_Model Modules_Spec.
Local Open Scope string_scope.
Local Open Scope list_scope.

Lemma act_ind2 (P : act -> Prop) :
  (forall m, P (Import m)) -> (forall m, P (Drop m)) -> (forall e, P (Throw e)) ->
  (forall b, Forall P b -> P (Try b)) -> (forall i b, Forall P b -> P (Load i b)) -> (forall i b, Forall P b -> P (Reload i b)) ->
  forall a, P a.
Proof.
  intros H1 H2 H3 H4 H5 H6. fix IH 1.
  intros [m|m|e|b|i b|i b]; [apply H1|apply H2|apply H3|apply H4|apply H5|apply H6].
  all: induction b as [|a b IHb]; constructor; [apply IH|exact IHb].
Qed.

Definition inner : list act -> M st unit := fix runs (l : list act) : M st unit := match l with [] => ret tt | a :: l => bind (run_act a) (fun _ => runs l) end.
Lemma inner_eq b s : inner b s = runs b s.
Proof.
  revert s. induction b as [|a b IH]; intros s; [reflexivity|]. change (bind (run_act a) (fun _ => inner b) s = bind (run_act a) (fun _ => runs b) s).
  unfold bind. destruct (run_act a s) as [s1 [u|e]]; [apply IH|reflexivity].
Qed.
Lemma load_ext i f g s : (forall s, f s = g s) -> load i f s = load i g s.
Proof. intros H. unfold load, bind at 1. cbn. now rewrite H. Qed.
Lemma run_Load i b s : run_act (Load i b) s = load i (runs b) s.
Proof. change (load i (inner b) s = load i (runs b) s). apply load_ext, inner_eq. Qed.
Lemma run_Reload i b s : run_act (Reload i b) s = reload i (runs b) s.
Proof.
  change (reload i (inner b) s = reload i (runs b) s). unfold reload, bind. destruct (wipe i s) as [s1 [u|e]]; [apply load_ext, inner_eq|reflexivity].
Qed.
Lemma run_Try b s : run_act (Try b) s = catch (runs b) s.
Proof. change (catch (inner b) s = catch (runs b) s). unfold catch. now rewrite inner_eq. Qed.

Lemma runs_cons a b s : runs (a :: b) s = match run_act a s with (s1, Ok _) => runs b s1 | (s1, Raise e) => (s1, Raise e) end.
Proof. reflexivity. Qed.

(** * Invariants of everything *)
Lemma mem_s_In l m : mem_s l m = true <-> In m l.
Proof.
  unfold mem_s. rewrite existsb_exists. split.
  - intros (x & Hx & E). apply String.eqb_eq in E. now subst.
  - intros H. exists m. split; [exact H|]. apply eqb_refl_s.
Qed.
Lemma mem_s_false l m : mem_s l m = false <-> ~ In m l.
Proof. rewrite <- mem_s_In. destruct (mem_s l m); split; congruence. Qed.

Lemma load_body i b s :
  load i b s = match b (St (mods s) (fresh s) (loaded s) (dset i (dkeys (mods s)) (trackers s))) with
               | (s1, Ok _) => bind (imported_modules i) (fun l => set_loaded i l) s1
               | (s1, Raise e) => if is_exception e then bind (imported_modules i) (fun l => bind (set_loaded i l) (fun _ => bind (wipe i) (fun _ => bind (set_loaded i []) (fun _ => raise e)))) s1 else (s1, Raise e)
               end.
Proof. reflexivity. Qed.

Section Keep.
  (** a property of states that no step of the programme breaks *)
  Variable P : st -> Prop.
  Hypothesis P_import : forall m s, P s -> P (fst (import m s)).
  Hypothesis P_pop : forall m s, P s -> P (fst (pop m s)).
  Hypothesis P_loaded : forall i l s, P s -> P (fst (set_loaded i l s)).

  Lemma keep_pops l s : P s -> P (fst (iterM pop l s)).
  Proof.
    revert s. induction l as [|m l IH]; intros s H; [exact H|]. cbn. unfold bind. generalize (P_pop m s H). destruct (pop m s) as [s1 [u|e]]; cbn; auto.
  Qed.
  Lemma keep_wipe i s : P s -> P (fst (wipe i s)).
  Proof. intros H. unfold wipe. destruct (dget i (loaded s)); [now apply keep_pops|exact H]. Qed.
  Lemma keep_load i (b : M st unit) s : P (fst (start_tracker i s)) -> (P (fst (start_tracker i s)) -> P (fst (b (fst (start_tracker i s))))) -> P (fst (load i b s)).
  Proof.
    intros H0 Hb. specialize (Hb H0). rewrite load_body. cbn in Hb. destruct (b _) as [s1 [u|e]]; cbn [fst] in Hb.
    - unfold bind, imported_modules. destruct (dget i (trackers s1)); [|exact Hb]. apply P_loaded, Hb.
    - destruct (is_exception e); [|exact Hb]. cbv [bind imported_modules set_loaded modify raise]. destruct (dget i (trackers s1)) as [l|]; [|exact Hb].
      match goal with |- context [wipe i ?x] => assert (H1 : P x) by (exact (P_loaded i _ s1 Hb)); generalize (keep_wipe i x H1) end.
      destruct (wipe i _) as [s2 [u|e2]]; cbn [fst]; auto. intros H2. exact (P_loaded i [] s2 H2).
  Qed.
End Keep.

Definition wfm (s : st) : Prop := sane s.
Lemma sane_import m s : sane s -> sane (fst (import m s)).
Proof.
  intros [H1 H2]. unfold import. destruct (dmem m (mods s)) eqn:E; [now split|]. cbn. split; cbn.
  - now apply dset_wf.
  - intros k v. rewrite dget_dset. destruct (String.eqb k m); [intros [= <-]; lia|]. intros H. apply H2 in H. lia.
Qed.
Lemma sane_pop m s : sane s -> sane (fst (pop m s)).
Proof.
  intros [H1 H2]. unfold pop. destruct (dmem m (mods s)) eqn:E; [|now split]. cbn. split; cbn; [now apply ddel_wf|].
  intros k v H. apply (H2 k). destruct (string_dec k m) as [->|Hk]; [rewrite dget_ddel_eq in H by exact H1; discriminate|]. now rewrite dget_ddel_neq in H.
Qed.
Lemma sane_loaded i l s : sane s -> sane (fst (set_loaded i l s)).
Proof. intros H. exact H. Qed.

Lemma keep_runs (P : st -> Prop) b : Forall (fun a => forall s, P s -> P (fst (run_act a s))) b -> forall s, P s -> P (fst (runs b s)).
Proof.
  induction 1 as [|a b Ha _ IH]; intros s H; [exact H|]. rewrite runs_cons. generalize (Ha s H). destruct (run_act a s) as [s1 [u|e]]; cbn; auto.
Qed.

Lemma sane_act a : forall s, sane s -> sane (fst (run_act a s)).
Proof.
  induction a as [m|m|e|b IH|i b IH|i b IH] using act_ind2; intros s H.
  - now apply sane_import.
  - now apply sane_pop.
  - exact H.
  - rewrite run_Try. unfold catch. generalize (keep_runs sane b IH s H). destruct (runs b s) as [s1 [u|e]]; cbn; [auto|]. destruct (is_exception e); auto.
  - rewrite run_Load. apply (keep_load sane sane_pop sane_loaded); [exact H|]. intros H0. apply (keep_runs sane b IH _ H0).
  - rewrite run_Reload. unfold reload, bind. generalize (keep_wipe sane sane_pop i s H). destruct (wipe i s) as [s1 [u|e]]; cbn [fst]; [|auto].
    intros H1. apply (keep_load sane sane_pop sane_loaded); [exact H1|]. intros H0. apply (keep_runs sane b IH _ H0).
Qed.
Lemma sane_runs b s : sane s -> sane (fst (runs b s)).
Proof. apply keep_runs, Forall_forall. intros a _. apply sane_act. Qed.
Lemma sane_history l : forall s, sane s -> sane (history l s).
Proof. unfold history. induction l as [|a l IH]; intros s H; [exact H|]. cbn. apply IH, sane_act, H. Qed.

(** trackers *)
Lemma never_all i b : never_loads i (Try b) <-> Forall (never_loads i) b.
Proof.
  split.
  - induction b as [|a b IH]; intros H; constructor; [apply H|]. apply IH. apply H.
  - induction 1; [exact I|]. split; assumption.
Qed.
Lemma tracker_act i L a : never_loads i a -> forall s, dget i (trackers s) = L -> dget i (trackers (fst (run_act a s))) = L.
Proof.
  induction a as [m|m|e|b IH|j b IH|j b IH] using act_ind2; intros Hn s H.
  - cbn. unfold import. now destruct (dmem m (mods s)).
  - cbn. unfold pop. now destruct (dmem m (mods s)).
  - exact H.
  - assert (F : Forall (fun a => forall s, dget i (trackers s) = L -> dget i (trackers (fst (run_act a s))) = L) b).
    { apply never_all in Hn. rewrite Forall_forall in IH, Hn |- *. intros a Ha. apply IH; auto. }
    rewrite run_Try. unfold catch. generalize (keep_runs (fun s => dget i (trackers s) = L) b F s H). destruct (runs b s) as [s1 [u|e]]; cbn; [auto|]. destruct (is_exception e); auto.
  - destruct Hn as [Hij Hn]. assert (F : Forall (fun a => forall s, dget i (trackers s) = L -> dget i (trackers (fst (run_act a s))) = L) b).
    { apply (never_all i b) in Hn. rewrite Forall_forall in IH, Hn |- *. intros a Ha. apply IH; auto. }
    rewrite run_Load. apply (keep_load (fun s => dget i (trackers s) = L)).
    + intros m s0 H0. unfold pop. now destruct (dmem m (mods s0)).
    + intros i0 l s0 H0. exact H0.
    + cbn. now rewrite dget_dset_neq.
    + intros H0. apply (keep_runs (fun s => dget i (trackers s) = L) b F _ H0).
  - destruct Hn as [Hij Hn]. assert (F : Forall (fun a => forall s, dget i (trackers s) = L -> dget i (trackers (fst (run_act a s))) = L) b).
    { apply (never_all i b) in Hn. rewrite Forall_forall in IH, Hn |- *. intros a Ha. apply IH; auto. }
    assert (PP : forall m s0, dget i (trackers s0) = L -> dget i (trackers (fst (pop m s0))) = L).
    { intros m s0 H0. unfold pop. now destruct (dmem m (mods s0)). }
    rewrite run_Reload. unfold reload, bind. generalize (keep_wipe (fun s => dget i (trackers s) = L) PP j s H). destruct (wipe j s) as [s1 [u|e]]; cbn [fst]; [|auto].
    intros H1. apply (keep_load (fun s => dget i (trackers s) = L)).
    + exact PP.
    + intros i0 l s0 H0. exact H0.
    + cbn. now rewrite dget_dset_neq.
    + intros H0. apply (keep_runs (fun s => dget i (trackers s) = L) b F _ H0).
Qed.
Lemma tracker_runs i L b : Forall (never_loads i) b -> forall s, dget i (trackers s) = L -> dget i (trackers (fst (runs b s))) = L.
Proof.
  intros Hn s H. apply (keep_runs (fun s => dget i (trackers s) = L)); [|exact H]. rewrite Forall_forall in Hn |- *. intros a Ha. apply tracker_act. auto.
Qed.

(** * Taking modules out *)
Lemma ddel_filter (k : string) (d : dict nat) : dwf d -> ddel k d = dfilter (fun x => negb (String.eqb x k)) d.
Proof.
  induction d as [|[k' v] d IH]; [reflexivity|]. intros W. inversion W as [|? ? H1 H2 E]; subst. cbn. rewrite (String.eqb_sym k' k). destruct (String.eqb k k') eqn:E; cbn.
  - apply String.eqb_eq in E. subst k'. clear IH W. symmetry. unfold dkeys in H1. induction d as [|[k2 v2] d IHd]; [reflexivity|]. cbn. cbn in H1.
    assert (E : String.eqb k2 k = false) by (apply String.eqb_neq; intros ->; apply H1; now left). rewrite E. cbn. f_equal. apply IHd; [tauto|]. now inversion H2.
  - f_equal. apply IH. exact H2.
Qed.
Lemma dfilter_dfilter {A} (p q : string -> bool) (d : dict A) : dfilter p (dfilter q d) = dfilter (fun x => q x && p x) d.
Proof. unfold dfilter. induction d as [|[k v] d IH]; [reflexivity|]. cbn [filter fst]. destruct (q k) eqn:E; cbn [filter fst andb]; [destruct (p k); now rewrite IH|exact IH]. Qed.
Lemma dfilter_ext {A} (p q : string -> bool) (d : dict A) : (forall k, In k (dkeys d) -> p k = q k) -> dfilter p d = dfilter q d.
Proof.
  unfold dfilter. induction d as [|[k v] d IH]; [reflexivity|]. intros H. cbn [filter fst]. rewrite (H k) by now left. rewrite IH; [reflexivity|]. intros k' Hk. apply H. now right.
Qed.
Lemma dfilter_all {A} (d : dict A) : dfilter (fun _ => true) d = d.
Proof. unfold dfilter. induction d as [|[k v] d IH]; [reflexivity|]. cbn [filter fst]. now rewrite IH. Qed.
Lemma In_dkeys_filter {A} p k (d : dict A) : In k (dkeys (dfilter p d)) <-> In k (dkeys d) /\ p k = true.
Proof.
  rewrite !In_dkeys_dget. rewrite dget_dfilter. destruct (p k); split.
  - intros H. auto.
  - tauto.
  - intros [v H]. discriminate.
  - intros [_ H]. discriminate.
Qed.

Lemma pops_ok l : forall s, dwf (mods s) -> NoDup l -> incl l (dkeys (mods s)) -> iterM pop l s = (with_mods (without l) s, Ok tt).
Proof.
  induction l as [|m l IH]; intros s W N I.
  - cbn. unfold ret, with_mods, without. cbn. rewrite dfilter_all. now destruct s.
  - cbn. unfold bind, pop. rewrite (proj2 (dmem_In m (mods s))) by (apply I; now left). inversion N as [|? ? N1 N2]; subst.
    rewrite IH.
    + unfold with_mods. cbn [mods fresh loaded trackers]. do 2 f_equal. rewrite ddel_filter by exact W. unfold without. rewrite dfilter_dfilter. apply dfilter_ext. intros k _. unfold mem_s. cbn. now destruct (String.eqb k m).
    + cbn. now apply ddel_wf.
    + exact N2.
    + intros x Hx. cbn. rewrite ddel_filter by exact W. apply In_dkeys_filter. split; [apply I; now right|]. apply negb_true_iff, String.eqb_neq. intros ->. contradiction.
Qed.

Lemma pops_stuck l : forall s s' e, dwf (mods s) -> iterM pop l s = (s', Raise e) -> e = KeyError /\ iterM pop l s' = (s', Raise KeyError).
Proof.
  induction l as [|m l IH]; intros s s' e W H; [discriminate|]. cbn in H. unfold bind, pop at 1 in H. destruct (dmem m (mods s)) eqn:E.
  - assert (W1 : dwf (mods (with_mods (ddel m) s))) by (cbn; now apply ddel_wf). destruct (IH _ _ _ W1 H) as [-> H2]. split; [reflexivity|].
    assert (N : dmem m (mods s') = false).
    { apply dmem_false. intros Hm. assert (K : forall l s, In m (dkeys (mods (fst (iterM pop l s)))) -> In m (dkeys (mods s))).
      { clear. induction l as [|x l IH]; intros s; [auto|]. cbn. unfold bind, pop at 1. destruct (dmem x (mods s)); [|auto]. intros Hm. apply IH in Hm. change (In m (dkeys (ddel x (mods s)))) in Hm.
        apply In_dkeys_dget. apply In_dkeys_dget in Hm. destruct Hm as [v Hv]. destruct (string_dec m x) as [->|Hx].
        - clear - Hv. induction (mods s) as [|[k w] d IHd]; [discriminate|]. cbn in *. destruct (String.eqb x k) eqn:Ek; [eauto|]. cbn in Hv. rewrite Ek in Hv. auto.
        - rewrite dget_ddel_neq in Hv by exact Hx. eauto. }
      specialize (K l (with_mods (ddel m) s)). rewrite H in K. cbn in K. apply K in Hm. rewrite ddel_filter in Hm by exact W. apply In_dkeys_filter in Hm. destruct Hm as [_ Hm]. now rewrite eqb_refl_s in Hm. }
    cbn. unfold bind, pop at 1. now rewrite N.
  - injection H as <- <-. split; [reflexivity|]. cbn. unfold bind, pop at 1. now rewrite E.
Qed.

(** * Loads *)
Definition tracked (i : string) (s : st) : st := St (mods s) (fresh s) (loaded s) (dset i (dkeys (mods s)) (trackers s)).

Lemma dset_dset {A} k (v w : A) d : dset k v (dset k w d) = dset k v d.
Proof. induction d as [|[k' v'] d IH]; cbn; [now rewrite eqb_refl_s|]. destruct (String.eqb k k') eqn:E; cbn; rewrite E; [reflexivity|]. now rewrite IH. Qed.
Lemma new_between_nodup s s1 : dwf (mods s1) -> NoDup (new_between s s1).
Proof. intros W. apply NoDup_filter, W. Qed.
Lemma filter_new s (s1 : st) : filter (fun m => negb (mem_s (dkeys (mods s)) m)) (dkeys (mods s1)) = new_between s s1.
Proof. reflexivity. Qed.

Lemma load_ok i b s s1 u : b (tracked i s) = (s1, Ok u) -> dget i (trackers s1) = Some (dkeys (mods s)) ->
  load i b s = (St (mods s1) (fresh s1) (dset i (new_between s s1) (loaded s1)) (trackers s1), Ok tt).
Proof. intros Hb Ht. rewrite load_body. fold (tracked i s). rewrite Hb. unfold bind, imported_modules. now rewrite Ht. Qed.

Lemma load_fail i b s s1 e : b (tracked i s) = (s1, Raise e) -> is_exception e = true -> dget i (trackers s1) = Some (dkeys (mods s)) -> dwf (mods s1) ->
  load i b s = (St (dfilter (mem_s (dkeys (mods s))) (mods s1)) (fresh s1) (dset i [] (loaded s1)) (trackers s1), Raise e).
Proof.
  intros Hb He Ht W. rewrite load_body. fold (tracked i s). rewrite Hb, He. cbv [bind imported_modules set_loaded modify raise]. rewrite Ht. unfold wipe. cbn [loaded]. rewrite dget_dset_eq. rewrite filter_new. rewrite pops_ok.
  - unfold with_mods. cbn [mods fresh loaded trackers]. rewrite dset_dset. do 2 f_equal. unfold without. apply dfilter_ext. intros k Hk. unfold new_between.
    destruct (mem_s (dkeys (mods s)) k) eqn:E.
    + apply negb_true_iff, mem_s_false. rewrite filter_In. rewrite E. intros [_ ?]. discriminate.
    + apply negb_false_iff, mem_s_In. rewrite filter_In, E. auto.
  - exact W.
  - now apply new_between_nodup.
  - intros x Hx. apply filter_In in Hx. apply Hx.
Qed.

Lemma load_interrupt i b s s1 e : b (tracked i s) = (s1, Raise e) -> is_exception e = false -> load i b s = (s1, Raise e).
Proof. intros Hb He. rewrite load_body. fold (tracked i s). now rewrite Hb, He. Qed.

(** * Simple loads only add modules *)
Record adds (s s1 : st) : Prop := {
  ad_mods : exists d, mods s1 = mods s ++ d /\ (forall m v, In (m, v) d -> fresh s <= v);
  ad_fresh : fresh s <= fresh s1;
  ad_loaded : loaded s1 = loaded s;
  ad_trackers : trackers s1 = trackers s }.
Lemma adds_refl s : adds s s.
Proof. split; auto. exists []. rewrite app_nil_r. split; [reflexivity|]. intros m v []. Qed.
Lemma adds_trans s1 s2 s3 : adds s1 s2 -> adds s2 s3 -> adds s1 s3.
Proof.
  intros [(d1 & E1 & V1) F1 L1 T1] [(d2 & E2 & V2) F2 L2 T2]. split; try congruence; [|lia]. exists (d1 ++ d2). split; [now rewrite E2, E1, app_assoc|].
  intros m v H. apply in_app_or in H. destruct H as [H|H]; [eauto|]. apply V2 in H. lia.
Qed.
Lemma adds_import m s : adds s (fst (import m s)).
Proof.
  unfold import. destruct (dmem m (mods s)) eqn:E; [apply adds_refl|]. cbn. split; cbn; auto. exists [(m, fresh s)]. split; [now apply dset_notin|].
  intros k v [H|[]]. injection H as <- <-. lia.
Qed.
Lemma simple_adds b : simple_load b -> forall s, adds s (fst (runs b s)).
Proof.
  induction b as [|a b IH]; intros Hb s; [apply adds_refl|]. rewrite runs_cons. assert (A : adds s (fst (run_act a s))).
  { assert (S : simple a) by (apply Hb; now left). destruct a; try contradiction; [apply adds_import|apply adds_refl]. }
  destruct (run_act a s) as [s1 [u|e]]; cbn [fst] in A |- *; [|exact A]. apply (adds_trans _ _ _ A). apply IH. intros x Hx. apply Hb. now right.
Qed.
Lemma simple_never i b : simple_load b -> Forall (never_loads i) b.
Proof. intros H. apply Forall_forall. intros a Ha. specialize (H a Ha). destruct a; try contradiction; exact I. Qed.

(** the new modules are those added *)
Lemma adds_old s s1 : adds s s1 -> sane s1 -> dfilter (mem_s (dkeys (mods s))) (mods s1) = mods s.
Proof.
  intros A [W _]. destruct (ad_mods _ _ A) as (d & E & _). rewrite E in W |- *. unfold dfilter. rewrite filter_app. unfold dwf, dkeys in W. rewrite map_app in W.
  assert (F1 : filter (fun kv : string * nat => mem_s (dkeys (mods s)) (fst kv)) (mods s) = mods s).
  { assert (G : forall l : dict nat, incl l (mods s) -> filter (fun kv : string * nat => mem_s (dkeys (mods s)) (fst kv)) l = l).
    { induction l as [|[k v] l IH]; intros I; [reflexivity|]. cbn [filter fst]. rewrite (proj2 (mem_s_In _ k)); [|apply (in_map fst (mods s) (k, v)), I; now left].
      f_equal. apply IH. intros x Hx. apply I. now right. }
    apply G, incl_refl. }
  assert (F2 : filter (fun kv : string * nat => mem_s (dkeys (mods s)) (fst kv)) d = []).
  { clear F1 E A. fold (dkeys (mods s)) in W. revert W. generalize (dkeys (mods s)). intros ks W. induction d as [|[k v] d IH]; [reflexivity|]. cbn [filter fst].
    cbn [map fst] in W. rewrite (proj2 (mem_s_false ks k)); [|intros Hk; apply NoDup_remove_2 in W; apply W, in_or_app; now left]. apply IH. now apply NoDup_remove_1 in W. }
  now rewrite F1, F2, app_nil_r.
Qed.

(** * Histories of plain loads *)
Record good (P : string -> Prop) (s : st) : Prop := {
  go_sane : sane s;
  go_there : forall i l, P i -> dget i (loaded s) = Some l -> NoDup l /\ incl l (dkeys (mods s));
  go_apart : forall i j li lj m, P i -> P j -> i <> j -> dget i (loaded s) = Some li -> dget j (loaded s) = Some lj -> In m li -> In m lj -> False }.
Definition everyone (_ : string) : Prop := True.

Lemma adds_keys s s1 : adds s s1 -> incl (dkeys (mods s)) (dkeys (mods s1)).
Proof. intros A x Hx. destruct (ad_mods _ _ A) as (d & E & _). rewrite E. unfold dkeys. rewrite map_app. apply in_or_app. now left. Qed.
Lemma adds_same_mods s t s1 : mods s = mods t -> fresh s = fresh t -> adds s s1 -> exists d, mods s1 = mods t ++ d /\ (forall m v, In (m, v) d -> fresh t <= v).
Proof. intros E1 E2 A. destruct (ad_mods _ _ A) as (d & E & V). exists d. rewrite <- E1, <- E2. auto. Qed.

Lemma simple_load_result i b s : sane s -> simple_load b -> exists ms f, (exists d, ms = mods s ++ d /\ forall m v, In (m, v) d -> fresh s <= v) /\ fresh s <= f /\
  (forall l t, sane (St ms f l t)) /\
  let new := filter (fun m => negb (mem_s (dkeys (mods s)) m)) (dkeys ms) in
  match snd (runs b (tracked i s)) with
  | Ok _ => load i (runs b) s = (St ms f (dset i new (loaded s)) (dset i (dkeys (mods s)) (trackers s)), Ok tt)
  | Raise e => load i (runs b) s =
      if is_exception e then (St (mods s) f (dset i [] (loaded s)) (dset i (dkeys (mods s)) (trackers s)), Raise e)
      else (St ms f (loaded s) (dset i (dkeys (mods s)) (trackers s)), Raise e)
  end.
Proof.
  intros Hs Hb. assert (S0 : sane (tracked i s)) by exact Hs. generalize (simple_adds b Hb (tracked i s)) (sane_runs b _ S0).
  destruct (runs b (tracked i s)) as [s1 r] eqn:Er. cbn [fst snd]. intros A S1. exists (mods s1), (fresh s1).
  split; [exact (adds_same_mods (tracked i s) s s1 eq_refl eq_refl A)|]. split; [exact (ad_fresh _ _ A)|]. split; [intros l t; exact S1|]. cbv zeta.
  assert (A3 : loaded s1 = loaded s) by apply (ad_loaded _ _ A). assert (A4 : trackers s1 = dset i (dkeys (mods s)) (trackers s)) by apply (ad_trackers _ _ A).
  assert (Ht : dget i (trackers s1) = Some (dkeys (mods s))) by (rewrite A4; apply dget_dset_eq).
  destruct r as [u|e].
  - rewrite (load_ok i (runs b) s s1 u Er Ht). now rewrite A3, A4.
  - destruct (is_exception e) eqn:Ee.
    + rewrite (load_fail i (runs b) s s1 e Er Ee Ht (proj1 S1)). rewrite A3, A4. pose proof (adds_old (tracked i s) s1 A S1) as E. cbn [tracked mods] in E. now rewrite E.
    + rewrite (load_interrupt i (runs b) s s1 e Er Ee). destruct s1 as [m1 f1 l1 t1]. cbn in *. now rewrite A3, A4.
Qed.

Lemma runs_raises_exn b s e : (forall a, In a b -> no_interrupt a) -> simple_load b -> snd (runs b s) = Raise e -> is_exception e = true.
Proof.
  revert s. induction b as [|a b IH]; intros s Hn Hb; [discriminate|]. rewrite runs_cons.
  assert (S : simple a) by (apply Hb; now left). assert (N : no_interrupt a) by (apply Hn; now left).
  destruct a; try contradiction.
  - cbn. unfold import. destruct (dmem m (mods s)); apply IH; (intros x Hx; (apply Hn || apply Hb); now right).
  - cbn. intros [= <-]. exact N.
Qed.

Lemma good_load i b s : simple_load b -> (forall a, In a b -> no_interrupt a) -> good (fun j => j <> i) s -> good everyone (fst (load i (runs b) s)).
Proof.
  intros Hb Hn [Hs Ht Ha]. destruct (simple_load_result i b s Hs Hb) as (ms & f & (d & Ems & _) & _ & Sn & H). cbv zeta in H.
  assert (K : incl (dkeys (mods s)) (dkeys ms)) by (intros x Hx; rewrite Ems; unfold dkeys; rewrite map_app; apply in_or_app; now left).
  destruct (snd (runs b (tracked i s))) as [u|e] eqn:Er.
  - rewrite H. cbn [fst]. split.
    + apply Sn.
    + intros j l _. cbn [loaded mods]. rewrite dget_dset. destruct (String.eqb j i) eqn:E.
      * intros [= <-]. split; [apply NoDup_filter; apply (proj1 (Sn [] []))|]. intros x Hx. apply filter_In in Hx. apply Hx.
      * intros Hl. apply String.eqb_neq in E. destruct (Ht j l E Hl) as [N I]. split; [exact N|]. intros x Hx. apply K, I, Hx.
    + intros j k lj lk m _ _ Hjk. cbn [loaded]. rewrite !dget_dset. destruct (String.eqb j i) eqn:E1, (String.eqb k i) eqn:E2.
      * apply String.eqb_eq in E1. apply String.eqb_eq in E2. congruence.
      * intros [= <-] Hk H1 H2. apply filter_In in H1. destruct H1 as [_ H1]. apply negb_true_iff, mem_s_false in H1. apply String.eqb_neq in E2. apply H1, (proj2 (Ht k lk E2 Hk)), H2.
      * intros Hj [= <-] H1 H2. apply filter_In in H2. destruct H2 as [_ H2]. apply negb_true_iff, mem_s_false in H2. apply String.eqb_neq in E1. apply H2, (proj2 (Ht j lj E1 Hj)), H1.
      * apply String.eqb_neq in E1. apply String.eqb_neq in E2. now apply (Ha j k lj lk m).
  - rewrite (runs_raises_exn b _ e Hn Hb Er) in H. rewrite H. cbn [fst]. split.
    + destruct Hs as [W V]. split; [exact W|]. cbn. intros m v Hv. destruct (Sn [] []) as [_ V2]. apply (V2 m). cbn. rewrite Ems, dget_app, Hv. reflexivity.
    + intros j l _. cbn [loaded mods]. rewrite dget_dset. destruct (String.eqb j i) eqn:E.
      * intros [= <-]. split; [constructor|intros x []].
      * intros Hl. apply String.eqb_neq in E. now apply (Ht j l E).
    + intros j k lj lk m _ _ Hjk. cbn [loaded]. rewrite !dget_dset. destruct (String.eqb j i) eqn:E1, (String.eqb k i) eqn:E2.
      * intros [= <-] _ [].
      * intros [= <-] _ [].
      * intros _ [= <-] _ [].
      * apply String.eqb_neq in E1. apply String.eqb_neq in E2. now apply (Ha j k lj lk m).
Qed.

Lemma wipe_good i l s : good everyone s -> dget i (loaded s) = Some l -> wipe i s = (with_mods (without l) s, Ok tt).
Proof. intros H Hl. unfold wipe. rewrite Hl. destruct (go_there _ _ H i l I Hl) as [N Ic]. apply pops_ok; [apply (go_sane _ _ H)|exact N|exact Ic]. Qed.

Lemma good_wiped i l s : good everyone s -> dget i (loaded s) = Some l -> good (fun j => j <> i) (with_mods (without l) s).
Proof.
  intros [Hs Ht Ha] Hl. split.
  - destruct Hs as [W V]. split; cbn; [now apply dfilter_wf|]. intros m v. unfold without. rewrite dget_dfilter. destruct (negb (mem_s l m)); [apply V|discriminate].
  - intros j lj Hj Hlj. cbn in Hlj. destruct (Ht j lj I Hlj) as [N Ic]. split; [exact N|]. intros x Hx. cbn. apply In_dkeys_filter. split; [now apply Ic|].
    apply negb_true_iff, mem_s_false. intros Hxl. apply (Ha j i lj l x I I Hj Hlj Hl Hx Hxl).
  - intros j k lj lk m Hj Hk Hjk H1 H2. apply (Ha j k lj lk m I I Hjk H1 H2).
Qed.

Lemma good_act a s : plain a -> good everyone s -> good everyone (fst (run_act a s)).
Proof.
  intros Hp H. destruct a as [m|m|e|b|i b|i b]; try contradiction.
  - cbn. pose proof (sane_import m s (go_sane _ _ H)) as S. destruct H as [Hs Ht Ha]. pose proof (adds_import m s) as A. split; [exact S| |].
    + intros i l Hi. rewrite (ad_loaded _ _ A). intros Hl. destruct (Ht i l Hi Hl) as [N Ic]. split; [exact N|]. intros x Hx. apply (adds_keys _ _ A), Ic, Hx.
    + intros i j li lj m0 Hi Hj Hij. rewrite (ad_loaded _ _ A). now apply Ha.
  - rewrite run_Load. destruct Hp as [Hb Hn]. apply good_load; auto. destruct H as [Hs Ht Ha]. split; [exact Hs| |].
    + intros j l _. now apply Ht.
    + intros j k lj lk m _ _. now apply Ha.
  - rewrite run_Reload. destruct Hp as [Hb Hn]. unfold reload, bind. destruct (dget i (loaded s)) as [l|] eqn:El.
    + rewrite (wipe_good i l s H El). apply good_load; auto. now apply good_wiped.
    + unfold wipe. now rewrite El.
Qed.
Lemma good_start : good everyone start.
Proof. split; [split; [constructor|discriminate]| |]; discriminate. Qed.
Lemma good_history l : (forall a, In a l -> plain a) -> forall s, good everyone s -> good everyone (history l s).
Proof.
  unfold history. induction l as [|a l IH]; intros Hp s H; [exact H|]. cbn. apply IH; [intros x Hx; apply Hp; now right|]. apply good_act; [apply Hp; now left|exact H].
Qed.

(** * Imports in a try statement *)
Lemma imports_then_throw ms e : forall s, exists s1, runs (map Import ms ++ [Throw e]) s = (s1, Raise e) /\ adds s s1 /\ incl ms (dkeys (mods s1)).
Proof.
  induction ms as [|m ms IH]; intro s.
  - exists s. split; [reflexivity|]. split; [apply adds_refl|intros x []].
  - cbn [map app]. rewrite runs_cons. cbn [run_act].
    assert (A : adds s (fst (import m s))) by apply adds_import.
    assert (I : In m (dkeys (mods (fst (import m s)))) /\ snd (import m s) = Ok tt).
    { unfold import. destruct (dmem m (mods s)) eqn:D; cbn [fst snd mods]; split; try reflexivity; [now apply dmem_In|].
      apply In_dkeys_dset. now left. }
    destruct (import m s) as [s0 r]. cbn [fst snd] in *. destruct I as [I ->]. destruct (IH s0) as (s1 & E & A1 & I1).
    exists s1. split; [exact E|]. split; [exact (adds_trans _ _ _ A A1)|]. intros x [->|Hx]; [|now apply I1].
    now apply (adds_keys _ _ A1).
Qed.

Lemma try_imports ms e s : is_exception e = true -> exists s1,
  run_act (Try (map Import ms ++ [Throw e])) s = (s1, Ok tt) /\ adds s s1 /\ incl ms (dkeys (mods s1)).
Proof.
  intro He. destruct (imports_then_throw ms e s) as (s1 & E & A & I). exists s1. split; [|now split].
  rewrite run_Try. unfold catch. now rewrite E, He.
Qed.

Lemma load_with_try i ms e b s s2 : is_exception e = true -> simple_load b ->
  run_act (Load i (Try (map Import ms ++ [Throw e]) :: b)) s = (s2, Ok tt) -> exists l, dget i (loaded s2) = Some l /\
  forall m, In m ms -> ~ In m (dkeys (mods s)) -> In m l.
Proof.
  intros He Hb H. set (body := Try (map Import ms ++ [Throw e]) :: b) in *.
  assert (Nv : Forall (never_loads i) body).
  { constructor; [|now apply simple_never]. apply never_all. apply Forall_forall. intros a Ha. apply in_app_iff in Ha as [Ha|[<-|[]]]; [|exact I].
    apply in_map_iff in Ha as (m & <- & _). exact I. }
  rewrite run_Load in H. destruct (try_imports ms e (tracked i s) He) as (s0 & E0 & A0 & I0).
  pose proof (simple_adds b Hb s0) as A1.
  assert (R : runs body (tracked i s) = runs b s0) by (unfold body; now rewrite runs_cons, E0).
  destruct (runs body (tracked i s)) as [s1 [u|e1]] eqn:Er.
  - pose proof (tracker_runs i (Some (dkeys (mods s))) body Nv (tracked i s) (dget_dset_eq _ _ _)) as T. rewrite Er in T.
    rewrite (load_ok i (runs body) s s1 u Er T) in H. injection H as <-. eexists. split; [apply dget_dset_eq|].
    intros m Hm Nm. unfold new_between. apply filter_In. split; [|now rewrite (proj2 (mem_s_false _ m) Nm)].
    rewrite <- R in A1. cbn [fst] in A1. apply (adds_keys _ _ A1). now apply I0.
  - exfalso. rewrite load_body in H. fold (tracked i s) in H. rewrite Er in H. destruct (is_exception e1); [|discriminate].
    cbv [bind imported_modules set_loaded modify raise] in H. destruct (dget i (trackers s1)); [|discriminate]. destruct (wipe i _) as [s3 [?|?]]; discriminate.
Qed.
