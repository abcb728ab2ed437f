(** C52: modules after failed loads and reloads. *)
From Verif Require Import Modules_Model Modules_Spec Modules_Proofs.
Local Open Scope string_scope.
Local Open Scope list_scope.

(** A load that fails takes out of sys.modules what was not there when it started, keeps the rest as it is at the time of the
    exception, and remembers nothing to be removed later. It may contain anything but a load of the same manager. *)
Theorem C52_failed_load_removes_its_imports : forall i b s s1 e, sane s -> Forall (never_loads i) b ->
  runs b (tracked i s) = (s1, Raise e) -> is_exception e = true ->
  exists s2, run_act (Load i b) s = (s2, Raise e) /\ mods s2 = dfilter (mem_s (dkeys (mods s))) (mods s1) /\ dget i (loaded s2) = Some [].
Proof.
  intros i b s s1 e Hs Hb Hr He. eexists. rewrite run_Load. rewrite (load_fail i (runs b) s s1 e Hr He).
  - split; [reflexivity|]. split; [reflexivity|]. apply dget_dset_eq.
  - pose proof (tracker_runs i (Some (dkeys (mods s))) b Hb (tracked i s) (dget_dset_eq _ _ _)) as T. now rewrite Hr in T.
  - pose proof (sane_runs b (tracked i s) Hs) as S. rewrite Hr in S. apply S.
Qed.

(** If it only imports, sys.modules is as before: the same modules, the same objects, the same order. *)
Theorem C52_failed_load_leaves_no_trace : forall i b s s2 e, sane s -> simple_load b ->
  run_act (Load i b) s = (s2, Raise e) -> is_exception e = true -> mods s2 = mods s.
Proof.
  intros i b s s2 e Hs Hb H He. rewrite run_Load in H. destruct (simple_load_result i b s Hs Hb) as (ms & f & _ & _ & _ & R). cbv zeta in R.
  destruct (snd (runs b (tracked i s))) as [u|e']; rewrite R in H; [discriminate|]. destruct (is_exception e') eqn:E; injection H as <- <-; [reflexivity|congruence].
Qed.

(** A load that succeeds remembers exactly the modules that came in during it. *)
Theorem C52_load_remembers_its_imports : forall i b s s2, Forall (never_loads i) b -> run_act (Load i b) s = (s2, Ok tt) ->
  dget i (loaded s2) = Some (new_between s s2).
Proof.
  intros i b s s2 Hb H. rewrite run_Load in H. destruct (runs b (tracked i s)) as [s1 [u|e]] eqn:Er.
  - rewrite (load_ok i (runs b) s s1 u Er) in H.
    + injection H as <-. apply dget_dset_eq.
    + pose proof (tracker_runs i (Some (dkeys (mods s))) b Hb (tracked i s) (dget_dset_eq _ _ _)) as T. now rewrite Er in T.
  - exfalso. rewrite load_body in H. fold (tracked i s) in H. rewrite Er in H. destruct (is_exception e); [|discriminate].
    cbv [bind imported_modules set_loaded modify raise] in H. destruct (dget i (trackers s1)); [|discriminate]. destruct (wipe i _) as [s3 [?|?]]; discriminate.
Qed.

(** This includes modules whose import came before an error that the loaded code itself catches. *)
Theorem C52_imports_before_caught_errors : forall i ms e b s s2, is_exception e = true -> simple_load b ->
  run_act (Load i (Try (map Import ms ++ [Throw e]) :: b)) s = (s2, Ok tt) ->
  exists l, dget i (loaded s2) = Some l /\ forall m, In m ms -> ~ In m (dkeys (mods s)) -> In m l.
Proof. exact load_with_try. Qed.
Example C52_ex_caught : exists s2, run_act (Load "m" [Try [Import "a"; Throw KeyError]; Import "b"]) start = (s2, Ok tt) /\
  dget "m" (loaded s2) = Some ["a"; "b"].
Proof. eexists. split; [vm_compute; reflexivity|reflexivity]. Qed.

(** A reload executes the remembered modules anew where they are imported again, and keeps all others. *)
Theorem C52_reload_imports_again : forall i l b s s2 m v, sane s -> dget i (loaded s) = Some l -> NoDup l -> incl l (dkeys (mods s)) -> simple_load b ->
  run_act (Reload i b) s = (s2, Ok tt) ->
  (In m l -> dget m (mods s2) = Some v -> fresh s <= v) /\
  (~ In m l -> dget m (mods s) = Some v -> dget m (mods s2) = Some v).
Proof.
  intros i l b s s2 m v Hs Hl N I Hb H. rewrite run_Reload in H. unfold reload, bind in H. unfold wipe in H. rewrite Hl in H. rewrite (pops_ok l s (proj1 Hs) N I) in H.
  assert (S1 : sane (with_mods (without l) s)).
  { destruct Hs as [W V]. split; cbn; [now apply dfilter_wf|]. intros x w. unfold without. rewrite dget_dfilter. destruct (negb (mem_s l x)); [apply V|discriminate]. }
  destruct (simple_load_result i b _ S1 Hb) as (ms & f & (d & Ems & Vd) & _ & _ & R). cbv zeta in R. cbn [mods fresh with_mods] in Ems, Vd.
  destruct (snd (runs b _)) as [u|e]; rewrite R in H; [|destruct (is_exception e); discriminate]. injection H as <-. cbn [mods].
  rewrite Ems, dget_app. unfold without. rewrite dget_dfilter. split.
  - intros Hm. rewrite (proj2 (mem_s_In l m) Hm). cbn. intros Hv. apply dget_Some_In in Hv. now apply (Vd m).
  - intros Hm Hv. rewrite (proj2 (mem_s_false l m) Hm). cbn. now rewrite Hv.
Qed.

(** However managers are loaded and reloaded, with or without errors, as long as loads contain no other load and are not
    interrupted, and nobody else takes out modules: reloading always finds the modules it takes out. *)
Theorem C52_reload_finds_its_modules : forall h i l, (forall a, In a h -> plain a) -> dget i (loaded (history h start)) = Some l ->
  wipe i (history h start) = (with_mods (without l) (history h start), Ok tt).
Proof. intros h i l Hp Hl. apply wipe_good; [|exact Hl]. apply good_history; [exact Hp|exact good_start]. Qed.

(** Then no module is remembered by two managers. *)
Theorem C52_modules_have_one_owner : forall h i j li lj m, (forall a, In a h -> plain a) -> i <> j ->
  dget i (loaded (history h start)) = Some li -> dget j (loaded (history h start)) = Some lj -> In m li -> ~ In m lj.
Proof.
  intros h i j li lj m Hp Hij Hi Hj H1 H2. assert (G : good everyone (history h start)) by (apply good_history; [exact Hp|exact good_start]).
  exact (go_apart _ _ G i j li lj m I I Hij Hi Hj H1 H2).
Qed.

Theorem C52_reload_before_load : forall i b s, dget i (loaded s) = None ->
  run_act (Reload i b) s = (s, Raise (LibExn "PipelineManagerNotLoadedException")).
Proof. intros i b s H. rewrite run_Reload. unfold reload, bind, wipe. now rewrite H. Qed.

(** A second load without reload forgets the modules of the first: reloading then executes nothing anew. *)
Theorem C52_loading_twice_forgets : forall i b s s2, sane s -> simple_load b ->
  (forall m, In (Import m) b -> In m (dkeys (mods s))) -> run_act (Load i b) s = (s2, Ok tt) ->
  dget i (loaded s2) = Some [] /\
  forall b' s3 m v, simple_load b' -> run_act (Reload i b') s2 = (s3, Ok tt) -> dget m (mods s2) = Some v -> dget m (mods s3) = Some v.
Proof.
  intros i b s s2 Hs Hb Hi H.
  assert (Sm : forall c s, (forall m, In (Import m) c -> In m (dkeys (mods s))) -> simple_load c -> fst (runs c s) = s).
  { clear. induction c as [|a c IH]; intros s Hi Hb; [reflexivity|]. rewrite runs_cons. assert (S : simple a) by (apply Hb; now left). destruct a; try contradiction.
    - cbn. unfold import. rewrite (proj2 (dmem_In m (mods s))) by (apply Hi; now left). apply IH; [intros x Hx; apply Hi; now right|intros x Hx; apply Hb; now right].
    - reflexivity. }
  assert (N : dget i (loaded s2) = Some []).
  { rewrite (C52_load_remembers_its_imports i b s s2 (simple_never i b Hb) H). f_equal. rewrite run_Load in H.
    destruct (runs b (tracked i s)) as [s1 r] eqn:Er. assert (E : s1 = tracked i s) by (change s1 with (fst (s1, r)); rewrite <- Er; apply Sm; auto).
    subst s1. destruct (simple_load_result i b s Hs Hb) as (ms & f & _). rewrite load_body in H. fold (tracked i s) in H. rewrite Er in H. destruct r as [u|e].
    - cbv [bind imported_modules set_loaded modify] in H. unfold tracked in H at 1. cbn [trackers] in H. rewrite dget_dset_eq in H. injection H as <-. unfold new_between. cbn [mods tracked].
      assert (G : forall l ks, incl l ks -> filter (fun m => negb (mem_s ks m)) l = []).
      { clear. induction l as [|x l IH]; intros ks I; [reflexivity|]. cbn [filter]. rewrite (proj2 (mem_s_In ks x)) by (apply I; now left). apply IH. intros y Hy. apply I. now right. }
      apply G, incl_refl.
    - exfalso. destruct (is_exception e); [|discriminate]. cbv [bind imported_modules set_loaded modify raise] in H. destruct (dget i _); [|discriminate]. destruct (wipe i _) as [s3 [?|?]]; discriminate. }
  split; [exact N|]. intros b' s3 m v Hb' H3 Hv. assert (S2 : sane s2) by (pose proof (sane_act (Load i b) s Hs) as S; rewrite H in S; exact S).
  apply (C52_reload_imports_again i [] b' s2 s3 m v S2 N); auto; [constructor|intros x []].
Qed.

(** If a remembered module is gone, reloading raises KeyError with the modules before it taken out, and so does every further
    reload; only a load helps. *)
Theorem C52_reload_stays_broken : forall i b s s' n b', sane s -> wipe i s = (s', Raise KeyError) -> dget i (loaded s) <> None ->
  run_act (Reload i b) s = (s', Raise KeyError) /\ run_act (Reload i b') (times n (run_act (Reload i b')) s') = (s', Raise KeyError).
Proof.
  intros i b s s' n b' Hs Hw Hl. assert (E1 : run_act (Reload i b) s = (s', Raise KeyError)) by (rewrite run_Reload; unfold reload, bind; now rewrite Hw). split; [exact E1|].
  assert (W' : wipe i s' = (s', Raise KeyError)).
  { unfold wipe in Hw. destruct (dget i (loaded s)) as [l|] eqn:El; [|congruence]. assert (L : loaded s' = loaded s).
    { clear - Hw. revert s Hw. induction l as [|m l IH]; intros s H; [discriminate|]. cbn in H. unfold bind, pop at 1 in H. destruct (dmem m (mods s)); [|now injection H as <-]. apply IH in H. exact H. }
    unfold wipe. rewrite L, El. apply (pops_stuck l s s' KeyError (proj1 Hs) Hw). }
  assert (E2 : run_act (Reload i b') s' = (s', Raise KeyError)) by (rewrite run_Reload; unfold reload, bind; now rewrite W').
  assert (T : times n (run_act (Reload i b')) s' = s') by (induction n as [|n IH]; [reflexivity|]; cbn [times]; now rewrite E2).
  now rewrite T.
Qed.

(** This happens after an interrupt during a reload, *)
Theorem C52_interrupted_reload_refuted : exists h s, s = history h start /\
  h = [Load "pm" [Import "m"; Import "n"]; Reload "pm" [Import "m"; Throw KeyboardInterrupt]] /\
  snd (run_act (Reload "pm" [Import "m"; Import "n"]) s) = Raise KeyError /\ dmem "m" (mods (fst (run_act (Reload "pm" [Import "m"; Import "n"]) s))) = false.
Proof. do 2 eexists. split; [reflexivity|]. split; [reflexivity|]. split; reflexivity. Qed.

(** and if a manager is loaded by a module that belongs to another one. *)
Theorem C52_nested_load_refuted : exists s, s = history [Load "a" [Load "b" [Import "m"]]; Reload "a" [Import "k"]] start /\
  snd (run_act (Reload "b" [Import "m"]) s) = Raise KeyError.
Proof. eexists. split; reflexivity. Qed.

(** A load within a load of the same manager makes the outer one forget what it imported before. *)
Theorem C52_load_in_own_load_refuted : exists s, s = history [Load "a" [Import "m"; Load "a" []; Import "k"; Throw (UserExn 0)]] start /\
  dkeys (mods s) = ["m"].
Proof. eexists. split; reflexivity. Qed.

Example C52_example :
  let h := [Load "a" [Import "m"; Import "n"]; Import "x"; Load "b" [Import "m"; Import "k"]; Reload "a" [Import "m"; Throw (UserExn 1)]; Load "a" [Import "n"; Import "m"]] in
  (forall a, In a h -> plain a) /\ dkeys (mods (history h start)) = ["x"; "k"; "n"; "m"] /\ loaded (history h start) = [("a", ["n"; "m"]); ("b", ["k"])] /\
  snd (run_act (Reload "a" [Import "m"]) (history h start)) = Ok tt.
Proof.
  cbv zeta. split; [|repeat split; reflexivity].
  intros a H. repeat destruct H as [<-|H]; try destruct H; cbn; auto; (split; intros c Hc; repeat destruct Hc as [<-|Hc]; try destruct Hc; cbn; auto).
Qed.
Print Assumptions C52_failed_load_removes_its_imports.
Print Assumptions C52_failed_load_leaves_no_trace.
Print Assumptions C52_load_remembers_its_imports.
Print Assumptions C52_imports_before_caught_errors.
Print Assumptions C52_reload_imports_again.
Print Assumptions C52_reload_finds_its_modules.
Print Assumptions C52_modules_have_one_owner.
Print Assumptions C52_reload_before_load.
Print Assumptions C52_loading_twice_forgets.
Print Assumptions C52_reload_stays_broken.
Print Assumptions C52_interrupted_reload_refuted.
Print Assumptions C52_nested_load_refuted.
Print Assumptions C52_load_in_own_load_refuted.
