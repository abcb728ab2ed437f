(** Property theorem C34: sys.stdout and the log with the log_stdout option. Vocabulary: Stdout_Spec. *)
From Verif Require Import Stdout_Model Stdout_Spec Stdout_Proofs.
Local Open Scope string_scope.
Local Open Scope list_scope.

(** After a run with stdout logging that ends normally sys.stdout is what it was before, whatever the items did, including
    other runs, failing ones, and putting another stream in place. *)
Theorem C34_normal_run_restores_stdout : forall m items s s',
  urun (URun true false m items) s = (s', Ok tt) -> out s' = out s.
Proof.
  intros m items s s'. rewrite urun_run. destruct (run_all m items _) as [s1 r1]. destruct (whole m r1) as [[]|e]; [|discriminate].
  now intros [= <-].
Qed.
Example C34_normal_example : exists items s', urun (URun true false Normal items) (SS (Plain 0) [] []) = (s', Ok tt) /\
  items = [[UWrite "a"; URun true true Normal [[URaise ValueError]]; UReplace 7]] /\ records s' = ["a"].
Proof. exists [[UWrite "a"; URun true true Normal [[URaise ValueError]]; UReplace 7]]. eexists. split; [|split]; reflexivity. Qed.

(** The exact account for code that does not assign sys.stdout itself: [effect] counts the layers left behind. *)
Theorem C34_layers : forall c s, hands_off c = true ->
  urun c s = (fst (urun c s), snd (effect c)) /\ out (fst (urun c s)) = layered (fst (effect c)) (out s).
Proof.
  intros c s H. destruct (urun_well c H s) as [A B]. split; [|exact A]. rewrite (surjective_pairing (urun c s)) at 1. now rewrite B.
Qed.

(** A run with logging that raises leaves sys.stdout replaced. *)
Theorem C34_failed_run_leaves_stdout_replaced : forall catch m items s s' r,
  hands_off (URun true catch m items) = true -> urun (URun true catch m items) s = (s', r) ->
  forall e, snd (urun (URun true false m items) s) = Raise e -> exists n, out s' = layered (S n) (out s).
Proof.
  intros catch m items s s' r H E e He. destruct (urun_well _ H s) as [A _]. rewrite E in A. cbn [fst] in A.
  assert (H' : hands_off (URun true false m items) = true) by exact H.
  destruct (urun_well _ H' s) as [_ B]. rewrite He in B. rewrite effect_run in A, B. destruct (total _) as [n r0]. cbn [fst snd] in A, B.
  rewrite <- B in A. eauto.
Qed.

(** Every further failing run adds a layer. *)
Theorem C34_failing_runs_pile_up : forall runs s,
  (forall c, In c runs -> exists m items e, c = URun true true m items /\ hands_off c = true /\ snd (effect (URun true false m items)) = Raise e) ->
  exists n, out (fst (ublock runs s)) = layered n (out s) /\ length runs <= n /\ snd (ublock runs s) = Ok tt.
Proof.
  induction runs as [|c runs IH]; intros s H; [exists 0; auto|]. destruct (H c (or_introl eq_refl)) as (m & items & e & -> & Ho & He).
  unfold ublock. cbn [iterM]. unfold bind. destruct (urun_well _ Ho s) as [A B]. destruct (urun (URun true true m items) s) as [s1 r1]. cbn [fst snd] in A, B.
  rewrite effect_run in A, B, He. destruct (total _) as [k r0]. cbn [fst snd] in A, B, He. subst r1. rewrite He in A.
  destruct (IH s1) as (n & C & D & F); [intros; apply H; cbn; auto|]. unfold ublock in C, F. exists (n + S k). split; [|split; [cbn [length]; lia|exact F]].
  rewrite C, A, layered_add. reflexivity.
Qed.
Example C34_pile_up_example : out (fst (ublock [URun true true Normal [[URaise ValueError]]; URun true true Normal [[URaise KeyError]]] (SS (Plain 0) [] [])))
  = Logged (Logged (Plain 0)).
Proof. reflexivity. Qed.

(** With force_continue or auto_pdb only an interrupt leaves it replaced. *)
Theorem C34_forced_runs_restore_unless_interrupted : forall m items s s' r,
  m <> Normal -> urun (URun true false m items) s = (s', r) -> (r = Ok tt /\ out s' = out s) \/ r = Raise SystemExit.
Proof.
  intros m items s s' r Hm H. destruct r as [[]|e].
  - left. split; [reflexivity|]. eapply C34_normal_run_restores_stdout; exact H.
  - right. rewrite urun_run in H. destruct (run_all m items _) as [s1 r1] eqn:E. destruct (whole m r1) as [[]|e0] eqn:W; [discriminate|].
    injection H as _ <-. destruct m; [congruence| |].
    + cbn [whole] in W. subst r1. revert E. generalize (with_out s (Logged (out s))). induction items as [|i l IH]; intros s0; cbn [run_all]; [discriminate|].
      destruct (ublock i s0) as [s2 r2]. cbn [each]. destruct (swallow_ok r2) as [->| ->]; [apply IH|]. now intros [= _ <-].
    + cbn [whole] in W. destruct (swallow_ok r1) as [X|X]; congruence.
Qed.

(** With force_continue an interrupt of an item ends the whole run, without the items after it, as SystemExit; any other
    exception is passed over. *)
Theorem C34_interrupt_ends_a_forced_run : forall (log : bool) item rest s s1 e,
  ublock item (if log then with_out s (Logged (out s)) else s) = (s1, Raise e) ->
  (e = KeyboardInterrupt \/ e = SystemExit \/ e = LibExn "BdbQuit" -> urun (URun log false Forced (item :: rest)) s = (s1, Raise SystemExit)) /\
  (e <> KeyboardInterrupt -> e <> SystemExit -> e <> LibExn "BdbQuit" ->
   urun (URun log false Forced (item :: rest)) s =
     let '(s2, r) := run_all Forced rest s1 in (match r with Ok _ => if log then with_out s2 (out s) else s2 | Raise _ => s2 end, r)).
Proof.
  intros log item rest s s1 e H. rewrite urun_run. cbn [run_all].
  destruct log; rewrite H; (split; [intros [-> | [-> | ->]]; reflexivity|]); intros N1 N2 N3;
    (assert (E : each Forced (Raise e) = Ok tt) by (cbn; rewrite not_interrupt by assumption; reflexivity)); rewrite E;
    destruct (run_all Forced rest s1) as [s2 [[]|e2]]; reflexivity.
Qed.
Example C34_interrupt_example :
  urun (URun true false Forced [[URaise KeyError]; [URaise KeyboardInterrupt]; [UWrite "not reached"]]) (SS (Plain 0) [] [])
  = (SS (Logged (Plain 0)) [] [], Raise SystemExit).
Proof. reflexivity. Qed.

(** With auto_pdb an interrupt ends the program too. *)
Theorem C34_interrupt_ends_a_pdb_run : forall (log : bool) items s s1 e,
  run_all Pdb items (if log then with_out s (Logged (out s)) else s) = (s1, Raise e) ->
  e = KeyboardInterrupt \/ e = SystemExit \/ e = LibExn "BdbQuit" -> urun (URun log false Pdb items) s = (s1, Raise SystemExit).
Proof. intros log items s s1 e H [-> | [-> | ->]]; rewrite urun_run; destruct log; rewrite H; reflexivity. Qed.
Example C34_pdb_interrupt_example : exists s1, run_all Pdb [[UWrite "a"]; [URaise KeyboardInterrupt]] (SS (Plain 0) [] []) = (s1, Raise KeyboardInterrupt).
Proof. eexists. reflexivity. Qed.

(** While it is replaced, by however many layers, a message is logged exactly once and nothing reaches the program's stream;
    newlines alone, such as the one [print] ends with, are dropped. *)
Theorem C34_writes_are_logged_once : forall msgs s n t,
  out s = layered (S n) t ->
  let s' := fst (ublock (map UWrite msgs) s) in
  out s' = out s /\ written s' = written s /\ records s' = records s ++ wrote msgs.
Proof.
  induction msgs as [|m msgs IH]; intros s n t H; cbv zeta; [cbn; now rewrite app_nil_r|].
  unfold ublock. cbn [map iterM]. unfold bind. cbn [urun]. specialize (IH (write s m)). cbv zeta in IH. unfold ublock in IH.
  assert (W : out (write s m) = out s) by apply write_out. destruct (IH n t) as (A & B & C); [now rewrite W|]. split; [now rewrite A|].
  cbn [layered] in H. unfold write in B, C |- *. rewrite H in B, C |- *. unfold wrote in *. cbn [filter]. change (String "010" "") with newline in *. destruct (String.eqb m newline); cbn [negb].
  - split; [exact B|exact C].
  - cbn [written records] in B, C. split; [exact B|]. rewrite C, <- app_assoc. reflexivity.
Qed.

(** So what the program prints after a failed run goes to the log instead of its stream, although no run is active and even
    if log_stdout is off by then. *)
Theorem C34_output_after_a_failed_run_refuted : exists c s s',
  out s = Plain 0 /\ c = URun true true Normal [[URaise ValueError]] /\ ublock [c; UWrite "after"] s = (s', Ok tt) /\
  written s' = [] /\ records s' = ["after"].
Proof.
  exists (URun true true Normal [[URaise ValueError]]), (SS (Plain 0) [] []), (SS (Logged (Plain 0)) ["after"] []). repeat split.
Qed.

(** While it is not, everything is written to the stream as it comes, newlines too, and nothing is logged. *)
Theorem C34_plain_writes : forall msgs s n, out s = Plain n ->
  ublock (map UWrite msgs) s = (SS (Plain n) (records s) (written s ++ map (pair n) msgs), Ok tt).
Proof.
  induction msgs as [|m msgs IH]; intros [o r w] n H; cbn [out records written] in *; subst o; unfold ublock; cbn [map iterM]; [now rewrite app_nil_r|].
  unfold bind. cbn [urun]. unfold write. cbn [out records written]. unfold ublock in IH. rewrite (IH (SS (Plain n) r (w ++ [(n, m)])) n eq_refl). cbn [records written]. now rewrite <- app_assoc.
Qed.
(** So an item that puts a stream in place during a run with logging takes the rest of its output away from the log; when the run ends
    normally, the stream from before the run is back and not that of the item. *)
Theorem C34_replaced_by_an_item : forall before n after s m,
  urun (URun true false m [map UWrite before ++ UReplace n :: map UWrite after]) s =
    (SS (out s) (records s ++ wrote before) (written s ++ map (pair n) after), Ok tt).
Proof.
  intros before n after s m. rewrite urun_run. set (s0 := with_out s (Logged (out s))).
  assert (E : ublock (map UWrite before ++ UReplace n :: map UWrite after) s0 = (SS (Plain n) (records s ++ wrote before) (written s ++ map (pair n) after), Ok tt)).
  { destruct (C34_writes_are_logged_once before s0 0 (out s) eq_refl) as (A & B & C). unfold ublock in *. rewrite writes_then.
    destruct (iterM urun (map UWrite before) s0) as [s1 r1] eqn:E1. cbn [fst] in A, B, C.
    assert (r1 = Ok tt) as -> by exact (writes_return before s0 s1 r1 E1).
    cbn [iterM]. unfold bind. cbn [urun]. pose proof (C34_plain_writes after (with_out s1 (Plain n)) n eq_refl) as P. unfold ublock in P. rewrite P.
    cbn [with_out records written]. now rewrite B, C. }
  cbn [run_all]. rewrite E. destruct m; reflexivity.
Qed.
Example C34_replaced_example : urun (URun true false Normal [[UWrite "a"; UReplace 7; UWrite "b"]]) (SS (Plain 0) [] []) = (SS (Plain 0) ["a"] [(7, "b")], Ok tt).
Proof. reflexivity. Qed.

Print Assumptions C34_plain_writes.
Print Assumptions C34_replaced_by_an_item.
Print Assumptions C34_normal_run_restores_stdout.
Print Assumptions C34_layers.
Print Assumptions C34_failed_run_leaves_stdout_replaced.
Print Assumptions C34_failing_runs_pile_up.
Print Assumptions C34_forced_runs_restore_unless_interrupted.
Print Assumptions C34_writes_are_logged_once.
Print Assumptions C34_output_after_a_failed_run_refuted.
Print Assumptions C34_interrupt_ends_a_forced_run.
Print Assumptions C34_interrupt_ends_a_pdb_run.
