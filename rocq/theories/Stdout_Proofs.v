(** Proofs for C34. *)
From Verif Require Import Stdout_Model Stdout_Spec.
Local Open Scope list_scope.

Section Ind.
Variable P : ucode -> Prop.
Hypothesis H1 : forall m, P (UWrite m).
Hypothesis H2 : forall n, P (UReplace n).
Hypothesis H3 : forall e, P (URaise e).
Hypothesis H4 : forall log catch m items, Forall (Forall P) items -> P (URun log catch m items).
Fixpoint ucode_ind2 (c : ucode) : P c :=
  match c with
  | UWrite m => H1 m
  | UReplace n => H2 n
  | URaise e => H3 e
  | URun log catch m items =>
      H4 log catch m items
        ((fix go (l : list (list ucode)) : Forall (Forall P) l :=
            match l with
            | [] => Forall_nil _
            | i :: rest => Forall_cons i ((fix go1 (k : list ucode) : Forall P k :=
                                             match k with [] => Forall_nil _ | c :: rest => Forall_cons c (ucode_ind2 c) (go1 rest) end) i) (go rest)
            end) items)
  end.
End Ind.

Definition each (m : mode) (r : res unit) : res unit := match m with Forced => swallow r | _ => r end.
Definition whole (m : mode) (r : res unit) : res unit := match m with Pdb => swallow r | _ => r end.

Fixpoint run_all (m : mode) (l : list (list ucode)) (s : sst) : sst * res unit :=
  match l with
  | [] => (s, Ok tt)
  | item :: rest => let '(s', r) := ublock item s in
                    match each m r with Ok _ => run_all m rest s' | Raise e => (s', Raise e) end
  end.

Lemma block_eq l : forall s, (fix block (l : list ucode) (s : sst) : sst * res unit :=
    match l with
    | [] => (s, Ok tt)
    | c :: rest => match urun c s with (s', Ok _) => block rest s' | (s', Raise e) => (s', Raise e) end
    end) l s = ublock l s.
Proof.
  induction l as [|c l IH]; intro s; [reflexivity|]. unfold ublock. cbn [iterM]. unfold bind. destruct (urun c s) as [s' [|]]; [apply IH|reflexivity].
Qed.

Lemma urun_run log catch m items s :
  urun (URun log catch m items) s =
    let '(s', r) :=
      if log then
        let '(s1, r1) := run_all m items (with_out s (Logged (out s))) in
        match whole m r1 with Ok _ => (with_out s1 (out s), Ok tt) | Raise e => (s1, Raise e) end
      else let '(s1, r1) := run_all m items s in (s1, whole m r1) in
    (s', if catch then Ok tt else r).
Proof.
  assert (A : forall l s, (fix run_all (l : list (list ucode)) (s : sst) : sst * res unit :=
        match l with
        | [] => (s, Ok tt)
        | item :: rest => let '(s', r) := (fix block (l : list ucode) (s : sst) : sst * res unit :=
              match l with
              | [] => (s, Ok tt)
              | c :: rest => match urun c s with (s', Ok _) => block rest s' | (s', Raise e) => (s', Raise e) end
              end) item s in
            match (match m with Forced => swallow | _ => fun r => r end) r with
            | Ok _ => run_all rest s'
            | Raise e => (s', Raise e)
            end
        end) l s = run_all m l s).
  { induction l as [|i l IH]; intro s0; [reflexivity|]. cbn [run_all]. rewrite block_eq. destruct (ublock i s0) as [s1 r].
    unfold each. destruct m; cbn beta iota; try (destruct r; [apply IH|reflexivity]). destruct (swallow r); [apply IH|reflexivity]. }
  cbn [urun]. destruct log; rewrite A; destruct (run_all m items _) as [s1 r1]; unfold whole; destruct m; reflexivity.
Qed.

Lemma layered_add n k o : layered n (layered k o) = layered (n + k) o.
Proof. induction n; cbn; [reflexivity|]. now rewrite IHn. Qed.

Lemma write_out s m : out (write s m) = out s.
Proof. unfold write. destruct (out s) eqn:E; [reflexivity|]. destruct (String.eqb m newline); [exact E|reflexivity]. Qed.

Definition item_effect (m : mode) (item : list ucode) : nat * res unit :=
  let '(n, r) := total (map effect item) in (n, each m r).

Definition follows (n : nat) (r : res unit) (s : sst) (x : sst * res unit) : Prop := out (fst x) = layered n (out s) /\ snd x = r.

Definition well (c : ucode) : Prop := hands_off c = true -> forall s, follows (fst (effect c)) (snd (effect c)) s (urun c s).

Lemma block_well l : Forall well l -> forallb hands_off l = true ->
  forall s, follows (fst (total (map effect l))) (snd (total (map effect l))) s (ublock l s).
Proof.
  induction 1 as [|c l Hc _ IH]; intros H s; cbn [map total]; [split; reflexivity|]. cbn [forallb] in H. apply andb_prop in H as [H1 H2].
  unfold ublock. cbn [iterM]. unfold bind. destruct (Hc H1 s) as [A B]. destruct (urun c s) as [s1 r1]. cbn [fst snd] in A, B.
  destruct (effect c) as [n r]. cbn [fst snd] in *. subst r1. destruct r as [[]|e]; [|split; [exact A|reflexivity]].
  destruct (IH H2 s1) as [C D]. unfold ublock in C, D. destruct (total (map effect l)) as [k r]. cbn [fst snd] in *. split; [|exact D].
  rewrite C, A, layered_add. f_equal. apply Nat.add_comm.
Qed.

Lemma run_all_well m items : Forall (Forall well) items -> forallb (forallb hands_off) items = true ->
  forall s, follows (fst (total (map (item_effect m) items))) (snd (total (map (item_effect m) items))) s (run_all m items s).
Proof.
  induction 1 as [|i l Hi _ IH]; intros H s; cbn [map total]; [split; reflexivity|]. cbn [forallb] in H. apply andb_prop in H as [H1 H2].
  cbn [run_all]. destruct (block_well i Hi H1 s) as [A B]. destruct (ublock i s) as [s1 r1]. cbn [fst snd] in A, B.
  destruct (item_effect m i) as [n0 r0] eqn:E. unfold item_effect in E.
  destruct (total (map effect i)) as [n r]. cbn [fst snd] in A, B. subst r1. injection E as <- <-. destruct (each m r) as [[]|e]; [|split; [exact A|reflexivity]].
  destruct (IH H2 s1) as [C D]. destruct (total (map (item_effect m) l)) as [k r2]. cbn [fst snd] in *. split; [|exact D].
  rewrite C, A, layered_add. f_equal. apply Nat.add_comm.
Qed.

Lemma effect_run log catch m items :
  effect (URun log catch m items) =
    let '(n, r) := total (map (item_effect m) items) in
    (if log then match whole m r with Ok _ => 0 | Raise _ => S n end else n, if catch then Ok tt else whole m r).
Proof. reflexivity. Qed.

Lemma urun_well c : well c.
Proof.
  induction c as [msg|n|e|log catch m items IH] using ucode_ind2; intros H s.
  - split; [apply write_out|reflexivity].
  - discriminate.
  - split; reflexivity.
  - cbn [hands_off] in H. rewrite urun_run, effect_run. destruct log.
    + destruct (run_all_well m items IH H (with_out s (Logged (out s)))) as [A B].
      destruct (run_all m items _) as [s1 r1]. destruct (total (map (item_effect m) items)) as [n r]. cbn [fst snd] in *. subst r1.
      destruct (whole m r) as [[]|e]; cbn [fst snd].
      * split; [reflexivity|]. now destruct catch.
      * split; [|reflexivity]. cbn [fst]. rewrite A. cbn [with_out out]. change (Logged (out s)) with (layered 1 (out s)).
        rewrite layered_add, Nat.add_comm. reflexivity.
    + destruct (run_all_well m items IH H s) as [A B].
      destruct (run_all m items s) as [s1 r1]. destruct (total (map (item_effect m) items)) as [n r]. cbn [fst snd] in *. subst r1.
      split; [exact A|reflexivity].
Qed.

Lemma swallow_ok r : swallow r = Ok tt \/ swallow r = Raise SystemExit.
Proof. destruct r as [|e]; cbn; [auto|]. destruct (user_interrupt e); auto. Qed.
Lemma not_interrupt e : e <> KeyboardInterrupt -> e <> SystemExit -> e <> LibExn "BdbQuit" -> user_interrupt e = false.
Proof. intros A B C. destruct e; try reflexivity; try congruence. cbn. destruct (String.eqb_spec name "BdbQuit") as [-> | N]; [congruence|reflexivity]. Qed.

Lemma writes_then (l1 l2 : list ucode) s : iterM urun (l1 ++ l2) s =
  match iterM urun l1 s with (s1, Ok _) => iterM urun l2 s1 | (s1, Raise e) => (s1, Raise e) end.
Proof.
  revert s; induction l1 as [|c l1 IH]; intros s; cbn [app iterM]; [reflexivity|].
  unfold bind. destruct (urun c s) as [s1 [[]|e]]; [apply IH|reflexivity].
Qed.
Lemma writes_return (l : list string) : forall s s1 r, iterM urun (map UWrite l) s = (s1, r) -> r = Ok tt.
Proof.
  induction l as [|x l IH]; intros s s1 r E; cbn [map iterM] in E; [now injection E|].
  unfold bind in E. cbn [urun] in E. exact (IH _ _ _ E).
Qed.
