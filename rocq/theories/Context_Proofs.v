(** Proofs for C35-C37. *)
From Verif Require Import Context_Model Context_Spec.
Local Open Scope string_scope.
Local Open Scope list_scope.

Section Ind.
Variable P : code -> Prop.
Hypothesis H1 : forall c, P (Call c).
Hypothesis H2 : forall f body, Forall P body -> P (Within f body).
Hypothesis H3 : forall body, Forall P body -> P (Try body).
Fixpoint code_ind2 (c : code) : P c :=
  let go := fix go (l : list code) : Forall P l :=
    match l with [] => Forall_nil _ | c :: rest => Forall_cons c (code_ind2 c) (go rest) end in
  match c with
  | Call c => H1 c
  | Within f body => H2 f body (go body)
  | Try body => H3 body (go body)
  end.
End Ind.

Lemma block_eq l : forall s, (fix block (l : list code) (s : ctx) : ctx * res unit :=
    match l with
    | [] => (s, Ok tt)
    | c :: rest => match exec c s with (s', Ok _) => block rest s' | (s', Raise e) => (s', Raise e) end
    end) l s = exec_block l s.
Proof.
  induction l as [|c l IH]; intro s; [reflexivity|]. unfold exec_block. cbn [iterM]. unfold bind. destruct (exec c s) as [s' [|]]; [apply IH|reflexivity].
Qed.

Lemma exec_within f body s : exec (Within (Ok f) body) s =
  let '(s1, r) := exec_block body (push f s) in
  match pop s1 with (s2, Ok _) => (s2, r) | (s2, Raise e) => (s2, Raise e) end.
Proof. cbn [exec]. now rewrite block_eq. Qed.
Lemma exec_try body s : exec (Try body) s = (fst (exec_block body s), Ok tt).
Proof. cbn [exec]. rewrite block_eq. now destruct (exec_block body s). Qed.

Lemma filter_rev' {A} (f : A -> bool) l : filter f (rev l) = rev (filter f l).
Proof.
  induction l as [|a l IH]; [reflexivity|]. cbn [rev filter]. rewrite filter_app, IH. cbn [filter]. destruct (f a); [reflexivity|].
  now rewrite app_nil_r.
Qed.

Lemma newest_innermost a env : newest (frames_of a (rev env)) = innermost a env.
Proof.
  unfold frames_of, newest. rewrite filter_rev', rev_involutive.
  induction env as [|f env IH]; [reflexivity|]. cbn [filter innermost]. destruct (action_eqb (f_action f) a); [reflexivity|exact IH].
Qed.

Lemma loading_innermost env :
  match frames_of LOAD_FILE_EXECUTE (rev env) with [] => false | _ => true end = match innermost LOAD_FILE_EXECUTE env with Some _ => true | None => false end.
Proof.
  rewrite <- newest_innermost. unfold newest. destruct (frames_of _ _) as [|f l]; [reflexivity|].
  destruct (rev (f :: l)) eqn:E; [|reflexivity]. apply (f_equal (@length frame)) in E. rewrite rev_length in E. discriminate.
Qed.

Lemma In_set_add x y l : In x (set_add y l) <-> x = y \/ In x l.
Proof.
  unfold set_add. destruct (existsb (String.eqb y) l) eqn:E.
  - apply existsb_exists in E as (z & Hz & E). apply String.eqb_eq in E. subst. split; [auto|]. intros [->|]; assumption.
  - rewrite in_app_iff. cbn. split; [intros [|[|[]]]; auto|]. intros [->|]; auto.
Qed.
Lemma NoDup_set_add x l : NoDup l -> NoDup (set_add x l).
Proof.
  intro H. unfold set_add. destruct (existsb (String.eqb x) l) eqn:E; [exact H|]. apply NoDup_snoc; [exact H|]. intro Hx.
  assert (existsb (String.eqb x) l = true) by (apply existsb_exists; exists x; split; [exact Hx|apply String.eqb_refl]). congruence.
Qed.
Lemma entry_add_to k x d k' : entry k' (add_to k x d) = if String.eqb k' k then set_add x (entry k d) else entry k' d.
Proof. unfold entry at 1, add_to. rewrite dget_dset. now destruct (String.eqb_spec k' k). Qed.

Lemma In_add_to k x d k' x' : In x' (entry k' (add_to k x d)) <-> In x' (entry k' d) \/ (x' = x /\ k' = k).
Proof.
  rewrite entry_add_to. destruct (String.eqb_spec k' k) as [->|Hne]; [rewrite In_set_add|]; tauto.
Qed.

(** what adding a dependency adds *)
Lemma add_dep_in a b force s k x :
  (In x (entry k (deps (add_config_dependency a b force s))) <-> In x (entry k (deps s)) \/ (x = a /\ k = b /\ a <> b)) /\
  (In x (entry k (forced (add_config_dependency a b force s))) <-> In x (entry k (forced s)) \/ (force = true /\ x = a /\ k = b /\ a <> b)).
Proof.
  unfold add_config_dependency. destruct (String.eqb_spec a b) as [->|Hne].
  - split; tauto.
  - cbn [deps forced]. rewrite In_add_to. split; [tauto|]. destruct force; [rewrite In_add_to; tauto|]. split; [tauto|]. intros [|[]]; [assumption|discriminate].
Qed.
Lemma add_dep_stack a b force s : stack (add_config_dependency a b force s) = stack s /\ log (add_config_dependency a b force s) = log s.
Proof. unfold add_config_dependency. destruct (String.eqb a b); auto. Qed.

(** deps of [s'] are those of [s] and the recorded ones *)
Definition adds (rec : list (string * string * bool)) (s s' : ctx) : Prop :=
  forall k x,
    (In x (entry k (deps s')) <-> In x (entry k (deps s)) \/ x <> k /\ exists f, In (x, k, f) rec) /\
    (In x (entry k (forced s')) <-> In x (entry k (forced s)) \/ x <> k /\ In (x, k, true) rec).

Definition does (m : meaning) (s : ctx) (x : ctx * res unit) : Prop :=
  stack (fst x) = stack s /\ log (fst x) = log s ++ m_obs m /\ adds (m_rec m) s (fst x) /\ snd x = m_out m.

Lemma adds_nil s s' : deps s' = deps s -> forced s' = forced s -> adds [] s s'.
Proof. intros H1 H2 k x. rewrite H1, H2. split; (split; [tauto|]); intros [|[_ H]]; try assumption; [destruct H as (f & [])|destruct H]. Qed.
Lemma adds_one a b force s : adds [(a, b, force)] s (add_config_dependency a b force s).
Proof.
  intros k x. destruct (add_dep_in a b force s k x) as [A B]. rewrite A, B. split.
  - split; (intros [|H]; [now left|right]).
    + destruct H as (-> & -> & H). split; [congruence|]. exists force. now left.
    + destruct H as (Hne & f & [[= -> -> ->]|[]]). auto.
  - split; (intros [|H]; [now left|right]).
    + destruct H as (-> & -> & -> & H). split; [congruence|]. now left.
    + destruct H as (Hne & [[= -> -> ->]|[]]). auto.
Qed.
Lemma adds_app r1 r2 s1 s2 s3 : adds r1 s1 s2 -> adds r2 s2 s3 -> adds (r1 ++ r2) s1 s3.
Proof.
  intros H1 H2 k x. destruct (H1 k x) as [A1 B1], (H2 k x) as [A2 B2]. rewrite A2, A1, B2, B1. split.
  - split.
    + intros [[|(Hne & f & Hf)]|(Hne & f & Hf)]; [now left|right; split; [exact Hne|exists f; apply in_or_app; auto]|right; split; [exact Hne|exists f; apply in_or_app; auto]].
    + intros [|(Hne & f & Hf)]; [auto|]. apply in_app_or in Hf as [Hf|Hf]; [left; right; eauto|right; eauto].
  - rewrite in_app_iff. tauto.
Qed.

Definition right (c : code) : Prop := no_reset c = true -> forall env s, stack s = rev env -> does (means env c) s (exec c s).

Lemma block_right l : Forall right l -> forallb no_reset l = true -> forall env s, stack s = rev env ->
  does (sequence (map (means env) l)) s (exec_block l s).
Proof.
  induction 1 as [|c l Hc _ IH]; intros H env s Hs; cbn [map sequence].
  - split; [reflexivity|]. split; [cbn [m_obs]; now rewrite app_nil_r|]. split; [now apply adds_nil|reflexivity].
  - cbn [forallb] in H. apply andb_prop in H as [H1 H2]. unfold exec_block. cbn [iterM]. unfold bind.
    destruct (Hc H1 env s Hs) as (A1 & B1 & C1 & D1). destruct (exec c s) as [s1 r1]. cbn [fst snd] in A1, B1, C1, D1. subst r1.
    destruct (m_out (means env c)) as [[]|e] eqn:E.
    + destruct (IH H2 env s1) as (A2 & B2 & C2 & D2); [congruence|]. unfold exec_block in A2, B2, C2, D2. split; [congruence|]. cbn [m_obs m_rec m_out].
      split; [rewrite B2, B1; now rewrite app_assoc|]. split; [eapply adds_app; eassumption|exact D2].
    + split; [exact A1|]. split; [exact B1|]. split; [exact C1|]. cbn [snd]. now rewrite E.
Qed.

Lemma exec_right c : right c.
Proof.
  induction c as [c|f body IH|body IH] using code_ind2; intros H env s Hs.
  - assert (R : currently_running s = innermost RUN env) by (unfold currently_running; rewrite Hs; apply newest_innermost).
    assert (L : currently_loading s = innermost LOAD_FILE_EXECUTE env) by (unfold currently_loading; rewrite Hs; apply newest_innermost).
    assert (F : file_is_being_loaded s = match innermost LOAD_FILE_EXECUTE env with Some _ => true | None => false end)
      by (unfold file_is_being_loaded; rewrite Hs; apply loading_innermost).
    assert (N : forall s', stack s' = stack s -> log s' = log s -> deps s' = deps s -> forced s' = forced s -> forall r,
                does (Mean [] [] r) s (s', r)).
    { intros s' E1 E2 E3 E4 r. split; [exact E1|]. split; [cbn; now rewrite app_nil_r|]. split; [now apply adds_nil|reflexivity]. }
    assert (A : forall a b force, does (Mean [] [(a, b, force)] (Ok tt)) s (add_config_dependency a b force s, Ok tt)).
    { intros a b force. destruct (add_dep_stack a b force s) as [E1 E2]. split; [exact E1|]. split; [cbn; now rewrite app_nil_r|].
      split; [apply adds_one|reflexivity]. }
    destruct c as [a b force|b force|b force| |e|]; cbn [exec do_call means should_record].
    + apply A.
    + rewrite R. destruct (innermost RUN env); [apply A|now apply N].
    + rewrite F, L. destruct (innermost LOAD_FILE_EXECUTE env); [apply A|now apply N].
    + split; [reflexivity|]. split; [cbn [fst log m_obs]; unfold should_observe; now rewrite R, F, L|]. split; [now apply adds_nil|reflexivity].
    + now apply N.
    + discriminate.
  - destruct f as [f|e].
    + rewrite exec_within. cbn [means]. cbn [no_reset] in H.
      destruct (block_right body IH H (f :: env) (push f s)) as (A & B & C & D); [cbn [push stack rev]; now rewrite Hs|].
      destruct (exec_block body (push f s)) as [s1 r]. cbn [fst snd] in A, B, C, D. unfold pop. cbn [push stack] in A. rewrite A.
      destruct (stack s ++ [f]) eqn:E; [now destruct (stack s)|]. rewrite <- E. split; [cbn [fst stack]; apply removelast_last|].
      split; [exact B|]. split; [exact C|exact D].
    + cbn [exec means]. split; [reflexivity|]. split; [cbn; now rewrite app_nil_r|]. split; [now apply adds_nil|reflexivity].
  - rewrite exec_try. cbn [means]. cbn [no_reset] in H. destruct (block_right body IH H env s Hs) as (A & B & C & _).
    split; [exact A|]. split; [exact B|]. split; [exact C|reflexivity].
Qed.

(** an invariant of the calls is an invariant of all code *)
Lemma exec_invariant (R : ctx -> ctx -> Prop) (ok : code -> bool) :
  (forall f body, ok (Within f body) = true -> forallb ok body = true) -> (forall body, ok (Try body) = true -> forallb ok body = true) ->
  (forall s, R s s) -> (forall s1 s2 s3, R s1 s2 -> R s2 s3 -> R s1 s3) ->
  (forall c s, ok (Call c) = true -> R s (fst (do_call c s))) ->
  (forall s l, R s (Ctx l (deps s) (forced s) (log s))) ->
  forall c, ok c = true -> forall s, R s (fst (exec c s)).
Proof.
  intros OW OT Rr Rt Rc Rs.
  assert (B : forall l, Forall (fun c => ok c = true -> forall s, R s (fst (exec c s))) l -> forallb ok l = true -> forall s, R s (fst (exec_block l s))).
  { induction 1 as [|c l Hc _ IH]; intros H s; [apply Rr|]. cbn [forallb] in H. apply andb_prop in H as [H1 H2].
    unfold exec_block. cbn [iterM]. unfold bind. specialize (Hc H1 s). destruct (exec c s) as [s1 [x|e]]; [|exact Hc]. eapply Rt; [exact Hc|apply IH; exact H2]. }
  intro c. induction c as [c|f body IH|body IH] using code_ind2; intros H s.
  - now apply Rc.
  - destruct f as [f|e]; [|apply Rr]. rewrite exec_within. apply OW in H. specialize (B body IH H (push f s)).
    destruct (exec_block body (push f s)) as [s1 r]. cbn [fst] in B.
    assert (X : R s s1) by (eapply Rt; [apply (Rs s (stack s ++ [f]))|exact B]).
    unfold pop. destruct (stack s1) as [|g l] eqn:E; [exact X|]. eapply Rt; [exact X|apply Rs].
  - rewrite exec_try. apply OT in H. now apply B.
Qed.

Lemma add_dep_ok a b force s : deps_ok s -> deps_ok (add_config_dependency a b force s).
Proof.
  intros (A & B & C & D). split; [|split; [|split]].
  - intros k x H. apply add_dep_in in H as [H|(-> & -> & H)]; [now apply A|exact H].
  - intros k x H. apply add_dep_in. apply add_dep_in in H as [H|(_ & H)]; [left; now apply B|now right].
  - intro k. unfold add_config_dependency. destruct (String.eqb a b); [apply C|]. cbn [deps]. rewrite entry_add_to.
    destruct (String.eqb k b); [apply NoDup_set_add|]; apply C.
  - intro k. unfold add_config_dependency. destruct (String.eqb a b); [apply D|]. cbn [forced]. destruct force; [|apply D]. rewrite entry_add_to.
    destruct (String.eqb k b); [apply NoDup_set_add|]; apply D.
Qed.
Lemma add_dep_grow a b force s : deps_grow s (add_config_dependency a b force s).
Proof. split; intros k x H; apply add_dep_in; now left. Qed.
Lemma grow_refl s : deps_grow s s. Proof. split; auto. Qed.
Lemma grow_trans s1 s2 s3 : deps_grow s1 s2 -> deps_grow s2 s3 -> deps_grow s1 s3.
Proof. intros [A B] [C D]. split; auto. Qed.
