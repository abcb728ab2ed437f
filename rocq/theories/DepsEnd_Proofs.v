(** Proofs for C38 and C39: which exceptions can occur, and independence of the visiting order. *)
From Verif Require Import Deps_Model Deps_Spec Deps_Proofs.
From Coq Require Import Permutation Lia.
Local Open Scope string_scope.
Local Open Scope list_scope.
Local Open Scope monad_scope.

Definition resolve_error : exn := LibExn "CannotResolveConfigDependenciesException".

(* ------------------------------------------------------------------ *)
Section NoError.
Context {V : Type} (u : user V) (e : exn).
Hypothesis He : never_raises u e.
Hypothesis He1 : e <> AttributeError.
Hypothesis He2 : ~ gave_up e.

Definition never {A} (m : M (st V) A) : Prop := forall s, snd (m s) <> Raise e.

Lemma never_bind {A B} (m : M (st V) A) (f : A -> M (st V) B) : never m -> (forall a, never (f a)) -> never (a <- m ;; f a).
Proof.
  intros H1 H2 s. unfold bind. specialize (H1 s). destruct (m s) as [s1 [a|e']]; [apply H2|]. cbn in *. congruence.
Qed.
Lemma never_ok {A} (m : M (st V) A) : (forall s, exists a, snd (m s) = Ok a) -> never m.
Proof. intros H s. destruct (H s) as (a & ->). discriminate. Qed.
Lemma never_raise {A} e' : e' <> e -> never (@raise (st V) A e').
Proof. intros H s. cbn. congruence. Qed.
Lemma never_lift {A} (r : res A) : r <> Raise e -> never (lift r).
Proof. intros H s. exact H. Qed.

Ltac nok := apply never_ok; intro; eexists; reflexivity.

Lemma not_recursion : e <> RecursionError.
Proof. intros ->. apply He2. now left. Qed.
Lemma never_by_view ld : (forall j, never (ld j)) -> forall j, never (by_view ld j).
Proof.
  intros L j s X. specialize (L j s). unfold by_view in X. destruct (ld j s) as [s1 [a|e']]; [discriminate|].
  destruct e'; cbn [snd] in *; try congruence. injection X as X. apply He2. right. now rewrite <- X.
Qed.
Lemma never_exec ld i p : (forall j, never (ld j)) -> never_fails e p -> never (exec ld i p).
Proof.
  intros L H. induction H as [d|e' H|j k cont _ IH]; cbn [exec].
  - nok.
  - now apply never_raise.
  - apply never_bind; [nok|]. intros _. apply never_bind; [now apply never_by_view|]. intros _. apply never_bind; [nok|]. intros [o|]; [|apply never_raise; congruence].
    destruct (dget k o); [apply IH|apply never_raise; congruence].
Qed.
Lemma never_own ld i : (forall j, never (ld j)) -> never (own_config u ld i).
Proof.
  intros L. apply never_bind; [nok|]. intros [c|]; [nok|]. apply never_bind; [apply never_exec; [exact L|apply He]|]. intro d.
  apply never_bind; [nok|]. intros _. nok.
Qed.
Lemma never_get ld i : (forall j, never (ld j)) -> never (config_get u ld i).
Proof. intros L. apply never_bind; [now apply never_own|]. intro c. cbv zeta. apply never_bind; [nok|]. intros _. nok. Qed.
Lemma never_load n i : never (load u n i).
Proof.
  revert i. induction n as [|n IH]; intro i; cbn [load]; [apply never_raise, not_eq_sym, not_recursion|]. apply never_bind; [nok|]. intros [o|]; [nok|].
  apply never_bind; [now apply never_get|]. intro c. apply never_bind; [apply never_lift, He|]. intro o. nok.
Qed.

Hypothesis Hord : set_order u.

Lemma never_loop j f n : (forall x, never (f x)) -> forall upd done, never (dep_loop (dependents j) (u_order u) f n upd done).
Proof.
  intro F. assert (I : forall l, never (iterM f l)).
  { induction l as [|a l IH]; cbn [iterM]; [nok|]. apply never_bind; [apply F|]. intros _. exact IH. }
  induction n as [|n IH]; intros upd done s.
  - destruct upd; cbn; [discriminate|]. assert (R := not_recursion). congruence.
  - destruct upd as [|x upd]; [discriminate|]. rewrite dep_loop_eq by discriminate. specialize (I (u_order u s (x :: upd)) s).
    destruct (iterM f (u_order u s (x :: upd)) s) as [s1 [[]|e']]; [apply IH|exact I].
Qed.
Lemma never_refresh_dependents j f n : (forall x, never (f x)) -> never (refresh_dependents u f n j).
Proof. intro F. apply never_bind; [nok|]. intro l. now apply never_loop. Qed.

Lemma never_refresh n i : never (refresh u n i).
Proof.
  revert i. induction n as [|n IH]; intro i; cbn [refresh]; [apply never_raise, not_eq_sym, not_recursion|]. assert (L := never_load n).
  apply never_bind; [now apply never_own|]. intros _. apply never_bind; [apply never_exec; [exact L|apply He]|]. intro d.
  apply never_bind; [now apply never_own|]. intro c. destruct (would_update u (vals c) (dupdate d (applied c))); [|nok].
  apply never_bind; [apply never_exec; [exact L|apply He]|]. intro d'. apply never_bind; [now apply never_own|]. intro c'.
  apply never_bind; [nok|]. intros _. apply never_bind; [nok|]. intros [o|]; [|nok]. apply never_bind; [now apply never_get|]. intro c2.
  apply never_bind. { apply never_bind; [apply never_lift, He|]. intro o'. nok. } intros _. now apply never_refresh_dependents.
Qed.
Lemma never_update n i d persist : never (update u n i d persist).
Proof.
  assert (L := never_load n). apply never_bind; [now apply never_own|]. intro c. destruct (would_update u (vals c) (dict_of d)); [|nok].
  cbv zeta. apply never_bind; [nok|]. intros _. apply never_bind; [nok|]. intros [o|]; [|nok].
  apply never_bind. { apply never_bind; [apply never_lift, He|]. intro o'. nok. } intros _. apply never_refresh_dependents. apply never_refresh.
Qed.
End NoError.

(* ------------------------------------------------------------------ *)
(** ** Termination *)
Section Ends.
Context {V : Type} (u : user V) (rank : string -> nat) (U : list string) (N : nat).
Hypothesis Hac : acyclic u rank.
Hypothesis HU : forall i, In i U -> reads_within U (u_file u i) /\ rank i <= N.
Hypothesis He : forall e, gave_up e -> never_raises u e.
Hypothesis Hord : set_order u.

Notation DW := (deps_within rank U).
Definition safe {A} (m : M (st V) A) : Prop := forall s, DW s -> DW (fst (m s)) /\ forall e, gave_up e -> snd (m s) <> Raise e.

Lemma safe_bind {A B} (m : M (st V) A) (f : A -> M (st V) B) : safe m -> (forall a, safe (f a)) -> safe (a <- m ;; f a).
Proof.
  intros H1 H2 s D. unfold bind. specialize (H1 s D). destruct (m s) as [s1 [a|e']]; [apply H2, H1|]. cbn in *. destruct H1 as [D1 X]. split; [exact D1|]. intros e G. specialize (X e G). congruence.
Qed.
Lemma safe_ok {A} (m : M (st V) A) : (forall s, forced (fst (m s)) = forced s /\ exists a, snd (m s) = Ok a) -> safe m.
Proof.
  intros H s D. destruct (H s) as (E & a & ->). split; [|intros e G; discriminate]. unfold deps_within, dependents in *. now rewrite E.
Qed.
Lemma safe_raise {A} e' : ~ gave_up e' -> safe (@raise (st V) A e').
Proof. intros H s D. cbn. split; [exact D|]. intros e G X. injection X as ->. auto. Qed.
Lemma attribute_error : ~ gave_up AttributeError. Proof. intros [X|X]; discriminate. Qed.
Lemma safe_lift {A} (r : res A) : (forall e, gave_up e -> r <> Raise e) -> safe (lift r).
Proof. intros H s D. split; [exact D|exact H]. Qed.
Lemma safe_by_view ld j : safe (ld j) -> safe (by_view ld j).
Proof.
  intros L s D. destruct (L s D) as [A X]. unfold by_view. destruct (ld j s) as [s1 [a|e]]; [now split|]. cbn [fst snd] in *.
  assert (Nr := X RecursionError (or_introl eq_refl)). destruct e; cbn [fst snd]; (split; [exact A|]); auto.
Qed.
Ltac sok := apply safe_ok; intro; split; [reflexivity|eexists; reflexivity].

Lemma safe_add i j : In i U -> rank j < rank i -> safe (modify (add_dependency i j)).
Proof.
  intros Hi Hr s [D1 D2]. split; [|intros e G; discriminate]. cbn [modify fst]. split.
  - intros k x Hx. apply dependents_add in Hx as [Hx|(-> & -> & _)]; auto.
  - intro k. unfold add_dependency. destruct (String.eqb i j); [apply D2|]. unfold dependents at 1. cbn [forced]. rewrite dget_dset.
    destruct (String.eqb k j); [apply NoDup_set_add|]; apply D2.
Qed.

Lemma safe_exec ld i p : In i U -> (forall j, In j U -> rank j < rank i -> safe (ld j)) -> reads_before rank i p -> reads_within U p ->
  (forall e, gave_up e -> never_fails e p) -> safe (exec ld i p).
Proof.
  intros Hi L H. induction H as [d|e'|j k cont Hj Hc IH]; intros W F; cbn [exec].
  - sok.
  - apply safe_raise. intros G. specialize (F _ G). inversion F; congruence.
  - inversion W as [| |? ? ? Wj Wc]; subst. assert (Fc : forall v e, gave_up e -> never_fails e (cont v)) by (intros v e G; specialize (F e G); inversion F; auto).
    apply safe_bind; [now apply safe_add|]. intros _. apply safe_bind; [apply safe_by_view; now apply L|]. intros _. apply safe_bind; [sok|].
    intros [o|]; [|apply safe_raise, attribute_error]. destruct (dget k o) as [v|]; [|apply safe_raise, attribute_error]. apply IH; auto.
Qed.
Lemma safe_own ld i : In i U -> (forall j, In j U -> rank j < rank i -> safe (ld j)) -> safe (own_config u ld i).
Proof.
  intros Hi L. apply safe_bind; [sok|]. intros [c|]; [sok|]. apply safe_bind; [apply safe_exec; [exact Hi|exact L|apply Hac|now apply HU|intros e G; now apply He]|]. intro d.
  apply safe_bind; [sok|]. intros _. sok.
Qed.
Lemma safe_get ld i : In i U -> (forall j, In j U -> rank j < rank i -> safe (ld j)) -> safe (config_get u ld i).
Proof. intros Hi L. apply safe_bind; [now apply safe_own|]. intro c. cbv zeta. apply safe_bind; [sok|]. intros _. sok. Qed.
Lemma safe_load n i : In i U -> rank i < n -> safe (load u n i).
Proof.
  revert i. induction n as [|n IH]; intros i Hi Hn; cbn [load]; [lia|]. apply safe_bind; [sok|]. intros [o|]; [sok|].
  apply safe_bind; [apply safe_get; [exact Hi|]; intros j Hj Hr; apply IH; [exact Hj|lia]|]. intro c. apply safe_bind; [apply safe_lift; intros e G; now apply (He e G)|]. intro o. sok.
Qed.

Lemma safe_refresh_dependents j f n : length U < n -> (forall x, In x U /\ rank j < rank x -> safe (f x)) -> safe (refresh_dependents u f n j).
Proof.
  intros Hn F s D. unfold refresh_dependents, bind, gets. destruct (dep_loop (dependents j) (u_order u) f n (dependents j s) [] s) as [s' r] eqn:E.
  assert (I : forall l s, (forall x, In x l -> In x U /\ rank j < rank x) -> DW s -> DW (fst (iterM f l s)) /\ forall e, gave_up e -> snd (iterM f l s) <> Raise e).
  { induction l as [|a l IHl]; intros s0 Hl H0; [split; [exact H0|intros e G; discriminate]|]. cbn [iterM]. unfold bind. destruct (F a (Hl a (or_introl eq_refl)) s0 H0) as [A B].
    destruct (f a s0) as [s2 [[]|e]]; [apply IHl; [intros y Hy; apply Hl; now right|exact A]|]. split; [exact A|exact B]. }
  destruct (dep_loop_trace (dependents j) (u_order u) f Hord DW (fun x => In x U /\ rank j < rank x) n) with (upd := dependents j s) (done := @nil string) (s := s) (s' := s') (r := r)
    as (tr & Tn & Td & Tr); try assumption.
  - intros x s0 Hx H0. now apply F.
  - intros s0 H0. apply H0.
  - intros s0 x H0. apply H0.
  - apply D.
  - intros x Hx. now apply D in Hx.
  - intros x _ [].
  - auto.
  - destruct (I tr s (fun x Hx => proj1 (Td x Hx)) D) as [A B]. destruct (iterM f tr s) as [s1 [[]|e]].
    + destruct Tr as (-> & Tr). cbn [fst snd] in *. split; [exact A|]. intros e G. destruct Tr as [(-> & _)|(-> & Tr)]; [discriminate|].
      exfalso. assert (length tr <= length U) by (apply NoDup_incl_length; [exact Tn|intros x Hx; now apply Td]). lia.
    + destruct Tr as (-> & ->). split; [exact A|exact B].
Qed.

Lemma safe_refresh n i : In i U -> N + (N - rank i) + length U + 1 < n -> safe (refresh u n i).
Proof.
  revert i. induction n as [|n IH]; intros i Hi Hn; cbn [refresh]; [lia|].
  assert (L : forall j, In j U -> rank j < rank i -> safe (load u n j)).
  { intros j Hj Hr. apply safe_load; [exact Hj|]. destruct (HU i Hi). lia. }
  assert (X : safe (exec (load u n) i (u_file u i))) by (apply safe_exec; [exact Hi|exact L|apply Hac|now apply HU|intros e G; now apply He]).
  apply safe_bind; [now apply safe_own|]. intros _. apply safe_bind; [exact X|]. intro d.
  apply safe_bind; [now apply safe_own|]. intro c. destruct (would_update u (vals c) (dupdate d (applied c))); [|sok].
  apply safe_bind; [exact X|]. intro d'. apply safe_bind; [now apply safe_own|]. intro c'.
  apply safe_bind; [sok|]. intros _. apply safe_bind; [sok|]. intros [o|]; [|sok]. apply safe_bind; [now apply safe_get|]. intro c2.
  apply safe_bind. { apply safe_bind; [apply safe_lift; intros e G; now apply (He e G)|]. intro o'. sok. } intros _. apply safe_refresh_dependents; [lia|].
  intros x [Hx Hr]. apply IH; [exact Hx|]. destruct (HU x Hx). lia.
Qed.

Lemma safe_update n i d persist : In i U -> N + N + length U + 1 < n -> safe (update u n i d persist).
Proof.
  intros Hi Hn. assert (L : forall j, In j U -> rank j < rank i -> safe (load u n j)).
  { intros j Hj Hr. apply safe_load; [exact Hj|]. destruct (HU i Hi). lia. }
  apply safe_bind; [now apply safe_own|]. intro c. destruct (would_update u (vals c) (dict_of d)); [|sok].
  cbv zeta. apply safe_bind; [sok|]. intros _. apply safe_bind; [sok|]. intros [o|]; [|sok].
  apply safe_bind. { apply safe_bind; [apply safe_lift; intros e G; now apply (He e G)|]. intro o'. sok. } intros _. apply safe_refresh_dependents; [lia|].
  intros x [Hx Hr]. apply safe_refresh; [exact Hx|]. lia.
Qed.
End Ends.
