(** Proofs for C38 and C39. *)
From Verif Require Import Deps_Model Deps_Spec.
From Coq Require Import Permutation Lia.
Local Open Scope string_scope.
Local Open Scope list_scope.
Local Open Scope monad_scope.

Lemma mem_In x l : mem x l = true <-> In x l.
Proof.
  unfold mem. rewrite existsb_exists. split; [intros (y & H & E); apply String.eqb_eq in E; now subst|].
  intro H. exists x. split; [exact H|apply String.eqb_refl].
Qed.
Lemma mem_false x l : mem x l = false <-> ~ In x l.
Proof. rewrite <- mem_In. destruct (mem x l); split; congruence. Qed.
Lemma In_set_add x y l : In x (set_add y l) <-> x = y \/ In x l.
Proof.
  unfold set_add. destruct (mem y l) eqn:E.
  - apply mem_In in E. split; [auto|]. intros [->|]; assumption.
  - rewrite in_app_iff. cbn. split; [intros [|[|[]]]; auto|]. intros [->|]; auto.
Qed.
Lemma NoDup_set_add x l : NoDup l -> NoDup (set_add x l).
Proof.
  intro H. unfold set_add. destruct (mem x l) eqn:E; [exact H|]. apply NoDup_snoc; [exact H|]. now apply mem_false.
Qed.
Lemma In_minus x a b : In x (minus a b) <-> In x a /\ ~ In x b.
Proof. unfold minus. rewrite filter_In, Bool.negb_true_iff, mem_false. tauto. Qed.
Lemma NoDup_minus a b : NoDup a -> NoDup (minus a b).
Proof. intro H. unfold minus. now apply NoDup_filter. Qed.

Lemma NoDup_app' {A} (a b : list A) : NoDup a -> NoDup b -> (forall x, In x a -> In x b -> False) -> NoDup (a ++ b).
Proof.
  induction 1 as [|x a Hx _ IH]; intros Hb H; [exact Hb|]. cbn [app]. constructor.
  - intro Hi. apply in_app_or in Hi as [Hi|Hi]; [now apply Hx|]. apply (H x); [now left|exact Hi].
  - apply IH; [exact Hb|]. intros y H1 H2. apply (H y); [now right|exact H2].
Qed.

(* ------------------------------------------------------------------ *)
(** ** The loop, for any [refresh] *)

Section Loop.
Context {T : Type} (deps_of : T -> list string) (order : T -> list string -> list string) (refresh : string -> M T unit).
Hypothesis Hord : forall s l, Permutation (order s l) l.

Lemma same_set_false upd all done : upd <> [] -> same_set upd (minus all (done ++ upd)) = false.
Proof.
  intro H. destruct upd as [|x upd]; [congruence|]. unfold same_set. cbn [forallb].
  assert (E : mem x (minus all (done ++ x :: upd)) = false).
  { apply mem_false. rewrite In_minus. intros [_ N]. apply N, in_or_app. right. now left. }
  now rewrite E.
Qed.

Lemma dep_loop_eq n upd done s : upd <> [] ->
  dep_loop deps_of order refresh (S n) upd done s =
  match iterM refresh (order s upd) s with
  | (s', Ok _) => dep_loop deps_of order refresh n (minus (deps_of s') (done ++ upd)) (done ++ upd) s'
  | (s', Raise e) => (s', Raise e)
  end.
Proof.
  intro H. destruct upd as [|x upd]; [congruence|]. cbn [dep_loop]. unfold bind, gets.
  destruct (iterM refresh (order s (x :: upd)) s) as [s' [[]|e]]; [|reflexivity].
  now rewrite same_set_false.
Qed.

Lemma iterM_app {A} (f : A -> M T unit) l1 l2 s :
  iterM f (l1 ++ l2) s = match iterM f l1 s with (s', Ok _) => iterM f l2 s' | (s', Raise e) => (s', Raise e) end.
Proof.
  revert s. induction l1 as [|a l1 IH]; intro s; [reflexivity|]. cbn [app iterM]. unfold bind. destruct (f a s) as [s' [[]|e]]; [apply IH|reflexivity].
Qed.

Lemma dep_loop_trace (N : T -> Prop) (Q : string -> Prop) n :
  (forall x s, Q x -> N s -> N (fst (refresh x s))) -> (forall s, N s -> NoDup (deps_of s)) -> (forall s x, N s -> In x (deps_of s) -> Q x) ->
  forall upd done s s' r, N s -> NoDup upd -> (forall x, In x upd -> Q x) -> (forall x, In x upd -> ~ In x done) ->
  (forall x, In x (deps_of s) -> In x upd \/ In x done) ->
  dep_loop deps_of order refresh n upd done s = (s', r) ->
  exists tr, NoDup tr /\ (forall x, In x tr -> Q x /\ ~ In x done) /\
    match iterM refresh tr s with
    | (s1, Ok _) => s1 = s' /\ (r = Ok tt /\ (forall x, In x (deps_of s') -> In x tr \/ In x done) \/
                                r = Raise RecursionError /\ n <= length tr)
    | (s1, Raise e) => s1 = s' /\ r = Raise e
    end.
Proof.
  intros HN1 HN2 HQ. induction n as [|n IH]; intros upd done s s' r Hs Hu Hq Hd Hc E.
  - destruct upd as [|x upd].
    + cbn in E. injection E as <- <-. exists []. split; [constructor|]. split; [intros x []|]. cbn. split; [reflexivity|]. left. split; [reflexivity|].
      intros x Hx. apply Hc in Hx. destruct Hx as [[]|]; auto.
    + cbn in E. injection E as <- <-. exists []. split; [constructor|]. split; [intros y []|]. cbn. auto.
  - destruct upd as [|x upd].
    + cbn in E. injection E as <- <-. exists []. split; [constructor|]. split; [intros x []|]. cbn. split; [reflexivity|]. left. split; [reflexivity|].
      intros x Hx. apply Hc in Hx. destruct Hx as [[]|]; auto.
    + set (upd' := x :: upd) in *. rewrite dep_loop_eq in E by discriminate. assert (P := Hord s upd').
      destruct (iterM refresh (order s upd') s) as [s1 [[]|e]] eqn:E1.
      * assert (N1 : N s1). { assert (X : forall l s, (forall x, In x l -> Q x) -> N s -> N (fst (iterM refresh l s))).
          { induction l as [|a l IHl]; intros s0 Hl H0; [exact H0|]. cbn [iterM]. unfold bind. specialize (HN1 a s0 (Hl a (or_introl eq_refl)) H0).
            destruct (refresh a s0) as [s2 [[]|]]; [apply IHl; [intros y Hy; apply Hl; now right|exact HN1]|exact HN1]. }
          specialize (X (order s upd') s (fun y Hy => Hq y (Permutation_in _ P Hy)) Hs). rewrite E1 in X. exact X. }
        destruct (IH _ _ _ _ _ N1 (NoDup_minus _ _ (HN2 _ N1))
          (fun y Hy => HQ _ _ N1 (proj1 (proj1 (In_minus _ _ _) Hy))) (fun y Hy => proj2 (proj1 (In_minus _ _ _) Hy))
          (fun y Hy => match in_dec string_dec y (done ++ upd') with left H => or_intror H | right H => or_introl (proj2 (In_minus _ _ _) (conj Hy H)) end) E)
          as (tr & Tn & Td & Tr).
        exists (order s upd' ++ tr). split; [|split].
        -- apply NoDup_app'. { eapply Permutation_NoDup; [apply Permutation_sym, P|exact Hu]. } { exact Tn. }
           intros y H1 H2. apply (Permutation_in _ P) in H1. apply (proj2 (Td _ H2)). apply in_or_app. now right.
        -- intros y Hy. apply in_app_or in Hy as [Hy|Hy]; [apply (Permutation_in _ P) in Hy; auto|]. split; [now apply Td|].
           intro H. apply (proj2 (Td _ Hy)). apply in_or_app. now left.
        -- rewrite iterM_app, E1. destruct (iterM refresh tr s1) as [s2 [[]|e]]; [|exact Tr]. destruct Tr as (-> & Tr). split; [reflexivity|].
           destruct Tr as [(-> & Tr)|(-> & Tr)]; [left|right; split; [reflexivity|]].
           ++ split; [reflexivity|]. intros y Hy. apply Tr in Hy as [Hy|Hy]; [left; apply in_or_app; now right|].
              apply in_app_or in Hy as [Hy|Hy]; [now right|]. left. apply in_or_app. left. apply (Permutation_in _ (Permutation_sym P)), Hy.
           ++ rewrite app_length, (Permutation_length P). subst upd'. cbn [length]. lia.
      * injection E as <- <-. exists (order s upd'). split; [eapply Permutation_NoDup; [apply Permutation_sym, P|exact Hu]|].
        split; [intros y Hy; apply (Permutation_in _ P) in Hy; auto|]. rewrite E1. auto.
Qed.
End Loop.

(* ------------------------------------------------------------------ *)
(** ** Loading and refreshing keep configs up to date *)

Section Clean.
Context {V : Type} (u : user V).
Notation clean := (clean u).
Notation load := (load u).

Lemma yields_mono objs objs' (p : prog V) l d : (forall j o, dget j objs = Some o -> dget j objs' = Some o) ->
  yields objs p = Some (l, d) -> yields objs' p = Some (l, d).
Proof.
  intro H. revert l. induction p as [d0|e|j k cont IH]; intros l E; cbn [yields] in E |- *; [exact E|discriminate|].
  destruct (dget j objs) as [o|] eqn:Eo; [|discriminate]. rewrite (H _ _ Eo). destruct (dget k o) as [v|]; [|discriminate].
  destruct (yields objs (cont v)) as [[l0 d0]|] eqn:Ey; [|discriminate]. injection E as <- ->. now rewrite (IH v _ Ey).
Qed.
(** only the items read matter *)
Lemma yields_agree objs objs' (p : prog V) l d : yields objs p = Some (l, d) -> (forall j, In j l -> dget j objs' = dget j objs) ->
  yields objs' p = Some (l, d).
Proof.
  revert l. induction p as [d0|e|j k cont IH]; intros l E H; cbn [yields] in E |- *; [exact E|discriminate|].
  destruct (dget j objs) as [o|] eqn:Eo; [|discriminate]. destruct (dget k o) as [v|] eqn:Ek; [|discriminate].
  destruct (yields objs (cont v)) as [[l0 d0]|] eqn:Ey; [|discriminate]. injection E as <- ->.
  rewrite (H j) by (now left). rewrite Eo, Ek. rewrite (IH v _ Ey); [reflexivity|]. intros j' Hj. apply H. now right.
Qed.
Lemma yields_rank rank i objs (p : prog V) l d : reads_before rank i p -> yields objs p = Some (l, d) -> forall j, In j l -> rank j < rank i.
Proof.
  intro H. revert l. induction H as [d0|e|j k cont Hj _ IH]; intros l E x Hx; cbn [yields] in E; [injection E as <- <-; destruct Hx|discriminate|].
  destruct (dget j objs) as [o|]; [|discriminate]. destruct (dget k o) as [v|]; [|discriminate].
  destruct (yields objs (cont v)) as [[l0 d0]|] eqn:Ey; [|discriminate]. injection E as <- <-. destruct Hx as [<-|Hx]; [exact Hj|eauto].
Qed.
Lemma yields_wf objs (p : prog V) l d : yields objs p = Some (l, d) -> dwf d.
Proof.
  revert l. induction p as [d0|e|j k cont IH]; intros l E; cbn [yields] in E; [|discriminate|].
  - injection E as <- <-. apply dict_of_wf.
  - destruct (dget j objs) as [o|]; [|discriminate]. destruct (dget k o) as [v|]; [|discriminate].
    destruct (yields objs (cont v)) as [[l0 d0]|] eqn:Ey; [|discriminate]. injection E as <- <-. eauto.
Qed.

Definition ext (s s' : st V) : Prop :=
  (forall j o, dget j (objs s) = Some o -> dget j (objs s') = Some o) /\
  (forall j x, In x (dependents j s) -> In x (dependents j s')) /\
  (st_wf s -> st_wf s' /\ forall x, clean s x -> clean s' x).

Lemma ext_refl s : ext s s. Proof. split; [|split]; auto. Qed.
Lemma ext_trans s1 s2 s3 : ext s1 s2 -> ext s2 s3 -> ext s1 s3.
Proof.
  intros (A1 & B1 & C1) (A2 & B2 & C2). split; [auto|]. split; [auto|]. intro W. destruct (C1 W) as (W2 & D1), (C2 W2) as (W3 & D2). auto.
Qed.

Lemma clean_mono s s' x : dget x (cfgs s') = dget x (cfgs s) ->
  (forall j o, dget j (objs s) = Some o -> dget j (objs s') = Some o) -> (forall j y, In y (dependents j s) -> In y (dependents j s')) ->
  clean s x -> clean s' x.
Proof.
  intros Hc Ho Hd C c Ec. rewrite Hc in Ec. destruct (C c Ec) as (l & d & Y & D & U). exists l, d.
  split; [eapply yields_mono; eassumption|]. auto.
Qed.

Lemma dependents_add i j (s : st V) k x : In x (dependents k (add_dependency i j s)) <-> In x (dependents k s) \/ (x = i /\ k = j /\ i <> j).
Proof.
  unfold add_dependency. destruct (String.eqb_spec i j) as [->|Hne]; [tauto|]. unfold dependents at 1. cbn [forced]. rewrite dget_dset.
  destruct (String.eqb_spec k j) as [->|Hk]; [rewrite In_set_add; tauto|]. fold (dependents k s). tauto.
Qed.
Lemma add_dependency_other i j (s : st V) : cfgs (add_dependency i j s) = cfgs s /\ objs (add_dependency i j s) = objs s.
Proof. unfold add_dependency. destruct (String.eqb i j); auto. Qed.

Lemma ext_add i j s : ext s (add_dependency i j s).
Proof.
  destruct (add_dependency_other i j s) as [A B]. split; [rewrite B; auto|]. split; [intros k x H; apply dependents_add; now left|].
  intro W. split; [intros k c; rewrite A; apply W|]. intros x. apply clean_mono; [now rewrite A|rewrite B; auto|].
  intros k y H; apply dependents_add; now left.
Qed.

Variable rank : string -> nat.
Hypothesis Hac : acyclic u rank.

(** [ld] loads an item, and otherwise only items before it *)
Definition loads (ld : string -> M (st V) unit) : Prop :=
  forall j s, ext s (fst (ld j s)) /\ (snd (ld j s) = Ok tt -> dget j (objs (fst (ld j s))) <> None) /\
    forall i, rank j < rank i -> dget i (objs (fst (ld j s))) = dget i (objs s).

Lemma by_view_loads ld : loads ld -> loads (by_view ld).
Proof.
  intros L j s. assert (X := L j s). unfold by_view. destruct (ld j s) as [s1 [[]|e]]; [exact X|].
  destruct e; cbn [fst snd] in *; (split; [apply X|split; [discriminate|apply X]]).
Qed.
Lemma exec_ext ld i : loads ld -> forall p s, ext s (fst (exec ld i p s)).
Proof.
  intros L p. induction p as [d|e|j k cont IH]; intro s; [apply ext_refl|apply ext_refl|].
  cbn [exec]. unfold bind, modify, gets. destruct (by_view_loads ld L j (add_dependency i j s)) as [E _].
  assert (X := ext_trans _ _ _ (ext_add i j s) E). destruct (by_view ld j (add_dependency i j s)) as [s1 [[]|e]]; [|exact X]. cbn [fst] in X, E.
  destruct (dget j (objs s1)) as [o|]; [|exact X]. destruct (dget k o) as [v|]; [|exact X]. eapply ext_trans; [exact X|apply IH].
Qed.

Lemma exec_yields ld i : loads ld -> forall p s s' d, exec ld i p s = (s', Ok d) ->
  exists l, yields (objs s') p = Some (l, d) /\ forall j, In j l -> j = i \/ In i (dependents j s').
Proof.
  intros L p. induction p as [d0|e|j k cont IH]; intros s s' d E; cbn [exec] in E.
  - injection E as <- <-. exists []. split; [reflexivity|]. intros j [].
  - discriminate.
  - unfold bind, modify, gets in E. assert (X := proj1 (by_view_loads ld L j (add_dependency i j s))).
    destruct (by_view ld j (add_dependency i j s)) as [s1 [[]|e]] eqn:E1; [|discriminate]. cbn [fst] in X.
    destruct (dget j (objs s1)) as [o|] eqn:Eo; [|discriminate]. destruct (dget k o) as [v|] eqn:Ek; [|discriminate].
    destruct (IH v s1 s' d E) as (l & Y & D). assert (X2 := exec_ext ld i L (cont v) s1). rewrite E in X2. cbn [fst] in X2.
    destruct X2 as (X2 & X3 & _). exists (j :: l). cbn [yields]. rewrite (X2 _ _ Eo), Ek, Y. split; [reflexivity|].
    intros j' [<-|Hj]; [|auto]. destruct (String.eqb_spec j i) as [->|Hne]; [now left|right]. apply X3. destruct X as (_ & X & _). apply X.
    apply dependents_add. right. auto.
Qed.

Lemma exec_objs ld i : loads ld -> forall p, reads_before rank i p -> forall s x, rank i <= rank x ->
  dget x (objs (fst (exec ld i p s))) = dget x (objs s).
Proof.
  intros L p H. induction H as [d|e|j k cont Hj _ IH]; intros s x Hx; [reflexivity|reflexivity|].
  cbn [exec]. unfold bind, modify, gets. destruct (by_view_loads ld L j (add_dependency i j s)) as (_ & _ & E). specialize (E x ltac:(lia)).
  rewrite (proj2 (add_dependency_other i j s)) in E.
  destruct (by_view ld j (add_dependency i j s)) as [s1 [[]|e]]; [|exact E]. cbn [fst] in E.
  destruct (dget j (objs s1)) as [o|]; [|exact E]. destruct (dget k o) as [v|]; [|exact E]. rewrite IH by exact Hx. exact E.
Qed.

Lemma exec_yields' ld i s s' d : loads ld -> exec ld i (u_file u i) s = (s', Ok d) ->
  exists l, yields (objs s') (u_file u i) = Some (l, d) /\ (forall j, In j l -> In i (dependents j s')) /\ dwf d.
Proof.
  intros L E. destruct (exec_yields ld i L _ _ _ _ E) as (l & Y & D). exists l. split; [exact Y|]. split; [|eapply yields_wf; exact Y].
  intros j Hj. assert (R := yields_rank rank i _ _ _ _ (Hac i) Y j Hj). destruct (D j Hj) as [->|]; [lia|assumption].
Qed.

Definition state_set_cfg (i : string) (c : conf V) (s : st V) : st V := St (dset i c (cfgs s)) (objs s) (forced s).

Lemma set_cfg_wf i c s : dwf (applied c) -> st_wf s -> st_wf (state_set_cfg i c s).
Proof. intros Hc W j c'. cbn [state_set_cfg cfgs]. rewrite dget_dset. destruct (String.eqb j i); [intros [= <-]; exact Hc|apply W]. Qed.
Lemma set_cfg_clean_other i c s x : x <> i -> clean s x -> clean (state_set_cfg i c s) x.
Proof. intros Hx. apply clean_mono; auto. cbn [state_set_cfg cfgs]. rewrite dget_dset. destruct (String.eqb_spec x i); [contradiction|reflexivity]. Qed.
Lemma set_cfg_clean_same i c s l d : yields (objs s) (u_file u i) = Some (l, d) -> (forall j, In j l -> In i (dependents j s)) ->
  up_to_date u (vals c) (dupdate d (applied c)) -> clean (state_set_cfg i c s) i.
Proof.
  intros Y D U c' E. cbn [state_set_cfg cfgs] in E. rewrite dget_dset_eq in E. injection E as <-. exists l, d. auto.
Qed.
Lemma ext_set_cfg i c s : dwf (applied c) -> (st_wf s -> clean s i -> clean (state_set_cfg i c s) i) -> ext s (state_set_cfg i c s).
Proof.
  intros Hc H. split; [auto|]. split; [auto|]. intro W. split; [now apply set_cfg_wf|]. intros x Hx.
  destruct (String.eqb_spec x i) as [->|Hne]; [auto|]. now apply set_cfg_clean_other.
Qed.

(** applying updates to the values and to the persisted updates *)
Lemma up_to_date_update c d kw : dwf d -> dwf (applied c) -> dwf kw -> up_to_date u (vals c) (dupdate d (applied c)) ->
  up_to_date u (dupdate (vals c) kw) (dupdate d (dupdate (applied c) kw)).
Proof.
  intros Wd Wa Wk U k v w. rewrite dget_dupdate by (now apply dupdate_wf). rewrite !dget_dupdate by assumption. specialize (U k v w).
  rewrite dget_dupdate in U by assumption. destruct (dget k kw) as [x|]; [intros [= <-] [= <-]; now left|]. exact U.
Qed.
Lemma up_to_date_refresh c d : dwf d -> dwf (applied c) -> up_to_date u (dupdate (vals c) (dupdate d (applied c))) (dupdate d (applied c)).
Proof.
  intros Wd Wa k v w H. rewrite dget_dupdate by (now apply dupdate_wf). rewrite H. intros [= <-]. now left.
Qed.

Lemma own_config_eq ld i s : own_config u ld i s =
  match dget i (cfgs s) with
  | Some c => (s, Ok c)
  | None => match exec ld i (u_file u i) s with
            | (s1, Ok d) => (state_set_cfg i (Conf d []) s1, Ok (Conf d []))
            | (s1, Raise e) => (s1, Raise e)
            end
  end.
Proof. unfold own_config, bind, gets. destruct (dget i (cfgs s)); reflexivity. Qed.

Definition with_inherited (i : string) (c : conf V) : conf V :=
  match vals c with [] => c | _ => cfg_update c (dict_of (u_inherited u i)) true end.
Lemma config_get_eq ld i s : config_get u ld i s =
  match own_config u ld i s with
  | (s1, Ok c) => (state_set_cfg i (with_inherited i c) s1, Ok (with_inherited i c))
  | (s1, Raise e) => (s1, Raise e)
  end.
Proof. reflexivity. Qed.

Lemma own_config_ext ld i : loads ld -> forall s, ext s (fst (own_config u ld i s)) /\
  forall c, snd (own_config u ld i s) = Ok c -> dget i (cfgs (fst (own_config u ld i s))) = Some c.
Proof.
  intros L s. rewrite own_config_eq. destruct (dget i (cfgs s)) as [c|] eqn:Ec.
  - cbn [fst snd]. split; [apply ext_refl|]. intros c' [= <-]. exact Ec.
  - assert (X := exec_ext ld i L (u_file u i) s). destruct (exec ld i (u_file u i) s) as [s1 [d|e]] eqn:E; [|split; [exact X|discriminate]].
    cbn [fst] in X. destruct (exec_yields' ld i s s1 d L E) as (l & Y & D & Wd). cbn [fst snd]. split.
    + eapply ext_trans; [exact X|]. apply ext_set_cfg; [apply dwf_nil|].
      intros _ _. eapply set_cfg_clean_same; [exact Y|exact D|]. intros k v w H1 H2. cbn [vals applied] in *. rewrite dupdate_nil_r in H1. left. congruence.
    + intros c [= <-]. apply dget_dset_eq.
Qed.

Lemma with_inherited_wf i c : dwf (applied c) -> dwf (applied (with_inherited i c)).
Proof. intro H. unfold with_inherited. destruct (vals c); [exact H|]. cbn. now apply dupdate_wf. Qed.
Lemma with_inherited_clean i c s : st_wf s -> dget i (cfgs s) = Some c -> clean s i -> clean (state_set_cfg i (with_inherited i c) s) i.
Proof.
  intros W Hc C. destruct (C c Hc) as (l & d & Y & D & U). eapply set_cfg_clean_same; [exact Y|exact D|]. unfold with_inherited.
  destruct (vals c) eqn:Ev; [now rewrite Ev|]. rewrite <- Ev in U. cbn [cfg_update vals applied].
  apply up_to_date_update; [eapply yields_wf; exact Y|exact (W _ _ Hc)|apply dict_of_wf|exact U].
Qed.

Lemma config_get_ext ld i : loads ld -> forall s, ext s (fst (config_get u ld i s)) /\
  forall c, snd (config_get u ld i s) = Ok c -> dget i (cfgs (fst (config_get u ld i s))) = Some c.
Proof.
  intros L s. rewrite config_get_eq. destruct (own_config_ext ld i L s) as [X Hc]. destruct (own_config u ld i s) as [s1 [c|e]]; [|split; [exact X|discriminate]].
  cbn [fst snd] in X, Hc |- *. specialize (Hc c eq_refl).
  split; [|intros c0 [= <-]; apply dget_dset_eq]. eapply ext_trans; [exact X|].
  split; [auto|]. split; [auto|]. intro W. split; [apply set_cfg_wf; [apply with_inherited_wf; exact (W _ _ Hc)|exact W]|].
  intros x Hx. destruct (String.eqb_spec x i) as [->|Hne]; [|now apply set_cfg_clean_other]. now apply with_inherited_clean.
Qed.

Lemma ext_new_obj i o s : dget i (objs s) = None -> ext s (St (cfgs s) (dset i o (objs s)) (forced s)).
Proof.
  intro H. assert (A : forall j x, dget j (objs s) = Some x -> dget j (dset i o (objs s)) = Some x).
  { intros j x Hj. rewrite dget_dset. destruct (String.eqb_spec j i); [congruence|exact Hj]. }
  split; [exact A|]. split; [auto|]. intro W. split; [exact W|]. intros x. now apply clean_mono.
Qed.

Lemma own_config_objs ld i : loads ld -> forall s x, rank i <= rank x -> dget x (objs (fst (own_config u ld i s))) = dget x (objs s).
Proof.
  intros L s x Hx. rewrite own_config_eq. destruct (dget i (cfgs s)); [reflexivity|].
  assert (X := exec_objs ld i L _ (Hac i) s x Hx). destruct (exec ld i (u_file u i) s) as [s1 [d|e]]; exact X.
Qed.
Lemma config_get_objs ld i : loads ld -> forall s x, rank i <= rank x -> dget x (objs (fst (config_get u ld i s))) = dget x (objs s).
Proof.
  intros L s x Hx. rewrite config_get_eq. assert (X := own_config_objs ld i L s x Hx). destruct (own_config u ld i s) as [s1 [d|e]]; exact X.
Qed.

Lemma load_eq n i s : load (S n) i s =
  match dget i (objs s) with
  | Some _ => (s, Ok tt)
  | None => match config_get u (load n) i s with
            | (s1, Ok c) => match u_init u i (vals c) with
                            | Ok o => (St (cfgs s1) (dset i o (objs s1)) (forced s1), Ok tt)
                            | Raise e => (s1, Raise e)
                            end
            | (s1, Raise e) => (s1, Raise e)
            end
  end.
Proof.
  cbn [Deps_Model.load]. unfold bind, gets. destruct (dget i (objs s)); [reflexivity|]. destruct (config_get u (load n) i s) as [s1 [c|e]]; [|reflexivity].
  unfold lift. destruct (u_init u i (vals c)); reflexivity.
Qed.

(** a failed load leaves everything up to date, too *)
Lemma load_loads n : loads (load n).
Proof.
  induction n as [|n IH]; intros i s; [split; [apply ext_refl|]; split; [discriminate|reflexivity]|]. rewrite load_eq.
  destruct (dget i (objs s)) as [o|] eqn:Eo; [split; [apply ext_refl|split; [intros _; cbn; congruence|reflexivity]]|].
  destruct (config_get_ext (load n) i IH s) as [X _]. assert (O := config_get_objs (load n) i IH s).
  destruct (config_get u (load n) i s) as [s1 [c|e]]; [|split; [exact X|split; [discriminate|intros x Hx; apply O; lia]]].
  cbn [fst] in X, O. destruct (u_init u i (vals c)) as [o|e]; [|split; [exact X|split; [discriminate|intros x Hx; apply O; lia]]].
  cbn [fst snd]. split; [|split; [intros _; cbn [objs]; rewrite dget_dset_eq; discriminate|]].
  - eapply ext_trans; [exact X|]. apply ext_new_obj. rewrite O by lia. exact Eo.
  - intros x Hx. cbn [objs]. rewrite dget_dset. destruct (String.eqb_spec x i) as [->|]; [lia|]. apply O. lia.
Qed.

(* ---- refreshing ---- *)

Lemma would_update_false c all : dwf all -> would_update u c all = false -> up_to_date u c all.
Proof.
  intros W H k v w H1 H2. right. apply dget_Some_In in H1. unfold would_update in H.
  destruct (u_eq u w v) eqn:E; [reflexivity|]. exfalso. assert (X : existsb (fun kv => match dget (fst kv) c with Some w => negb (u_eq u w (snd kv)) | None => false end) all = true).
  { apply existsb_exists. exists (k, v). split; [exact H1|]. cbn [fst snd]. now rewrite H2, E. }
  congruence.
Qed.

(** changing an object makes at most those stale that are recorded as its dependents *)
Lemma set_obj_clean i o s x : clean s x -> (x = i \/ ~ In x (dependents i s)) -> clean (St (cfgs s) (dset i o (objs s)) (forced s)) x.
Proof.
  intros C H c Ec. destruct (C c Ec) as (l & d & Y & D & U). exists l, d. split; [|split; [exact D|exact U]].
  cbn [objs]. eapply yields_agree; [exact Y|]. intros j Hj. rewrite dget_dset. destruct (String.eqb_spec j i) as [->|]; [|reflexivity].
  exfalso. destruct H as [->|H]; [|now apply H, D]. assert (R := yields_rank rank i _ _ _ _ (Hac i) Y i Hj). lia.
Qed.

(** refreshing [i] makes it up to date and keeps the others so *)
Definition refreshes (f : string -> M (st V) unit) : Prop :=
  forall i s s', st_wf s -> f i s = (s', Ok tt) -> st_wf s' /\ forall x, (x = i \/ clean s x) -> clean s' x.

Lemma iter_refreshes f : refreshes f -> forall l s s', st_wf s -> iterM f l s = (s', Ok tt) ->
  st_wf s' /\ forall x, (In x l \/ clean s x) -> clean s' x.
Proof.
  intros F l. induction l as [|i l IH]; intros s s' W E; cbn [iterM] in E.
  - injection E as <-. split; [exact W|]. intros x [[]|]; assumption.
  - unfold bind in E. destruct (f i s) as [s1 [[]|e]] eqn:E1; [|discriminate]. destruct (F i s s1 W E1) as [W1 C1].
    destruct (IH s1 s' W1 E) as [W2 C2]. split; [exact W2|]. intros x [[->|H]|H]; apply C2; auto.
Qed.

Hypothesis Hord : set_order u.

Lemma dep_loop_refreshes f j n : refreshes f -> forall upd done s s', st_wf s -> dep_loop (dependents j) (u_order u) f n upd done s = (s', Ok tt) ->
  st_wf s' /\ forall x, (In x upd \/ clean s x) -> clean s' x.
Proof.
  intro F. induction n as [|n IH]; intros upd done s s' W E.
  - destruct upd; [|discriminate]. injection E as <-. split; [exact W|]. intros x [[]|]; assumption.
  - destruct upd as [|y upd]; [injection E as <-; split; [exact W|]; intros x [[]|]; assumption|].
    rewrite dep_loop_eq in E by discriminate. destruct (iterM f (u_order u s (y :: upd)) s) as [s1 [[]|e]] eqn:E1; [|discriminate].
    destruct (iter_refreshes f F _ _ _ W E1) as [W1 C1]. destruct (IH _ _ _ _ W1 E) as [W2 C2]. split; [exact W2|].
    intros x H. apply C2. right. apply C1. destruct H as [H|H]; [left|now right]. apply (Permutation_in _ (Permutation_sym (Hord s _))), H.
Qed.

Lemma refresh_dependents_refreshes f j n s s' : refreshes f -> st_wf s -> refresh_dependents u f n j s = (s', Ok tt) ->
  st_wf s' /\ forall x, (In x (dependents j s) \/ clean s x) -> clean s' x.
Proof. intros F W E. unfold refresh_dependents, bind, gets in E. eapply dep_loop_refreshes; eassumption. Qed.

(** a changed object, then its dependents *)
Lemma changed_object f n i o s s' : refreshes f -> st_wf s ->
  refresh_dependents u f n i (St (cfgs s) (dset i o (objs s)) (forced s)) = (s', Ok tt) ->
  st_wf s' /\ forall x, clean s x -> clean s' x.
Proof.
  intros F W E. set (s1 := St (cfgs s) (dset i o (objs s)) (forced s)) in *. destruct (refresh_dependents_refreshes f i n s1 s' F W E) as [W' C].
  split; [exact W'|]. intros x Hx. apply C. destruct (in_dec string_dec x (dependents i s1)) as [H|H]; [now left|right].
  apply set_obj_clean; [exact Hx|now right].
Qed.

Lemma refresh_eq n i s : refresh u (S n) i s =
  match own_config u (load n) i s with
  | (s1, Raise e) => (s1, Raise e)
  | (s1, Ok _) =>
  match exec (load n) i (u_file u i) s1 with
  | (s2, Raise e) => (s2, Raise e)
  | (s2, Ok d) =>
  match own_config u (load n) i s2 with
  | (s3, Raise e) => (s3, Raise e)
  | (s3, Ok c) =>
  if would_update u (vals c) (dupdate d (applied c)) then
    match exec (load n) i (u_file u i) s3 with
    | (s4, Raise e) => (s4, Raise e)
    | (s4, Ok d) =>
    match own_config u (load n) i s4 with
    | (s5, Raise e) => (s5, Raise e)
    | (s5, Ok c) =>
      let s6 := state_set_cfg i (cfg_update c (dupdate d (applied c)) false) s5 in
      match dget i (objs s6) with
      | None => (s6, Ok tt)
      | Some o =>
          match config_get u (load n) i s6 with
          | (s7, Raise e) => (s7, Raise e)
          | (s7, Ok c) =>
              match u_apply u i o (vals c) with
              | Raise e => (s7, Raise e)
              | Ok o' => refresh_dependents u (refresh u n) n i (St (cfgs s7) (dset i o' (objs s7)) (forced s7))
              end
          end
      end
    end
    end
  else (s3, Ok tt)
  end
  end
  end.
Proof.
  cbn [refresh]. unfold bind at 1. destruct (own_config u (load n) i s) as [s1 [c1|e]]; [|reflexivity].
  unfold bind at 1. destruct (exec (load n) i (u_file u i) s1) as [s2 [d|e]]; [|reflexivity].
  unfold bind at 1. destruct (own_config u (load n) i s2) as [s3 [c|e]]; [|reflexivity].
  destruct (would_update u (vals c) (dupdate d (applied c))); [|reflexivity].
  unfold bind at 1. destruct (exec (load n) i (u_file u i) s3) as [s4 [d'|e]]; [|reflexivity].
  unfold bind at 1. destruct (own_config u (load n) i s4) as [s5 [c'|e]]; [|reflexivity].
  unfold bind at 1. unfold set_cfg at 1, modify at 1. fold (state_set_cfg i (cfg_update c' (dupdate d' (applied c')) false) s5).
  cbv zeta. set (s6 := state_set_cfg i _ s5). unfold bind at 1. unfold gets at 1. destruct (dget i (objs s6)) as [o|]; [|reflexivity].
  unfold bind at 1. destruct (config_get u (load n) i s6) as [s7 [c2|e]]; [|reflexivity].
  unfold bind at 1. unfold apply_to_loaded, bind, lift. destruct (u_apply u i o (vals c2)); reflexivity.
Qed.

Lemma refresh_refreshes n : refreshes (refresh u n).
Proof.
  induction n as [|n IH]; intros i s s' W E; [discriminate|]. rewrite refresh_eq in E. assert (L := load_loads n).
  destruct (own_config_ext (load n) i L s) as [X1 _]. destruct (own_config u (load n) i s) as [s1 [c1|e]]; [|discriminate]. cbn [fst snd] in X1.
  assert (X2 := exec_ext (load n) i L (u_file u i) s1). destruct (exec (load n) i (u_file u i) s1) as [s2 [d|e]] eqn:E2; [|discriminate]. cbn [fst] in X2.
  destruct (exec_yields' _ _ _ _ _ L E2) as (l & Y & D & Wd).
  destruct (own_config_ext (load n) i L s2) as [X3 Hc]. destruct (own_config u (load n) i s2) as [s3 [c|e]]; [|discriminate]. cbn [fst snd] in X3, Hc.
  specialize (Hc c eq_refl). assert (X := ext_trans _ _ _ (ext_trans _ _ _ X1 X2) X3). destruct X as (_ & _ & X). destruct (X W) as [W3 C3].
  destruct (would_update u (vals c) (dupdate d (applied c))) eqn:Ew.
  - assert (X4 := exec_ext (load n) i L (u_file u i) s3). destruct (exec (load n) i (u_file u i) s3) as [s4 [d'|e]] eqn:E4; [|discriminate].
    cbn [fst] in X4. destruct (exec_yields' _ _ _ _ _ L E4) as (l' & Y' & D' & Wd').
    destruct (own_config_ext (load n) i L s4) as [X5 Hc']. destruct (own_config u (load n) i s4) as [s5 [c'|e]]; [|discriminate]. cbn [fst snd] in X5, Hc'.
    specialize (Hc' c' eq_refl). destruct (ext_trans _ _ _ X4 X5) as (_ & _ & X45). destruct (X45 W3) as [W5 C5]. destruct X5 as (O5 & P5 & _).
    cbv zeta in E. set (c6 := cfg_update c' (dupdate d' (applied c')) false) in *. set (s6 := state_set_cfg i c6 s5) in *.
    assert (W6 : st_wf s6) by (apply set_cfg_wf; [exact (W5 _ _ Hc')|exact W5]).
    assert (C6 : forall x, (x = i \/ clean s x) -> clean s6 x).
    { intros x Hx. destruct (String.eqb_spec x i) as [->|Hne].
      - eapply set_cfg_clean_same; [eapply yields_mono; [exact O5|exact Y']|intros j Hj; apply P5; now apply D'|].
        exact (up_to_date_refresh c' d' Wd' (W5 _ _ Hc')).
      - apply set_cfg_clean_other; [exact Hne|]. apply C5, C3. tauto. }
    destruct (dget i (objs s6)) as [o|]; [|injection E as <-; auto].
    destruct (config_get_ext (load n) i L s6) as [X7 _]. destruct (config_get u (load n) i s6) as [s7 [c7|e]]; [|discriminate]. cbn [fst] in X7.
    destruct X7 as (_ & _ & X7). destruct (X7 W6) as [W7 C7]. destruct (u_apply u i o (vals c7)) as [o'|e]; [|discriminate].
    destruct (changed_object _ _ _ _ _ _ IH W7 E) as [W8 C8]. split; [exact W8|]. auto.
  - injection E as <-. split; [exact W3|]. intros x [->|Hx]; [|auto]. intros c0 Hc0. assert (c0 = c) as -> by congruence.
    destruct X3 as (O3 & P3 & _). exists l, d. split; [eapply yields_mono; [exact O3|exact Y]|]. split; [intros j Hj; apply P3; now apply D|].
    apply would_update_false; [now apply dupdate_wf|exact Ew].
Qed.

Lemma update_eq n i d persist s : update u n i d persist s =
  match own_config u (load n) i s with
  | (s1, Raise e) => (s1, Raise e)
  | (s1, Ok c) =>
    if would_update u (vals c) (dict_of d) then
      let s2 := state_set_cfg i (cfg_update c (dict_of d) persist) s1 in
      match dget i (objs s2) with
      | None => (s2, Ok tt)
      | Some o => match u_apply u i o (vals (cfg_update c (dict_of d) persist)) with
                  | Raise e => (s2, Raise e)
                  | Ok o' => refresh_dependents u (refresh u n) n i (St (cfgs s2) (dset i o' (objs s2)) (forced s2))
                  end
      end
    else (s1, Ok tt)
  end.
Proof.
  unfold update. unfold bind at 1. destruct (own_config u (load n) i s) as [s1 [c|e]]; [|reflexivity].
  destruct (would_update u (vals c) (dict_of d)); [|reflexivity]. unfold bind at 1. unfold set_cfg at 1, modify at 1.
  fold (state_set_cfg i (cfg_update c (dict_of d) persist) s1). cbv zeta. set (s2 := state_set_cfg i _ s1).
  unfold bind at 1. unfold gets at 1. destruct (dget i (objs s2)) as [o|]; [|reflexivity].
  unfold bind at 1. unfold apply_to_loaded, bind, lift. destruct (u_apply u i o _); reflexivity.
Qed.

Lemma update_clean n i d persist s s' : st_wf s -> update u n i d persist s = (s', Ok tt) ->
  st_wf s' /\ forall x, clean s x -> (persist = true \/ x <> i) -> clean s' x.
Proof.
  intros W E. rewrite update_eq in E. assert (L := load_loads n).
  destruct (own_config_ext (load n) i L s) as [X1 Hc]. destruct (own_config u (load n) i s) as [s1 [c|e]]; [|discriminate]. cbn [fst snd] in X1, Hc.
  specialize (Hc c eq_refl). destruct X1 as (_ & _ & X1). destruct (X1 W) as [W1 C1].
  destruct (would_update u (vals c) (dict_of d)); [|injection E as <-; auto].
  cbv zeta in E. set (c2 := cfg_update c (dict_of d) persist) in *. set (s2 := state_set_cfg i c2 s1) in *.
  assert (W2 : st_wf s2). { apply set_cfg_wf; [|exact W1]. unfold c2. cbn. destruct persist; [apply dupdate_wf|]; exact (W1 _ _ Hc). }
  assert (C2 : forall x, clean s x -> (persist = true \/ x <> i) -> clean s2 x).
  { intros x Hx Hp. destruct (String.eqb_spec x i) as [->|Hne]; [|now apply set_cfg_clean_other, C1].
    destruct Hp as [->|]; [|contradiction]. destruct (C1 _ Hx c Hc) as (l & d0 & Y & D & U).
    eapply set_cfg_clean_same; [exact Y|exact D|]. exact (up_to_date_update c d0 (dict_of d) (yields_wf _ _ _ _ Y) (W1 _ _ Hc) (dict_of_wf _) U). }
  destruct (dget i (objs s2)) as [o|]; [|injection E as <-; auto].
  destruct (u_apply u i o (vals c2)) as [o'|e]; [|discriminate]. destruct (changed_object _ _ _ _ _ _ (refresh_refreshes n) W2 E) as [W3 C3].
  split; [exact W3|]. auto.
Qed.
End Clean.
