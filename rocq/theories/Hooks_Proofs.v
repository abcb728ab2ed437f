(** Proofs about hooks that raise (C107). *)
From Verif Require Export Hooks_Spec.
From Verif Require Deps_Model.
Local Open Scope string_scope.
Local Open Scope list_scope.
Local Open Scope monad_scope.

Lemma leaves_spec e : user_interrupt e = true <-> leaves e.
Proof.
  unfold leaves; destruct e; cbn; split; try congruence; try tauto; try (intros [H | [H | H]]; congruence).
  - intros H. apply String.eqb_eq in H. subst. tauto.
  - intros [H | [H | H]]; try congruence. injection H as ->. reflexivity.
Qed.
Lemma not_leaves e : user_interrupt e = false <-> ~ leaves e.
Proof. rewrite <- leaves_spec. destruct (user_interrupt e); split; congruence. Qed.

Section S.
Context {W : Type}.

Lemma call_hooks_answers {A} : forall (hs : list (M W (option A))) s s' l, call_hooks hs s = (s', Ok l) <-> answers hs s l s'.
Proof.
  induction hs as [|h hs IH]; intros s s' l; cbn [call_hooks]; unfold bind, ret.
  - split; [intros [= -> <-]; constructor | intros H; inversion H; reflexivity].
  - split.
    + destruct (h s) as [s1 [x|e]] eqn:E; [|discriminate].
      destruct (call_hooks hs s1) as [s2 [l1|e]] eqn:E1; [|discriminate].
      apply IH in E1. intros [= <- <-]. destruct x; econstructor; eassumption.
    + intros H; inversion H; subst;
        match goal with E : h s = _ |- _ => rewrite E end;
        match goal with H : answers hs _ _ _ |- _ => apply IH in H; rewrite H end; reflexivity.
Qed.
Lemma call_hooks_raised {A} : forall (hs : list (M W (option A))) s s' e, call_hooks hs s = (s', Raise e) <-> raised hs s e s'.
Proof.
  induction hs as [|h hs IH]; intros s s' e; cbn [call_hooks]; unfold bind, ret.
  - split; [discriminate|]. intros (h1 & h & h2 & l & s1 & E & _). destruct h1; discriminate.
  - split.
    + destruct (h s) as [s1 [x|e1]] eqn:E.
      * destruct (call_hooks hs s1) as [s2 [l1|e2]] eqn:E1; [discriminate|].
        intros [= <- <-]. apply IH in E1. destruct E1 as (h1 & h0 & h2 & l & s3 & -> & An & R).
        destruct x; eexists (h :: h1), h0, h2, _, s3; (repeat split; [econstructor; eassumption | exact R]).
      * intros [= <- <-]. exists [], h, hs, [], s. repeat split; [constructor | exact E].
    + intros (h1 & h0 & h2 & l & s1 & E & An & R). destruct h1 as [|h' h1]; injection E as -> ->.
      * inversion An; subst. rewrite R. reflexivity.
      * inversion An; subst;
          match goal with E : h' s = _ |- _ => rewrite E end;
          assert (X : call_hooks (h1 ++ h0 :: h2) s2 = (s', Raise e)) by (apply IH; do 5 eexists; eauto); rewrite X; reflexivity.
Qed.

Lemma mapM_done {B C} (f : B -> M W C) : forall l s s' cs, mapM f l s = (s', Ok cs) <-> done f l s cs s'.
Proof.
  induction l as [|x l IH]; intros s s' cs; cbn [mapM]; unfold bind, ret.
  - split; [intros [= -> <-]; constructor | intros H; inversion H; reflexivity].
  - split.
    + destruct (f x s) as [s1 [c|e]] eqn:E; [|discriminate].
      destruct (mapM f l s1) as [s2 [l1|e]] eqn:E1; [|discriminate].
      apply IH in E1. intros [= <- <-]. econstructor; eassumption.
    + intros H; inversion H; subst.
      match goal with E : f x s = _ |- _ => rewrite E end.
      match goal with H : done f l _ _ _ |- _ => apply IH in H; rewrite H end. reflexivity.
Qed.
Lemma mapM_broke {B C} (f : B -> M W C) : forall l s s' e, mapM f l s = (s', Raise e) <-> broke f l s e s'.
Proof.
  induction l as [|x l IH]; intros s s' e; cbn [mapM]; unfold bind, ret.
  - split; [discriminate|]. intros (l1 & x & l2 & cs & s1 & E & _). destruct l1; discriminate.
  - split.
    + destruct (f x s) as [s1 [c|e1]] eqn:E.
      * destruct (mapM f l s1) as [s2 [l1|e2]] eqn:E1; [discriminate|].
        intros [= <- <-]. apply IH in E1. destruct E1 as (l1 & x0 & l2 & cs & s3 & -> & D & R).
        exists (x :: l1), x0, l2, (c :: cs), s3. repeat split; [econstructor; eassumption | exact R].
      * intros [= <- <-]. exists [], x, l, [], s. repeat split; [constructor | exact E].
    + intros (l1 & x0 & l2 & cs & s1 & E & D & R). destruct l1 as [|x' l1]; injection E as -> ->.
      * inversion D; subst. rewrite R. reflexivity.
      * inversion D; subst.
        match goal with E : f x' s = _ |- _ => rewrite E end.
        assert (X : mapM f (l1 ++ x0 :: l2) s2 = (s', Raise e)) by (apply IH; do 5 eexists; eauto). rewrite X. reflexivity.
Qed.
Lemma iterM_mapM {B} (f : B -> M W unit) : forall l s, iterM f l s = (mapM f l ;;; ret tt) s.
Proof.
  induction l as [|x l IH]; intros s; cbn [mapM iterM]; unfold bind, ret in *; [reflexivity|].
  destruct (f x s) as [s1 [c|e]]; [|reflexivity]. rewrite IH. destruct (mapM f l s1) as [s2 [l1|e]]; reflexivity.
Qed.
Lemma iterM_done {B} (f : B -> M W unit) l s s' : iterM f l s = (s', Ok tt) <-> exists us, done f l s us s'.
Proof.
  rewrite iterM_mapM. unfold bind, ret. destruct (mapM f l s) as [s1 [us|e]] eqn:E.
  - split; [intros [= <-]; exists us; now apply mapM_done | intros [us' H]; apply mapM_done in H; congruence].
  - split; [discriminate | intros [us' H]; apply mapM_done in H; congruence].
Qed.
Lemma iterM_broke {B} (f : B -> M W unit) l s s' e : iterM f l s = (s', Raise e) <-> broke f l s e s'.
Proof.
  rewrite iterM_mapM, <- mapM_broke. unfold bind, ret. destruct (mapM f l s) as [s1 [us|e1]] eqn:E; split; congruence.
Qed.

(* ------------------------------------------------------------------ *)
Section R.
Variable one : string -> M W result.
Variable debug : M W unit.
Variable pre_run : list (run_arg -> M W (option string)).
Variable post_run : list (result -> M W (option result)).

Lemma one_run_model p s s' r : hooked_runner_run one post_run (AStr p) s = (s', r) <-> one_run one post_run p s r s'.
Proof.
  cbn [hooked_runner_run]. unfold bind, ret. split.
  - destruct (one p s) as [s1 [x|e]] eqn:E; [|intros [= <- <-]; now apply or_item].
    destruct (call_hooks _ s1) as [s2 [l|e]] eqn:E1.
    + apply call_hooks_answers in E1. intros [= <- <-]. destruct l; econstructor; eassumption.
    + apply call_hooks_raised in E1. intros [= <- <-]. eapply or_hook; eassumption.
  - intros H; inversion H; subst; match goal with E : one p s = _ |- _ => rewrite E end; try reflexivity.
    + match goal with H : raised _ _ _ _ |- _ => apply call_hooks_raised in H; rewrite H end. reflexivity.
    + match goal with H : answers _ _ _ _ |- _ => apply call_hooks_answers in H; rewrite H end. reflexivity.
    + match goal with H : answers _ _ _ _ |- _ => apply call_hooks_answers in H; rewrite H end. reflexivity.
Qed.
Lemma many_run_model ps s s' r : hooked_runner_run one post_run (AList ps) s = (s', r) <-> many_run one post_run ps s r s'.
Proof.
  cbn [hooked_runner_run]. unfold bind, ret. split.
  - destruct (mapM one ps s) as [s1 [x|e]] eqn:E; [apply mapM_done in E|apply mapM_broke in E; intros [= <- <-]; now apply mr_item].
    destruct (call_hooks _ s1) as [s2 [l|e]] eqn:E1.
    + apply call_hooks_answers in E1. intros [= <- <-]. eapply mr_done; eassumption.
    + apply call_hooks_raised in E1. intros [= <- <-]. eapply mr_hook; eassumption.
  - intros H; inversion H; subst.
    + match goal with H : broke _ _ _ _ _ |- _ => apply mapM_broke in H; rewrite H end. reflexivity.
    + match goal with H : done _ _ _ _ _ |- _ => apply mapM_done in H; rewrite H end.
      match goal with H : raised _ _ _ _ |- _ => apply call_hooks_raised in H; rewrite H end. reflexivity.
    + match goal with H : done _ _ _ _ _ |- _ => apply mapM_done in H; rewrite H end.
      match goal with H : answers _ _ _ _ |- _ => apply call_hooks_answers in H; rewrite H end. reflexivity.
Qed.
Definition as_given (ps : list string) : run_arg := match ps with [p] => AStr p | _ => AList ps end.
Lemma combine_given a extra : combine a extra = as_given (given a ++ extra).
Proof. unfold combine, given, as_given. destruct a; destruct (_ ++ extra) as [|? [|]]; reflexivity. Qed.
Lemma run_of_model ps s s' r :
  hooked_runner_run one post_run (as_given ps) s = (s', r) <-> run_of one post_run ps s r s'.
Proof. destruct ps as [|p [|q l]]; cbn [run_of as_given]; [apply many_run_model | apply one_run_model | apply many_run_model]. Qed.

Lemma pre_run_raises set a s e s' : raised (map (fun h => h a) pre_run) s e s' ->
  hooked_run one debug pre_run post_run set a s = (s', Raise e).
Proof. intros H. apply call_hooks_raised in H. unfold hooked_run, bind. now rewrite H. Qed.

Lemma run_plain a s extra s0 r s' : answers (map (fun h => h a) pre_run) s extra s0 -> run_of one post_run (given a ++ extra) s0 r s' ->
  hooked_run one debug pre_run post_run Plain a s = (s', r).
Proof.
  intros H R. apply call_hooks_answers in H. unfold hooked_run, bind. rewrite H, combine_given. now apply run_of_model.
Qed.

Lemma try_except_spec {A} (m : M W A) s : try_except m s =
  match m s with
  | (s', Ok a) => (s', Ok (inl a))
  | (s', Raise e) => if user_interrupt e then (s', Raise SystemExit) else (s', Ok (inr e))
  end.
Proof. reflexivity. Qed.

Lemma run_auto_pdb a s extra s0 r s' : answers (map (fun h => h a) pre_run) s extra s0 -> run_of one post_run (given a ++ extra) s0 r s' ->
  (forall x, r = Ok x -> hooked_run one debug pre_run post_run AutoPdb a s = (s', Ok x)) /\
  (forall e, r = Raise e -> leaves e -> hooked_run one debug pre_run post_run AutoPdb a s = (s', Raise SystemExit)) /\
  (forall e, r = Raise e -> ~ leaves e -> hooked_run one debug pre_run post_run AutoPdb a s =
     match debug s' with (s2, Ok _) => (s2, Ok (RVal VNone)) | (s2, Raise d) => (s2, Raise d) end).
Proof.
  intros H R. apply call_hooks_answers in H. apply run_of_model in R.
  unfold hooked_run, hooked_auto_pdb, bind. rewrite H, combine_given. rewrite try_except_spec, R. clear.
  repeat split; intros x ->; [reflexivity | |].
  - intros L. apply leaves_spec in L. rewrite L. reflexivity.
  - intros L. apply not_leaves in L. rewrite L. unfold ret. destruct (debug s') as [s2 [?|?]]; reflexivity.
Qed.

Lemma force_loop_forced : forall ps s s' rs es, hooked_force_loop one post_run ps s = (s', Ok (rs, es)) <-> forced one post_run ps s rs es s'.
Proof.
  induction ps as [|p ps IH]; intros s s' rs es; cbn [hooked_force_loop]; unfold bind, ret.
  - split; [intros [= -> <- <-]; constructor | intros H; inversion H; reflexivity].
  - rewrite try_except_spec. split.
    + destruct (hooked_runner_run one post_run (AStr p) s) as [s1 [x|e]] eqn:E; apply one_run_model in E.
      * destruct (hooked_force_loop one post_run ps s1) as [s2 [[rs1 es1]|e]] eqn:E1; [|discriminate].
        apply IH in E1. intros [= <- <- <-]. eapply fo_ok; eassumption.
      * destruct (user_interrupt e) eqn:L; [discriminate|]. apply not_leaves in L.
        destruct (hooked_force_loop one post_run ps s1) as [s2 [[rs1 es1]|e1]] eqn:E1; [|discriminate].
        apply IH in E1. intros [= <- <- <-]. eapply fo_failed; eassumption.
    + intros H; inversion H; subst;
        match goal with H : one_run _ _ p _ _ _ |- _ => apply one_run_model in H; rewrite H end;
        match goal with H : forced _ _ ps _ _ _ _ |- _ => apply IH in H end.
      * match goal with H : hooked_force_loop _ _ ps _ = _ |- _ => now rewrite H end.
      * match goal with H : ~ leaves _ |- _ => apply not_leaves in H; rewrite H end.
        match goal with H : hooked_force_loop _ _ ps _ = _ |- _ => now rewrite H end.
Qed.
Lemma force_loop_left : forall ps s s' e, hooked_force_loop one post_run ps s = (s', Raise e) <-> e = SystemExit /\ forced_left one post_run ps s s'.
Proof.
  induction ps as [|p ps IH]; intros s s' e; cbn [hooked_force_loop]; unfold bind, ret.
  - split; [discriminate|]. intros (_ & ps1 & p & ps2 & rs & es & s1 & e1 & E & _). destruct ps1; discriminate.
  - rewrite try_except_spec. split.
    + destruct (hooked_runner_run one post_run (AStr p) s) as [s1 [x|e1]] eqn:E; apply one_run_model in E.
      * destruct (hooked_force_loop one post_run ps s1) as [s2 [[rs1 es1]|e2]] eqn:E1; [discriminate|].
        apply IH in E1. destruct E1 as (-> & ps1 & q & ps2 & rs & es & s3 & e1 & -> & F & O & L).
        intros [= <- <-]. split; [reflexivity|]. exists (p :: ps1), q, ps2, (x :: rs), es, s3, e1.
        repeat split; [eapply fo_ok; eassumption | exact O | exact L].
      * destruct (user_interrupt e1) eqn:L.
        -- apply leaves_spec in L. intros [= <- <-]. split; [reflexivity|]. exists [], p, ps, [], [], s, e1. repeat split; [constructor | exact E | exact L].
        -- apply not_leaves in L.
           destruct (hooked_force_loop one post_run ps s1) as [s2 [[rs1 es1]|e2]] eqn:E1; [discriminate|].
           apply IH in E1. destruct E1 as (-> & ps1 & q & ps2 & rs & es & s3 & e3 & -> & F & O & L3).
           intros [= <- <-]. split; [reflexivity|]. exists (p :: ps1), q, ps2, rs, ((p, e1) :: es), s3, e3.
           repeat split; [eapply fo_failed; eassumption | exact O | exact L3].
    + intros (-> & ps1 & q & ps2 & rs & es & s1 & e1 & E & F & O & L). destruct ps1 as [|p1 ps1]; injection E as -> ->.
      * inversion F; subst. apply one_run_model in O. rewrite O. apply leaves_spec in L. rewrite L. reflexivity.
      * assert (X : forall s0 rs0 es0, forced one post_run ps1 s0 rs0 es0 s1 ->
          hooked_force_loop one post_run (ps1 ++ q :: ps2) s0 = (s', Raise SystemExit)).
        { intros s0 rs0 es0 F0. apply IH. split; [reflexivity|]. do 7 eexists. eauto. }
        inversion F; subst;
        match goal with H : one_run _ _ p1 _ _ _ |- _ => apply one_run_model in H; rewrite H end.
        -- erewrite X by eassumption. reflexivity.
        -- match goal with H : ~ leaves _ |- _ => apply not_leaves in H; rewrite H end. erewrite X by eassumption. reflexivity.
Qed.

Lemma run_forced a s extra s0 rs es s' : answers (map (fun h => h a) pre_run) s extra s0 ->
  forced one post_run (given a ++ extra) s0 rs es s' ->
  hooked_run one debug pre_run post_run ForceContinue a s = (s', Ok (forced_result (given a ++ extra) rs)).
Proof.
  intros H F. apply call_hooks_answers in H. apply force_loop_forced in F.
  unfold hooked_run, hooked_force, bind, ret. rewrite H, combine_given.
  destruct (given a ++ extra) as [|p [|q l]]; cbn [as_given]; rewrite F; cbn [fst snd forced_result]; try reflexivity; destruct rs as [|? [|]]; reflexivity.
Qed.
Lemma run_forced_left a s extra s0 s' : answers (map (fun h => h a) pre_run) s extra s0 ->
  forced_left one post_run (given a ++ extra) s0 s' ->
  hooked_run one debug pre_run post_run ForceContinue a s = (s', Raise SystemExit).
Proof.
  intros H F. apply call_hooks_answers in H. assert (X := conj (eq_refl SystemExit) F). apply force_loop_left in X.
  unfold hooked_run, hooked_force, bind, ret. rewrite H, combine_given.
  destruct (given a ++ extra) as [|p [|q l]]; cbn [as_given]; rewrite X; reflexivity.
Qed.
End R.

(* ------------------------------------------------------------------ *)
Section U.
Variable do_update : updates -> M W unit.
Variable pre_update : list (updates -> M W (option (dict pyval))).
Variable post_update : list (updates -> M W (option unit)).
Lemma update_pre x s e s' : raised (map (fun h => h x) pre_update) s e s' ->
  hooked_update do_update pre_update post_update x s = (s', fst x, Raise e).
Proof. intros H. apply call_hooks_raised in H. unfold hooked_update. now rewrite H. Qed.
Lemma update_rest x s news s1 : answers (map (fun h => h x) pre_update) s news s1 ->
  let x1 := with_news news x in
  (forall s2 e, do_update x1 s1 = (s2, Raise e) -> hooked_update do_update pre_update post_update x s = (s2, fst x1, Raise e)) /\
  (forall s2 s3 e, do_update x1 s1 = (s2, Ok tt) -> raised (map (fun h => h x1) post_update) s2 e s3 ->
     hooked_update do_update pre_update post_update x s = (s3, fst x1, Raise e)) /\
  (forall s2 s3 l, do_update x1 s1 = (s2, Ok tt) -> answers (map (fun h => h x1) post_update) s2 l s3 ->
     hooked_update do_update pre_update post_update x s = (s3, fst x1, Ok tt)).
Proof.
  intros H x1. apply call_hooks_answers in H. unfold hooked_update, bind, ret. rewrite H. fold x1. repeat split.
  - intros s2 e ->. reflexivity.
  - intros s2 s3 e -> R. apply call_hooks_raised in R. rewrite R. reflexivity.
  - intros s2 s3 l -> R. apply call_hooks_answers in R. rewrite R. reflexivity.
Qed.

Variable upd : Type.
Variable step : upd -> M W unit.
Variable pre_batch : list (list upd -> M W (option (list upd))).
Variable post_batch : list (list upd -> M W (option unit)).
Lemma batch_raises us s e s' : hooked_batch step pre_batch post_batch us s = (s', Raise e) <->
  raised (map (fun h => h us) pre_batch) s e s' \/
  (exists lol s1, answers (map (fun h => h us) pre_batch) s lol s1 /\ broke step (concat lol) s1 e s') \/
  (exists lol s1 l s2, answers (map (fun h => h us) pre_batch) s lol s1 /\ done step (concat lol) s1 l s2 /\
     raised (map (fun h => h us) post_batch) s2 e s').
Proof.
  unfold hooked_batch, bind, ret. split.
  - destruct (call_hooks _ s) as [s1 [lol|e1]] eqn:E; [apply call_hooks_answers in E | apply call_hooks_raised in E].
    + destruct (iterM step _ s1) as [s2 [[]|e1]] eqn:E1; [apply iterM_done in E1 as [l E1] | apply iterM_broke in E1].
      * destruct (call_hooks _ s2) as [s3 [l3|e3]] eqn:E3; [discriminate | apply call_hooks_raised in E3].
        intros [= <- <-]. right. right. eauto 8.
      * intros [= <- <-]. right. left. eauto 8.
    + intros [= <- <-]. now left.
  - intros [H | [(lol & s1 & H & B) | (lol & s1 & l & s2 & H & D & R)]].
    + apply call_hooks_raised in H. now rewrite H.
    + apply call_hooks_answers in H. apply iterM_broke in B. now rewrite H, B.
    + apply call_hooks_answers in H. assert (X : iterM step (concat lol) s1 = (s2, Ok tt)) by (apply iterM_done; eauto).
      apply call_hooks_raised in R. now rewrite H, X, R.
Qed.
Lemma batch_returns us s s' : hooked_batch step pre_batch post_batch us s = (s', Ok tt) <->
  exists lol s1 l s2 l', answers (map (fun h => h us) pre_batch) s lol s1 /\ done step (concat lol) s1 l s2 /\
    answers (map (fun h => h us) post_batch) s2 l' s'.
Proof.
  unfold hooked_batch, bind, ret. split.
  - destruct (call_hooks _ s) as [s1 [lol|e1]] eqn:E; [apply call_hooks_answers in E | discriminate].
    destruct (iterM step _ s1) as [s2 [[]|e1]] eqn:E1; [apply iterM_done in E1 as [l E1] | discriminate].
    destruct (call_hooks _ s2) as [s3 [l3|e3]] eqn:E3; [apply call_hooks_answers in E3 | discriminate].
    intros [= <-]. eauto 10.
  - intros (lol & s1 & l & s2 & l' & H & D & R).
    apply call_hooks_answers in H. assert (X : iterM step (concat lol) s1 = (s2, Ok tt)) by (apply iterM_done; eauto).
    apply call_hooks_answers in R. now rewrite H, X, R.
Qed.
End U.

(* ------------------------------------------------------------------ *)
Section I.
Variables conf case defaults : Type.
Variable get_cases : list (list conf -> M W (option (list case))).
Variable modify_cases : list (list case -> M W (list case)).
Variable update_for_case : list (case -> M W (option unit)).
Variable get_defaults : list case -> M W defaults.
Variable fill : defaults -> case -> res case.
Variable should_run : case -> M W bool.
Variable run_all : M W result.
Variable set_last : case -> M W unit.

Lemma init_raises confs s e s' :
  raised (map (fun h => h confs) get_cases) s e s' -> hooked_init get_cases modify_cases get_defaults confs s = (s', Raise e).
Proof. intros H. apply call_hooks_raised in H. unfold hooked_init, bind. now rewrite H. Qed.
Lemma modify_all_app (hs1 hs2 : list (list case -> M W (list case))) cs s : modify_all (hs1 ++ hs2) cs s = (cs <- modify_all hs1 cs ;; modify_all hs2 cs) s.
Proof.
  revert cs s; induction hs1 as [|h hs1 IH]; intros cs s; cbn [app modify_all]; unfold bind, ret; [reflexivity|].
  destruct (h cs s) as [s1 [x|e]]; [apply IH | reflexivity].
Qed.
Lemma modify_all_modified (hs : list (list case -> M W (list case))) : forall cs s cs' s',
  modify_all hs cs s = (s', Ok cs') <-> modified hs cs s cs' s'.
Proof.
  induction hs as [|h hs IH]; intros cs s cs' s'; cbn [modify_all]; unfold bind, ret; split.
  - intros E. injection E as <- <-. constructor.
  - intros H. inversion H; subst. reflexivity.
  - destruct (h cs s) as [s1 [cs1|e]] eqn:E; [|discriminate]. intros R. apply IH in R. eapply mo_cons; eassumption.
  - intros H. inversion H as [|h0 hs0 cs0 s0 cs1 s1 cs2 s2 E R]; subst. rewrite E. now apply IH.
Qed.
Lemma init_modify_raises confs s lol s1 h1 h h2 cs s2 e s' : answers (map (fun h => h confs) get_cases) s lol s1 ->
  modify_cases = h1 ++ h :: h2 -> modified h1 (concat lol) s1 cs s2 -> h cs s2 = (s', Raise e) ->
  hooked_init get_cases modify_cases get_defaults confs s = (s', Raise e).
Proof.
  intros H -> M1 R. apply call_hooks_answers in H. apply modify_all_modified in M1. unfold hooked_init, bind. rewrite H, modify_all_app. unfold bind. rewrite M1.
  cbn [modify_all]. unfold bind. now rewrite R.
Qed.
Lemma init_returns confs s cs d s' : hooked_init get_cases modify_cases get_defaults confs s = (s', Ok (cs, d)) <->
  exists lol s1 s2, answers (map (fun h => h confs) get_cases) s lol s1 /\ modified modify_cases (concat lol) s1 cs s2 /\ get_defaults cs s2 = (s', Ok d).
Proof.
  unfold hooked_init, bind, ret. split.
  - destruct (call_hooks _ s) as [s1 [lol|e]] eqn:E; [|discriminate]. apply call_hooks_answers in E.
    destruct (modify_all modify_cases (concat lol) s1) as [s2 [cs'|e]] eqn:M1; [|discriminate]. apply modify_all_modified in M1.
    destruct (get_defaults cs' s2) as [s3 [d'|e]] eqn:G; [|discriminate]. intros X. injection X as <- <- <-. exists lol, s1, s2. auto.
  - intros (lol & s1 & s2 & E & M1 & G). apply call_hooks_answers in E. apply modify_all_modified in M1. now rewrite E, M1, G.
Qed.

Let run_case := hooked_run_case update_for_case fill run_all set_last.
Lemma case_hook_raises d c filled s e s' : fill d c = Ok filled -> raised (map (fun h => h filled) update_for_case) s e s' ->
  run_case d c s = (s', Raise e).
Proof. intros F H. apply call_hooks_raised in H. unfold run_case, hooked_run_case, lift, bind. now rewrite F, H. Qed.
Lemma case_rest d c filled s l s1 : fill d c = Ok filled -> answers (map (fun h => h filled) update_for_case) s l s1 ->
  (forall s2 e, run_all s1 = (s2, Raise e) -> run_case d c s = (s2, Raise e)) /\
  (forall s2 r s3, run_all s1 = (s2, Ok r) -> set_last filled s2 = (s3, Ok tt) -> run_case d c s = (s3, Ok r)).
Proof.
  intros F H. apply call_hooks_answers in H. unfold run_case, hooked_run_case, lift, bind, ret. rewrite F, H. split.
  - now intros s2 e ->.
  - now intros s2 r s3 -> ->.
Qed.
Lemma case_not_filled d c s e : fill d c = Raise e -> run_case d c s = (s, Raise e).
Proof. intros F. unfold run_case, hooked_run_case, lift, bind. now rewrite F. Qed.

Let run_cases := hooked_run_cases update_for_case fill should_run run_all set_last.
Lemma run_cases_app d : forall cs1 cs2 s, run_cases d (cs1 ++ cs2) s =
  (l1 <- run_cases d cs1 ;; l2 <- run_cases d cs2 ;; ret (l1 ++ l2)) s.
Proof.
  unfold run_cases. induction cs1 as [|c cs1 IH]; intros cs2 s; cbn [app hooked_run_cases]; unfold bind, ret.
  - destruct (hooked_run_cases _ _ _ _ _ d cs2 s) as [s1 [l|e]]; reflexivity.
  - destruct (should_run c s) as [s1 [[|]|e]]; [| |reflexivity].
    + destruct (hooked_run_case _ _ _ _ d c s1) as [s2 [r|e]]; [|reflexivity].
      rewrite IH. unfold bind, ret.
      destruct (hooked_run_cases _ _ _ _ _ d cs1 s2) as [s3 [l1|e]]; [|reflexivity].
      destruct (hooked_run_cases _ _ _ _ _ d cs2 s3) as [s4 [l2|e]]; reflexivity.
    + rewrite IH. unfold bind, ret.
      destruct (hooked_run_cases _ _ _ _ _ d cs1 s1) as [s3 [l1|e]]; [|reflexivity].
      destruct (hooked_run_cases _ _ _ _ _ d cs2 s3) as [s4 [l2|e]]; reflexivity.
Qed.
Lemma cases_stop d cs1 c cs2 s l s1 s2 e s' : run_cases d cs1 s = (s1, Ok l) -> should_run c s1 = (s2, Ok true) ->
  run_case d c s2 = (s', Raise e) -> run_cases d (cs1 ++ c :: cs2) s = (s', Raise e).
Proof.
  intros R B C. rewrite run_cases_app. unfold bind. rewrite R. unfold run_cases; cbn [hooked_run_cases]. unfold bind, ret.
  rewrite B. unfold run_case in C. now rewrite C.
Qed.
Lemma run_case_ran d c s r s' : run_case d c s = (s', Ok r) <-> case_ran update_for_case fill run_all set_last d c s r s'.
Proof.
  unfold run_case, hooked_run_case, case_ran, lift, bind, ret. split.
  - destruct (fill d c) as [filled|e]; [|discriminate]. destruct (call_hooks _ s) as [s1 [l|e]] eqn:E; [|discriminate]. apply call_hooks_answers in E.
    destruct (run_all s1) as [s2 [r'|e]] eqn:R; [|discriminate]. destruct (set_last filled s2) as [s3 [[]|e]] eqn:L; [|discriminate].
    intros X. injection X as <- <-. exists filled, l, s1, s2. auto.
  - intros (filled & l & s1 & s2 & F & E & R & L). apply call_hooks_answers in E. now rewrite F, E, R, L.
Qed.
Lemma run_cases_iterated d : forall cs s l s', run_cases d cs s = (s', Ok l) <->
  iterated should_run (case_ran update_for_case fill run_all set_last d) cs s l s'.
Proof.
  unfold run_cases. induction cs as [|c cs IH]; intros s l s'; cbn [hooked_run_cases]; unfold bind, ret; split.
  - intros E. injection E as <- <-. constructor.
  - intros H. inversion H; subst. reflexivity.
  - destruct (should_run c s) as [s1 [[|]|e]] eqn:B; [| |discriminate].
    + destruct (hooked_run_case _ _ _ _ d c s1) as [s2 [r|e]] eqn:C; [|discriminate]. apply run_case_ran in C.
      destruct (hooked_run_cases _ _ _ _ _ d cs s2) as [s3 [more|e]] eqn:R; [|discriminate]. apply IH in R.
      intros X. injection X as <- <-. eapply it_run; eassumption.
    + intros R. apply IH in R. eapply it_not; eassumption.
  - intros H. inversion H as [|c0 cs0 s0 s1 l0 s2 B R|c0 cs0 s0 s1 r s2 l0 s3 B C R]; subst.
    + rewrite B. now apply IH.
    + rewrite B. apply run_case_ran in C. unfold run_case in C. rewrite C. apply IH in R. now rewrite R.
Qed.
End I.

(* ------------------------------------------------------------------ *)
Section C.
Variable would : M W bool.
Variable change : M W unit.
Variable is_loaded : M W bool.
Variable apply : M W unit.
Variable pre_changed post_changed : list (M W (option unit)).
Let H := hooked_change would change is_loaded apply pre_changed post_changed.

Lemma no_change b s s1 : would s = (s1, Ok false) -> H b s = (s1, Ok tt).
Proof. intros E. unfold H, hooked_change, bind, ret. now rewrite E. Qed.
Lemma change_pre s s1 e s' : would s = (s1, Ok true) -> raised pre_changed s1 e s' -> H true s = (s', Raise e).
Proof. intros E R. apply call_hooks_raised in R. unfold H, hooked_change, bind, ret. now rewrite E, R. Qed.
Lemma change_made (b : bool) (s s1 : W) (l : list unit) (s2 s3 : W) : would s = (s1, Ok true) -> (if b then answers pre_changed s1 l s2 else s2 = s1) -> change s2 = (s3, Ok tt) ->
  (forall s4, is_loaded s3 = (s4, Ok false) -> H b s = (s4, Ok tt)) /\
  (forall s4 s5 : W, is_loaded s3 = (s4, Ok true) -> apply s4 = (s5, Ok tt) ->
     (forall e s', raised post_changed s5 e s' -> H b s = (s', Raise e)) /\
     (forall (l' : list unit) s', answers post_changed s5 l' s' -> H b s = (s', Ok tt))) /\
  (forall s4 e s', is_loaded s3 = (s4, Ok true) -> apply s4 = (s', Raise e) -> H b s = (s', Raise e)).
Proof.
  intros E A C. assert (X : forall k : W * res unit, H b s = k <-> (l <- is_loaded ;; if l then apply ;;; call_hooks post_changed ;;; ret tt else ret tt) s3 = k).
  { intros k. unfold H, hooked_change, bind, ret. rewrite E. destruct b.
    - apply call_hooks_answers in A. rewrite A, C. reflexivity.
    - subst s2. rewrite C. reflexivity. }
  repeat split; intros; apply X; unfold bind, ret.
  - now rewrite H0.
  - apply call_hooks_raised in H2. now rewrite H0, H1, H2.
  - apply call_hooks_answers in H2. now rewrite H0, H1, H2.
  - now rewrite H0, H1.
Qed.
End C.
End S.

(* ------------------------------------------------------------------ *)
(** * Hooks that do nothing: the model of C84 *)

Lemma call_hooks_pure {W A B} (hs : list (A -> option B)) (a : A) (s : W) :
  call_hooks (map (fun h => h a) (map (fun h a => ret (h a)) hs)) s = (s, Ok (flat_map (fun h => match h a with Some x => [x] | None => [] end) hs)).
Proof.
  induction hs as [|h hs IH]; cbn [map call_hooks flat_map]; unfold bind, ret in *; [reflexivity|].
  rewrite IH. destruct (h a); reflexivity.
Qed.
Lemma call_hooks_const {W A B} (l : list B) (a : A) (s : W) :
  call_hooks (map (fun h => h a) (map (fun b (_ : A) => ret (Some b)) l)) s = (s, Ok l).
Proof. induction l as [|b l IH]; cbn [map call_hooks]; unfold bind, ret in *; [reflexivity|]. now rewrite IH. Qed.

Section P.
Variable its : items.
Variable u : user.
Variable hs : list (result -> option result).
Hypothesis post : forall r, u_post_run u r = flat_map (fun h => match h r with Some x => [x] | None => [] end) hs.
Let post_run : list (result -> M rs (option result)) := map (fun h r => ret (h r)) hs.

Lemma pure_runner_run a s : hooked_runner_run (run_one its u) post_run a s = runner_run its u a s.
Proof.
  unfold runner_run, post_run. destruct a as [p|l]; cbn [hooked_runner_run]; unfold bind.
  - destruct (run_one its u p s) as [s1 [r|e]]; [|reflexivity]. rewrite call_hooks_pure, post.
    destruct (flat_map _ hs); reflexivity.
  - destruct (mapM (run_one its u) l s) as [s1 [r|e]]; [|reflexivity]. rewrite call_hooks_pure. unfold ret. rewrite post.
    destruct (flat_map _ hs); [now rewrite app_nil_r | reflexivity].
Qed.
Lemma pure_force_loop : forall ps s, hooked_force_loop (run_one its u) post_run ps s = force_loop its u ps s.
Proof.
  induction ps as [|p ps IH]; intros s; cbn [hooked_force_loop force_loop]; unfold bind; [reflexivity|].
  unfold try_except, try_run. rewrite pure_runner_run.
  destruct (runner_run its u (AStr p) s) as [s1 [x|e]]; [|destruct (user_interrupt e); [reflexivity|]]; rewrite IH;
    (destruct (force_loop its u ps s1) as [s2 [[rs es]|e2]]; reflexivity).
Qed.
Lemma force_loop_short p s s' rs es : force_loop its u [p] s = (s', Ok (rs, es)) -> length rs <= 1.
Proof.
  cbn [force_loop]. unfold bind, ret. destruct (try_run (runner_run its u (AStr p)) s) as [s1 [[x|e]|e]]; cbn [fst snd]; [| |discriminate];
    intros [= <- <- <-]; cbn; auto.
Qed.
Lemma pure_run set a s :
  hooked_run (run_one its u) (ret tt) (map (fun p _ => ret (Some p)) (u_pre_run u)) post_run set a s = pm_run its u set a s.
Proof.
  unfold hooked_run, pm_run, bind. rewrite call_hooks_const. set (a' := combine a (u_pre_run u)). destruct set.
  - apply pure_runner_run.
  - unfold hooked_force, run_with_force_continue, bind, ret. rewrite pure_force_loop.
    destruct a' as [p|l]; [|destruct (force_loop its u l s) as [s1 [[rs es]|e]]; reflexivity].
    destruct (force_loop its u [p] s) as [s1 [[rs es]|e]] eqn:E; [|reflexivity]. apply force_loop_short in E.
    cbn [fst snd]. destruct rs as [|r [|r' rs]]; try reflexivity. cbn in E. exfalso. inversion E as [|? E1]. inversion E1.
  - unfold hooked_auto_pdb, bind, try_except, try_run, ret. rewrite pure_runner_run.
    destruct (runner_run its u a' s) as [s1 [x|e]]; [reflexivity|]. destruct (user_interrupt e); reflexivity.
Qed.
End P.

(* ------------------------------------------------------------------ *)
(** * The default hook after a change: the model of the dependents *)

Section D.
Import Deps_Model.
Context {V : Type}.
Variable u : user V.

Lemma own_config_again ld ld' i s s1 c : own_config u ld i s = (s1, Ok c) -> own_config u ld' i s1 = (s1, Ok c).
Proof.
  unfold own_config, gets, bind, ret. destruct (dget i (cfgs s)) eqn:E.
  - intros [= <- <-]. now rewrite E.
  - destruct (exec _ _ _ s) as [s2 [d|e]]; [|discriminate]. unfold set_cfg, modify.
    intros [= <- <-]. cbn. now rewrite dget_dset_eq.
Qed.
Lemma dep_update_is_update n i d persist s : dep_update u [] [] n i d persist s = update u n i d persist s.
Proof.
  unfold dep_update, hooked_change, update, dep_would, dep_change, dep_loaded, dep_apply, dep_default. cbn [call_hooks app]. unfold bind, ret.
  destruct (own_config u (load u n) i s) as [s1 [c|e]] eqn:E; [|reflexivity].
  destruct (would_update u (vals c) (dict_of d)); [|reflexivity].
  rewrite (own_config_again _ (load u n) _ _ _ _ E).
  set (c' := cfg_update c (dict_of d) persist). unfold set_cfg, modify, gets. cbn [objs].
  destruct (dget i (objs s1)) as [o|] eqn:O; cbn [objs]; [|reflexivity]. rewrite ?O.
  unfold own_config at 1, gets, bind, ret. cbn [cfgs]. rewrite dget_dset_eq. cbn beta iota.
  destruct (apply_to_loaded u i o (vals c') _) as [s3 [[]|e]]; [|reflexivity].
  destruct (refresh_dependents u (refresh u n) n i s3) as [s4 [[]|e]]; reflexivity.
Qed.
Lemma raised_app {W A} (hs hs' : list (M W (option A))) s e s' : raised hs s e s' -> raised (hs ++ hs') s e s'.
Proof.
  intros (h1 & h & h2 & l & s1 & -> & H). exists h1, h, (h2 ++ hs'), l, s1. rewrite <- app_assoc. auto.
Qed.
Lemma dep_update_stops users installed n i d persist s c o o' e s' :
  dget i (cfgs s) = Some c -> would_update u (vals c) (dict_of d) = true -> dget i (objs s) = Some o ->
  let c' := cfg_update c (dict_of d) persist in
  u_apply u i o (vals c') = Ok o' -> raised users (St (dset i c' (cfgs s)) (dset i o' (objs s)) (forced s)) e s' ->
  dep_update u users installed n i d persist s = (s', Raise e).
Proof.
  intros C Wd O c' A R. unfold dep_update.
  assert (OC : forall s0 c0, dget i (cfgs s0) = Some c0 -> own_config u (load u n) i s0 = (s0, Ok c0)).
  { intros s0 c0 E0. unfold own_config, gets, bind, ret. now rewrite E0. }
  destruct (change_made (dep_would u n i d) (dep_change u n i d persist) (dep_loaded i) (dep_apply u n i) []
              (users ++ dep_default u n i :: installed) true s s [] s (St (dset i c' (cfgs s)) (objs s) (forced s))) as (_ & X & _).
  - unfold dep_would, bind. rewrite (OC _ _ C). unfold ret. now rewrite Wd.
  - constructor.
  - unfold dep_change, bind. rewrite (OC _ _ C). reflexivity.
  - eapply X.
    + unfold dep_loaded, gets. cbn [objs]. now rewrite O.
    + unfold dep_apply, gets, bind. cbn [objs]. rewrite O. rewrite (OC _ c') by (cbn [cfgs]; apply dget_dset_eq).
      unfold apply_to_loaded, lift, bind, set_obj, modify. rewrite A. reflexivity.
    + cbn [objs cfgs forced]. apply raised_app. exact R.
Qed.
End D.
