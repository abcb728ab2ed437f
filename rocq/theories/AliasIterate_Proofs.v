From Verif Require Import AliasIterate_Spec Alias_Proofs Config_Proofs.
Require Import Lia.
Local Open Scope list_scope.

(** ---- copies ---- *)
Definition rename (f : nat -> nat) (kv : string * hv) : string * hv :=
  (fst kv, match snd kv with HVal v => HVal v | HRef l => HRef (f l) end).
Definition memo_ok (b : nat) (h : heap) (memo : list (nat * nat)) : Prop :=
  (forall l m, memo_get l memo = Some m -> l < b /\ b <= m < length h /\ nth m h [] = nth l h [])
  /\ (forall l l' m, memo_get l memo = Some m -> memo_get l' memo = Some m -> l = l').
Definition via (memo : list (nat * nat)) (l : nat) : nat := match memo_get l memo with Some m => m | None => 0 end.

Lemma holds_cons k x d l : holds ((k, x) :: d) l <-> x = HRef l \/ holds d l.
Proof.
  split.
  - intros (k' & [E|I]); [injection E as _ ->; now left|right; now exists k'].
  - intros [->|(k' & I)]; [exists k; now left|exists k'; now right].
Qed.

Lemma deepcopy_loop_spec b d : forall memo h,
  b <= length h -> memo_ok b h memo -> Forall (fun kv => match snd kv with HRef l => l < b | _ => True end) d ->
  exists n memo', fst (deepcopy_loop memo h d) = h ++ n
    /\ memo_ok b (h ++ n) memo'
    /\ (forall l m, memo_get l memo = Some m -> memo_get l memo' = Some m)
    /\ (forall l, holds d l -> exists m, memo_get l memo' = Some m)
    /\ snd (deepcopy_loop memo h d) = map (rename (via memo')) d.
Proof.
  induction d as [|[k x] d IH]; intros memo h B M F.
  - exists [], memo. rewrite app_nil_r. cbn. split; [reflexivity|]. split; [exact M|]. split; [auto|]. split; [|reflexivity].
    intros l (k & []).
  - inversion F as [|? ? Hx F']; subst. cbn in Hx. destruct x as [v|l]; cbn [deepcopy_loop].
    + destruct (IH memo h B M F') as (n & memo' & E1 & M' & Ext & Cov & E2).
      destruct (deepcopy_loop memo h d) as [h' d']; cbn in *. subst.
      exists n, memo'. split; [reflexivity|]. split; [exact M'|]. split; [exact Ext|]. split; [|reflexivity].
      intros l H. apply holds_cons in H as [H|H]; [discriminate|auto].
    + destruct (memo_get l memo) as [m|] eqn:G.
      * destruct (IH memo h B M F') as (n & memo' & E1 & M' & Ext & Cov & E2).
        destruct (deepcopy_loop memo h d) as [h' d']; cbn in *. subst.
        exists n, memo'. split; [reflexivity|]. split; [exact M'|]. split; [exact Ext|]. split.
        -- intros l' H. apply holds_cons in H as [H|H]; [injection H as <-; eauto|auto].
        -- f_equal. unfold rename; cbn. unfold via. now rewrite (Ext _ _ G).
      * destruct (IH ((l, length h) :: memo) (h ++ [nth l h []])) as (n & memo' & E1 & M' & Ext & Cov & E2).
        -- rewrite app_length. lia.
        -- destruct M as [M1 M2]. split.
           ++ intros l' m. cbn. destruct (Nat.eqb_spec l' l) as [->|D].
              ** intros [= <-]. rewrite app_length; cbn. split; [exact Hx|]. split; [lia|].
                 rewrite app_nth2, Nat.sub_diag by lia. cbn. rewrite app_nth1 by lia. reflexivity.
              ** intro G'. destruct (M1 _ _ G') as (A1 & A2 & A3). rewrite app_length. split; [exact A1|]. split; [lia|].
                 rewrite !app_nth1 by lia. exact A3.
           ++ intros l1 l2 m. cbn. destruct (Nat.eqb_spec l1 l) as [->|D1]; destruct (Nat.eqb_spec l2 l) as [->|D2]; auto.
              ** intros [= <-] G'. destruct (M1 _ _ G') as (_ & A2 & _). lia.
              ** intros G' [= <-]. destruct (M1 _ _ G') as (_ & A2 & _). lia.
              ** apply M2.
        -- exact F'.
        -- destruct (deepcopy_loop _ _ d) as [h' d']; cbn in E1, E2. subst.
           exists (nth l h [] :: n), memo'.
           assert (memo_get l memo' = Some (length h)) as Gl by (apply Ext; cbn; now rewrite Nat.eqb_refl).
           cbn [fst snd]. rewrite <- app_assoc in *. cbn in *. split; [reflexivity|]. split; [exact M'|]. split; [|split].
           ++ intros l' m G'. apply Ext. cbn. destruct (Nat.eqb_spec l' l) as [->|D]; [congruence|exact G'].
           ++ intros l' H. apply holds_cons in H as [H|H]; [injection H as <-; eauto|auto].
           ++ f_equal. unfold rename; cbn. unfold via. now rewrite Gl.
Qed.

Lemma rename_holds f d l : holds (map (rename f) d) l -> exists l', holds d l' /\ l = f l'.
Proof.
  intros (k & I). apply in_map_iff in I as ([k' [v|l']] & E & I); unfold rename in E; cbn in E; [discriminate|].
  injection E as <- <-. exists l'. split; [now exists k'|reflexivity].
Qed.
Lemma rename_contents h h' f d : (forall l, holds d l -> nth (f l) h' [] = nth l h []) ->
  dcontents h' (map (rename f) d) = dcontents h d.
Proof.
  intro H. unfold dcontents. rewrite map_map. apply map_ext_in. intros [k [v|l]] I; unfold rename; cbn; [reflexivity|].
  rewrite H; [reflexivity|now exists k].
Qed.

Lemma deepcopy_spec h d : refs_ok h d ->
  exists n f, deepcopy h d = (h ++ n, map (rename f) d)
    /\ (forall l, holds d l -> length h <= f l < length (h ++ n) /\ nth (f l) (h ++ n) [] = nth l h [])
    /\ (forall l l', holds d l -> holds d l' -> f l = f l' -> l = l').
Proof.
  intro R. destruct (deepcopy_loop_spec (length h) d [] h) as (n & memo' & E1 & [M1 M2] & _ & Cov & E2).
  - lia.
  - split; intros; discriminate.
  - exact R.
  - exists n, (via memo'). unfold deepcopy. rewrite (surjective_pairing (deepcopy_loop [] h d)), E1, E2. split; [reflexivity|].
    split.
    + intros l H. destruct (Cov l H) as (m & G). unfold via. rewrite G. destruct (M1 _ _ G) as (A1 & A2 & A3). split; [exact A2|].
      rewrite A3. now rewrite app_nth1.
    + intros l l' H H'. destruct (Cov l H) as (m & G), (Cov l' H') as (m' & G'). unfold via. rewrite G, G'. intros <-.
      exact (M2 _ _ _ G G').
Qed.

Lemma deepcopy_copy h d : refs_ok h d ->
  exists n d', deepcopy h d = (h ++ n, d') /\ copy_of h d (h ++ n) d' /\ refs_ok (h ++ n) d'.
Proof.
  intro R. destruct (deepcopy_spec h d R) as (n & f & E & H1 & H2). exists n, (map (rename f) d). split; [exact E|]. split.
  - split; [|split].
    + unfold dkeys. rewrite map_map. now apply map_ext.
    + apply rename_contents. intros l H. now apply H1.
    + intros l H. destruct (rename_holds _ _ _ H) as (l' & H' & ->). now apply H1.
  - unfold refs_ok. rewrite Forall_forall. intros [k [v|l]] I; cbn; [trivial|].
    assert (holds (map (rename f) d) l) as H by now exists k.
    destruct (rename_holds _ _ _ H) as (l' & H' & ->). now apply H1.
Qed.

Lemma holds_lt h d l : refs_ok h d -> holds d l -> l < length h.
Proof. intros R (k & I). exact (proj1 (Forall_forall _ _) R _ I). Qed.

Lemma copy_updates_spec updates : forall h,
  Forall (refs_ok h) updates ->
  exists n copies, copy_updates h updates = (h ++ n, copies)
    /\ length copies = length updates
    /\ (forall i, i < length updates -> copy_of h (nth i updates []) (h ++ n) (nth i copies []) /\ refs_ok (h ++ n) (nth i copies []))
    /\ (forall i j l, holds (nth i copies []) l -> holds (nth j copies []) l -> i = j).
Proof.
  induction updates as [|d rest IH]; intros h F.
  - exists [], []. rewrite app_nil_r. repeat split; try (cbn in *; lia).
    intros i j l H. destruct i; destruct H as (k & []).
  - inversion F as [|? ? Fd F']; subst. cbn [copy_updates].
    destruct (deepcopy_copy h d Fd) as (n & d' & -> & (C1 & C2 & C3) & Rd).
    destruct (IH (h ++ n)) as (m & copies & -> & L & Cp & Sh).
    { rewrite Forall_forall in *. intros x I. apply refs_ok_app. auto. }
    exists (n ++ m), (d' :: copies). rewrite app_assoc. split; [reflexivity|]. split; [cbn; lia|]. split.
    + intros [|i] Li; cbn [nth].
      * split; [|now apply refs_ok_app]. split; [exact C1|]. split; [now rewrite dcontents_app|].
        intros l H. specialize (C3 l H). rewrite (app_length (h ++ n) m). lia.
      * cbn in Li. assert (i < length rest) as Li' by lia. destruct (Cp i Li') as [(D1 & D2 & D3) R]. split; [|exact R].
        assert (refs_ok h (nth i rest [])) as Rn by (apply (proj1 (Forall_forall _ _) F'); now apply nth_In).
        split; [exact D1|]. split; [now rewrite D2, dcontents_app|].
        intros l H. specialize (D3 l H). rewrite (app_length h n) in D3. lia.
    + intros [|i] [|j] l; cbn [nth]; intros H1 H2; [reflexivity| | |f_equal; now apply (Sh i j l)].
      * exfalso. destruct (Nat.lt_ge_cases j (length rest)) as [Lj|Lj].
        -- destruct (Cp j Lj) as [(_ & _ & D3) _]. specialize (D3 l H2). specialize (C3 l H1). lia.
        -- rewrite (nth_overflow copies) in H2 by lia. destruct H2 as (k & []).
      * exfalso. destruct (Nat.lt_ge_cases i (length rest)) as [Lj|Lj].
        -- destruct (Cp i Lj) as [(_ & _ & D3) _]. specialize (D3 l H1). specialize (C3 l H2). lia.
        -- rewrite (nth_overflow copies) in H1 by lia. destruct H1 as (k & []).
Qed.

(** ---- the run as calls ---- *)
Lemma calls_app file params body ops1 : forall ops2 s,
  calls_ok file params body ops1 s -> calls_ok file params body ops2 (h_steps file params body ops1 s) ->
  calls_ok file params body (ops1 ++ ops2) s.
Proof.
  induction ops1 as [|o ops1 IH]; intros ops2 s C1 C2; [exact C2|].
  inversion C1; subst. cbn. apply calls_cons; [assumption|]. now apply IH.
Qed.
Lemma h_steps_app file params body ops1 : forall ops2 s,
  h_steps file params body (ops1 ++ ops2) s = h_steps file params body ops2 (h_steps file params body ops1 s).
Proof. induction ops1 as [|o ops1 IH]; intros ops2 s; [reflexivity|]. cbn. apply IH. Qed.

Lemma news_steps file params body n : forall s,
  h_steps file params body (map ANew n) s = HS (h_heap s ++ n) (h_vals s) (h_applied s) (h_loaded s) (h_calls s)
  /\ calls_ok file params body (map ANew n) s.
Proof.
  induction n as [|c n IH]; intro s.
  - cbn. rewrite app_nil_r. split; [now destruct s|apply calls_nil].
  - cbn [map h_steps h_step fst]. destruct (IH (HS (h_heap s ++ [c]) (h_vals s) (h_applied s) (h_loaded s) (h_calls s))) as [E C].
    rewrite E. cbn. rewrite <- app_assoc. split; [reflexivity|]. apply calls_cons; [exact I|exact C].
Qed.

(** what the calls of a case are *)
Definition case_ops (needs : bool) (filled : dict hv) : list aop := if needs then [AUpdate filled true; ARun] else [ARun].

Lemma a_case_ops file params body defaults conf s last :
  match a_case params body defaults conf s last with
  | (s', last', Ok u) => exists b, needs_update (h_heap s) (dupdate defaults conf) last = Ok b
        /\ s' = h_steps file params body (case_ops b (dupdate defaults conf)) s /\ last' = Some (dupdate defaults conf)
        /\ (u = true -> b = true /\ snd (h_update (dupdate defaults conf) true s) = Ok true)
        /\ (u = false -> h_vals s' = h_vals s /\ h_applied s' = h_applied s)
  | (s', last', Raise _) => s' = s /\ last' = last
  end.
Proof.
  unfold a_case. destruct (needs_update _ _ _) as [b|e] eqn:E; [|auto].
  destruct b; cbn [case_ops].
  - destruct (h_update (dupdate defaults conf) true s) as [s1 r] eqn:Eu.
    destruct r as [u|e].
    + exists true. split; [reflexivity|]. split; [cbn; now rewrite Eu|]. split; [reflexivity|]. split; [now intros ->|].
      intros ->. cbn. unfold h_update in Eu. destruct (would_update_loop _ _) as [[|]|]; try discriminate. now injection Eu as <-.
    + split; [|reflexivity]. unfold h_update in Eu. destruct (would_update_loop _ _) as [[|]|]; try discriminate. now injection Eu as <- _.
  - exists false. split; [reflexivity|]. split; [reflexivity|]. split; [reflexivity|]. split; [discriminate|auto].
Qed.

Lemma update_ok_app h n d : update_ok h d -> update_ok (h ++ n) d.
Proof. intros (W & R & K). repeat split; auto. now apply refs_ok_app. Qed.
Lemma update_ok_len h h' d : length h' = length h -> update_ok h d -> update_ok h' d.
Proof. intros L (W & R & K). repeat split; auto. eapply refs_ok_len; eassumption. Qed.
Lemma update_ok_fill h defaults conf : update_ok h defaults -> update_ok h conf -> update_ok h (dupdate defaults conf).
Proof.
  intros (W & R & K) (W' & R' & K'). split; [now apply dupdate_wf|]. split; [now apply refs_ok_update|now apply key_ok_update].
Qed.

Lemma case_ops_ok file params body b filled s : update_ok (h_heap s) filled -> calls_ok file params body (case_ops b filled) s.
Proof.
  intro U. destruct b; cbn [case_ops].
  - apply calls_cons; [exact U|]. apply calls_cons; [exact I|apply calls_nil].
  - apply calls_cons; [exact I|apply calls_nil].
Qed.
Lemma h_update_heap filled persist s : h_heap (fst (h_update filled persist s)) = h_heap s.
Proof. unfold h_update. now destruct (would_update_loop _ _) as [[|]|]. Qed.
Lemma case_ops_len file params body b filled s :
  length (h_heap (h_steps file params body (case_ops b filled) s)) = length (h_heap s).
Proof.
  destruct b; cbn; rewrite change_args_length; [|reflexivity]. now rewrite h_update_heap.
Qed.

Lemma a_cases_ops file params body defaults cases : forall s last,
  update_ok (h_heap s) defaults -> Forall (update_ok (h_heap s)) cases ->
  exists ops, fst (fst (a_cases params body defaults cases s last)) = h_steps file params body ops s
    /\ calls_ok file params body ops s /\ Forall changes_nothing ops.
Proof.
  induction cases as [|c cases IH]; intros s last D F; cbn [a_cases].
  - exists []. split; [reflexivity|]. split; [apply calls_nil|constructor].
  - inversion F as [|? ? Fc F']; subst.
    pose proof (a_case_ops file params body defaults c s last) as S.
    destruct (a_case params body defaults c s last) as [[s' last'] [u|e]].
    + destruct S as (b & Eb & -> & -> & _).
      pose proof (case_ops_len file params body b (dupdate defaults c) s) as L.
      destruct (IH (h_steps file params body (case_ops b (dupdate defaults c)) s) (Some (dupdate defaults c))) as (ops & E & C & N).
      { eapply update_ok_len; eassumption. }
      { revert F'. apply Forall_impl. intros d. now apply update_ok_len. }
      exists (case_ops b (dupdate defaults c) ++ ops). split; [now rewrite h_steps_app|]. split.
      * apply calls_app; [|exact C]. apply case_ops_ok. now apply update_ok_fill.
      * apply Forall_app. split; [destruct b; repeat constructor|exact N].
    + destruct S as [-> ->]. exists []. split; [reflexivity|]. split; [apply calls_nil|constructor].
Qed.

Lemma reached_more file params body s ops : reached file params body s -> calls_ok file params body ops s ->
  reached file params body (h_steps file params body ops s).
Proof.
  intros (h & ops0 & F & C & ->) C'. exists h, (ops0 ++ ops). split; [exact F|]. split; [now apply calls_app|].
  now rewrite h_steps_app.
Qed.

Lemma copies_ok updates h n copies : Forall (update_ok h) updates -> length copies = length updates ->
  (forall i, i < length updates -> copy_of h (nth i updates []) (h ++ n) (nth i copies []) /\ refs_ok (h ++ n) (nth i copies [])) ->
  forall i, update_ok (h ++ n) (nth i copies []).
Proof.
  intros U L C i. destruct (Nat.lt_ge_cases i (length updates)) as [Li|Li].
  - destruct (C i Li) as [(C1 & _ & _) R].
    pose proof (proj1 (Forall_forall _ _) U _ (nth_In updates [] Li)) as (W & _ & K).
    unfold update_ok, dwf. rewrite C1. auto.
  - rewrite nth_overflow by lia. split; [constructor|]. split; constructor.
Qed.

(** ---- lists not held ---- *)
Lemma a_cases_frame params body l defaults cases : forall s last,
  ~ holds defaults l -> Forall (fun c => ~ holds c l) cases -> ~ holds (h_vals s) l ->
  (forall kw, h_loaded s = Some kw -> ~ holds kw l) ->
  nth l (h_heap (fst (fst (a_cases params body defaults cases s last)))) [] = nth l (h_heap s) [].
Proof.
  induction cases as [|c cases IH]; intros s last D F V L; cbn [a_cases]; [reflexivity|].
  inversion F as [|? ? Fc F']; subst.
  assert (~ holds (dupdate defaults c) l) as Nf by (intro H; destruct (holds_update _ _ _ H); auto).
  pose proof (a_case_ops [] params body defaults c s last) as S.
  destruct (a_case params body defaults c s last) as [[s' last'] [u|e]]; [|now destruct S as [-> ->]].
  destruct S as (b & _ & -> & -> & _).
  set (s1 := if b then fst (h_update (dupdate defaults c) true s) else s).
  assert (h_steps [] params body (case_ops b (dupdate defaults c)) s = fst (h_run params body s1)) as E1.
  { unfold s1. now destruct b. }
  assert (h_heap s1 = h_heap s /\ ~ holds (h_vals s1) l /\ forall kw, h_loaded s1 = Some kw -> ~ holds kw l) as (Hh & Hv & Hl).
  { unfold s1. destruct b; [|auto]. split; [apply h_update_heap|]. unfold h_update.
    destruct (would_update_loop _ _) as [[|]|]; cbn; [|auto|auto].
    assert (~ holds (dupdate (h_vals s) (dupdate defaults c)) l) as N by (intro H; destruct (holds_update _ _ _ H); auto).
    split; [exact N|]. intros kw E H. destruct (h_loaded s) as [kw0|]; [|discriminate]. injection E as <-.
    destruct (holds_apply _ _ _ H); [auto|]. now apply (L kw0). }
  assert (~ holds (keywords params s1) l) as Hk.
  { unfold keywords. destruct (h_loaded s1) as [kw|]; [now apply Hl|]. intro H. apply Hv. eapply holds_filter; exact H. }
  rewrite E1. rewrite IH; auto.
  - cbn. rewrite change_args_other by exact Hk. now rewrite Hh.
  - cbn. intros kw [= <-]. exact Hk.
Qed.

(** ---- values ---- *)
Local Arguments dcontents : simpl never.
Local Arguments dupdate : simpl never.

Lemma a_case_seen name ref file params body defaults conf s last :
  ast_ok file s -> Forall key_ok (map fst file) -> pure_body body ->
  update_ok (h_heap s) defaults -> update_ok (h_heap s) conf ->
  match a_case params body defaults conf s last with
  | (s', last', r) =>
      v_case params (dcontents (h_heap s) defaults) (dcontents (h_heap s) conf) (seen name ref s) (option_map (dcontents (h_heap s)) last)
      = (seen name ref s', option_map (dcontents (h_heap s)) last', r)
      /\ h_heap s' = h_heap s /\ ast_ok file s'
  end.
Proof.
  intros A K P D C. pose proof (update_ok_fill _ _ _ D C) as U.
  unfold a_case, v_case. rewrite <- dcontents_update. set (filled := dupdate defaults conf) in *.
  assert (v_needs_update (dcontents (h_heap s) filled) (option_map (dcontents (h_heap s)) last) = needs_update (h_heap s) filled last) as ->.
  { destruct last; reflexivity. }
  destruct (needs_update _ _ _) as [b|e]; [|auto].
  assert (forall s1, ast_ok file s1 -> h_heap s1 = h_heap s ->
            seen name ref (fst (h_run params body s1)) = fst (v_step params VRun (seen name ref s1))
            /\ h_heap (fst (h_run params body s1)) = h_heap s /\ ast_ok file (fst (h_run params body s1))) as Run.
  { intros s1 A1 H1. destruct (step_seen name ref file params body ARun s1 A1 K I I (fun _ => P)) as [E _].
    split; [exact E|]. split; [|exact (step_ok file params body ARun s1 A1 I)].
    unfold h_run; cbn. rewrite P. exact H1. }
  destruct b.
  - destruct (step_seen name ref file params body (AUpdate filled true) s A K U I) as [E1 E2]; [discriminate|].
    pose proof (step_ok file params body (AUpdate filled true) s A U) as A1.
    pose proof (h_update_heap filled true s) as H1.
    change (seen_op file (AUpdate filled true) s) with (VUpdate (dcontents (h_heap s) filled) true) in E1, E2.
    change (h_step file params body (AUpdate filled true) s) with (h_update filled true s) in E1, E2, A1.
    destruct (h_update filled true s) as [s1 r]; cbn [fst snd] in E1, E2, A1, H1.
    destruct (v_step params (VUpdate (dcontents (h_heap s) filled) true) (seen name ref s)) as [t1 r']; cbn [fst snd] in E1, E2. subst t1 r'.
    destruct r as [u|e]; [|rewrite H1 in *; auto].
    destruct (Run s1 A1 H1) as (R1 & R2 & R3). rewrite <- R1. auto.
  - destruct (Run s A eq_refl) as (R1 & R2 & R3). rewrite <- R1. auto.
Qed.

Lemma a_cases_seen name ref file params body defaults cases : forall s last,
  ast_ok file s -> Forall key_ok (map fst file) -> pure_body body ->
  update_ok (h_heap s) defaults -> Forall (update_ok (h_heap s)) cases ->
  match a_cases params body defaults cases s last with
  | (s', last', r) =>
      v_cases params (dcontents (h_heap s) defaults) (map (dcontents (h_heap s)) cases) (seen name ref s) (option_map (dcontents (h_heap s)) last)
      = (seen name ref s', option_map (dcontents (h_heap s)) last', r)
  end.
Proof.
  induction cases as [|c cases IH]; intros s last A K P D F; cbn [a_cases v_cases map]; [reflexivity|].
  inversion F as [|? ? Fc F']; subst.
  pose proof (a_case_seen name ref file params body defaults c s last A K P D Fc) as S.
  destruct (a_case params body defaults c s last) as [[s' last'] r]. destruct S as (E & H & A'). rewrite E.
  destruct r as [u|e]; [|reflexivity].
  rewrite <- H. apply IH; auto; rewrite H; assumption.
Qed.
