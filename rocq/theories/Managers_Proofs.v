(** Lemmas for C93: operations that look at and change the state of one manager only. *)
From Verif Require Import Managers_Spec SectionPath_Proofs Batch_Proofs Product_Proofs.
Local Open Scope string_scope.
Local Open Scope list_scope.
Local Open Scope monad_scope.

(* ------------------------------------------------------------------ *)
(** * Computations that respect a relation between states *)

Section Respect.
  Context {S : Type} (R : S -> S -> Prop).
  Definition respects {A} (f : M S A) : Prop :=
    forall s t, R s t -> R (fst (f s)) (fst (f t)) /\ snd (f s) = snd (f t).
  Lemma respects_const {A} (r : res A) : respects (fun s => (s, r)).
  Proof. intros s t H. now split. Qed.
  Lemma respects_bind {A B} (f : M S A) (g : A -> M S B) : respects f -> (forall a, respects (g a)) -> respects (bind f g).
  Proof.
    intros F G s t H. destruct (F s t H) as [F1 F2]. unfold bind. destruct (f s) as [s1 r1], (f t) as [t1 r2]. cbn [fst snd] in *.
    subst r2. destruct r1 as [a|e]; [now apply G|now split].
  Qed.
End Respect.

(** Computations that keep something about the state. *)
Section Keep.
  Context {S : Type} (R : S -> S -> Prop).
  Hypothesis refl : forall s, R s s.
  Hypothesis trans : forall s t v, R s t -> R t v -> R s v.
  Definition keeping {A} (f : M S A) : Prop := forall s, R s (fst (f s)).
  Lemma keeping_const {A} (r : res A) : keeping (fun s => (s, r)).
  Proof. intros s. apply refl. Qed.
  Lemma keeping_bind {A B} (f : M S A) (g : A -> M S B) : keeping f -> (forall a, keeping (g a)) -> keeping (bind f g).
  Proof. intros F G s. unfold bind. specialize (F s). destruct (f s) as [s1 [a|e]]; [|exact F]. exact (trans _ _ _ F (G a s1)). Qed.
End Keep.

(* ------------------------------------------------------------------ *)
(** * The manager an entry names *)

Lemma begins_manager s m : begins s m -> manager_of (mk_sp s) = m.
Proof.
  intros [D [->|[r ->]]].
  - unfold manager_of. cbn. unfold section_path_str_to_section_strs. now rewrite split_no_sep.
  - now apply manager_of_app.
Qed.
Lemma begins_more b m r : begins b m -> begins (b ++ "." ++ r) m.
Proof.
  intros [D [->|[r' ->]]]; split; [exact D| |exact D|]; right; [now exists r|]. exists (r' ++ "." ++ r)%string. now rewrite !app_assoc_s.
Qed.
Lemma join_manager b m sp : begins b m -> manager_of (sp_join (mk_sp b) sp) = m.
Proof.
  intros B. unfold sp_join, from_section_str_list, section_strs_to_section_path_str. apply begins_manager.
  destruct (sections sp) as [|x l]; [rewrite app_nil_r; change sdot with "."; now rewrite sections_join_id|].
  rewrite join_app by (try apply sections_ne; discriminate). change sdot with ".". rewrite sections_join_id. now apply begins_more.
Qed.
Lemma names_sp base strip q m sp : names_manager base strip q m -> from_ambiguous q strip base = Ok sp -> manager_of sp = m.
Proof.
  unfold names_manager. destruct base as [b|].
  - intros [_ B] E. assert (K : exists r, sp = sp_join (mk_sp b) r).
    { unfold from_ambiguous in E. destruct q; [destruct strip| | |]; try discriminate; injection E as <-; eauto. }
    destruct K as [r ->]. now apply join_manager.
  - destruct q as [v|q|v|]; [destruct strip| | |].
    + intros (x & r & -> & D & B). rewrite (from_ambiguous_view_strip x r None D). intros [= <-]. now apply begins_manager.
    + intros B [= <-]. now apply begins_manager.
    + intros (v & -> & B) [= <-]. now apply begins_manager.
    + intros B [= <-]. now apply begins_manager.
    + discriminate.
Qed.
Lemma names_full base strip p m : names_manager base strip (LStr p) m -> manager_of (mk_sp (full_path base p)) = m.
Proof.
  unfold names_manager, full_path. destruct base as [b|]; [|apply begins_manager].
  intros [N B]. destruct (String.eqb_spec b "") as [->|_]; [now destruct N|]. rewrite sp_join_mk. cbn [path_str mk_sp].
  apply begins_manager. now apply begins_more.
Qed.
Lemma names_list base strip l : forall sps sp, list_from_ambiguous l base strip = Ok sps -> In sp sps ->
  exists q, In q l /\ from_ambiguous q strip base = Ok sp.
Proof.
  induction l as [|q l IH]; intros sps sp; cbn [list_from_ambiguous]; [intros [= <-] []|].
  destruct (from_ambiguous q strip base) as [x|] eqn:E; [|discriminate].
  destruct (list_from_ambiguous l base strip) as [xs|]; [|discriminate]. intros [= <-] [<-|H].
  - exists q. split; [now left|exact E].
  - destruct (IH xs sp eq_refl H) as (q' & I & F). exists q'. split; [now right|exact F].
Qed.

(* ------------------------------------------------------------------ *)
(** * What iterations do with the paths *)

Lemma fill_case_paths it c : forall c', fill_case it c = Ok c' -> map fst c' = map fst c.
Proof.
  induction c as [|q c IH]; intros c'; cbn [fill_case]; [now intros [= <-]|].
  destruct (dget _ _) as [d|]; [|discriminate]. destruct (fill_case it c) as [l|]; [|discriminate]. intros [= <-]. cbn [map].
  now rewrite (IH l eq_refl).
Qed.
Lemma not_in_last_sub l last : forall l', not_in_last l last = Ok l' -> forall q, In q l' -> In q l.
Proof.
  induction l as [|c l IH]; intros l'; cbn [not_in_last]; [now intros [= <-]|].
  destruct (conf_in c last) as [b|]; [|discriminate]. destruct (not_in_last l last) as [x|]; [|discriminate]. intros [= <-] q.
  destruct b; [intros H; right; now apply (IH x)|]. intros [<-|H]; [now left|right; now apply (IH x)].
Qed.
Lemma updated_confs_sub last l l' q : updated_confs last l = Ok l' -> In q l' -> In q l.
Proof. unfold updated_confs. destruct last as [last|]; [|now intros [= <-]]. intros H. now apply (not_in_last_sub l last). Qed.

(** All paths of an iteration satisfy something. *)
Definition all_paths (P : string -> Prop) (cs : list case) : Prop := forall c q, In c cs -> In q c -> P (fst q).
Lemma cases_paths (P : string -> Prop) (updates : list conf) : (forall p b, In (p, b) updates -> P p) -> all_paths P (get_cases [] (fun l => l) updates).
Proof.
  intros H c [p b] C Q. unfold get_cases in C. cbn [app concat] in C. rewrite app_nil_r in C. apply (H p b).
  now apply (case_entries updates c).
Qed.

(* ------------------------------------------------------------------ *)
(** * Operations are made of operations on the managers that are named *)

Section Made.
  Variable U : world -> string -> user.
  Variable ok : string -> Prop.                      (* these managers may be named *)
  Variable goodw : forall A, M world A -> Prop.
  Variable goodi : forall A, M ist A -> Prop.
  Arguments goodw {A} _.
  Arguments goodi {A} _.
  Hypothesis w_ext : forall A (f g : M world A), (forall w, f w = g w) -> goodw f -> goodw g.
  Hypothesis w_const : forall A (r : res A), goodw (fun w => (w, r)).
  Hypothesis w_bind : forall A B (f : M world A) (g : A -> M world B), goodw f -> (forall a, goodw (g a)) -> goodw (bind f g).
  Hypothesis w_mgr : forall A name (f : pmst -> user -> M rs A), ok name -> goodw (on_manager U name f).
  Hypothesis i_const : forall A (r : res A), goodi (fun s => (s, r)).
  Hypothesis i_bind : forall A B (f : M ist A) (g : A -> M ist B), goodi f -> (forall a, goodi (g a)) -> goodi (bind f g).
  Hypothesis i_read : forall A B (h : option case -> res A) (g : A -> M ist B),
    (forall x a, h x = Ok a -> goodi (g a)) -> goodi (bind (fun s => (s, h (is_last s))) g).
  Hypothesis i_last : forall c, goodi (modify (fun s => IS (is_world s) (Some c))).
  Hypothesis i_world : forall A (f : M world A), goodw f -> goodi (on_world f).
  Hypothesis w_start : forall A (f : M ist A), goodi f -> goodw (fun w => let '(s, r) := f (IS w None) in (is_world s, r)).

  Lemma w_lift A B (r : res A) (g : A -> M world B) : (forall a, r = Ok a -> goodw (g a)) -> goodw (bind (lift r) g).
  Proof. intros H. destruct r as [a|e]; [exact (H a eq_refl)|exact (w_const B (Raise e))]. Qed.
  Lemma i_lift A B (r : res A) (g : A -> M ist B) : (forall a, r = Ok a -> goodi (g a)) -> goodi (bind (lift r) g).
  Proof. intros H. destruct r as [a|e]; [exact (H a eq_refl)|exact (i_const B (Raise e))]. Qed.
  Lemma w_iterM A (f : A -> M world unit) l : (forall a, In a l -> goodw (f a)) -> goodw (iterM f l).
  Proof.
    induction l as [|a l IH]; intros F; [apply w_const|]. cbn [iterM]. apply w_bind; [apply F; now left|].
    intros _. apply IH. intros. apply F. now right.
  Qed.
  Lemma w_mapM A B (f : A -> M world B) l : (forall a, In a l -> goodw (f a)) -> goodw (mapM f l).
  Proof.
    induction l as [|a l IH]; intros F; [apply w_const|]. cbn [mapM]. apply w_bind; [apply F; now left|].
    intros b. apply w_bind; [apply IH; intros; apply F; now right|]. intros bs. apply w_const.
  Qed.

  Definition named_ok base strip q : Prop := exists m, ok m /\ names_manager base strip q m.

  Lemma w_updates base strip l : (forall q b, In (q, b) l -> named_ok base strip q) -> goodw (batch_update U [] base strip l).
  Proof.
    intros H. unfold batch_update. cbn [concat app]. apply w_iterM. intros [q b] I. unfold batch_step. cbn [fst snd].
    destruct (H q b I) as (m & O & N). apply w_lift. intros sp E. apply w_mgr. now rewrite (names_sp base strip q m sp N E).
  Qed.
  Lemma w_resets base strip l : (forall q, In q l -> named_ok base strip q) -> goodw (batch_reset U base strip l).
  Proof.
    intros H. unfold batch_reset. apply w_iterM. intros q I.
    destruct (H q I) as (m & O & N). apply w_lift. intros sp E. apply w_mgr. now rewrite (names_sp base strip q m sp N E).
  Qed.
  Lemma w_defaults base strip l acc : (forall p, In p l -> named_ok base strip (LStr p)) -> goodw (defaults_loop U (map (full_path base) l) acc).
  Proof.
    revert acc. induction l as [|p l IH]; intros acc H; cbn [map defaults_loop]; [apply w_const|].
    apply w_bind.
    - destruct (H p (or_introl eq_refl)) as (m & O & N). unfold default_for_path. cbv zeta. apply w_mgr. now rewrite (names_full base strip p m N).
    - intros d. apply IH. intros q I. apply H. now right.
  Qed.
  Lemma w_cases_defaults base strip updates : (forall p b, In (p, b) updates -> named_ok base strip (LStr p)) ->
    goodw (get_defaults U base (get_cases [] (fun l => l) updates)).
  Proof.
    intros H. unfold get_defaults. assert (C := cases_paths (fun p => named_ok base strip (LStr p)) updates H).
    destruct (get_cases [] (fun l => l) updates) as [|c cs]; [apply w_const|]. rewrite <- (map_map fst (full_path base)).
    apply (w_defaults base strip). intros p I. apply in_map_iff in I as ([p' b] & <- & I). exact (C c (p', b) (or_introl eq_refl) I).
  Qed.
  Lemma i_cases should_run it cs : (forall sp, In sp (it_items it) -> ok (manager_of sp)) ->
    all_paths (fun p => named_ok (it_base it) (it_strip it) (LStr p)) cs -> goodi (run_cases U should_run it cs).
  Proof.
    intros I. induction cs as [|c cs IH]; intros H; cbn [run_cases]; [apply i_const|].
    assert (H' : all_paths (fun p => named_ok (it_base it) (it_strip it) (LStr p)) cs) by (intros x q X; apply H; now right).
    destruct (should_run c); [|exact (IH H')].
    apply i_bind; [|intros r; apply i_bind; [exact (IH H')|intros; apply i_const]].
    unfold run_case. apply i_lift. intros filled F. apply i_bind.
    - unfold update_for_case. apply (i_read _ _ (fun x => updated_confs x filled)). intros last confs E. apply i_world. apply w_updates.
      intros q b Q. apply in_map_iff in Q as ([p b'] & E' & Q). injection E' as <- <-. cbn [fst].
      assert (P : In p (map fst c)).
      { rewrite <- (fill_case_paths it c filled F). apply in_map_iff. exists (p, b'). split; [reflexivity|].
        exact (updated_confs_sub last filled confs _ E Q). }
      apply in_map_iff in P as ([p' b''] & <- & P). exact (H c (p', b'') (or_introl eq_refl) P).
    - intros _. apply i_bind.
      + apply i_world. unfold run_items. apply w_bind.
        * apply w_mapM. intros sp S. apply w_mgr. now apply I.
        * intros rs. destruct rs as [|r [|]]; apply w_const.
      + intros r. apply i_bind; [apply i_last|]. intros. apply i_const.
  Qed.
  Lemma w_iterate should_run collect base strip paths updates : (forall q, In q paths -> named_ok base strip q) ->
    (forall p b, In (p, b) updates -> named_ok base strip (LStr p)) ->
    goodw (bind (iter_new U [] (fun l => l) paths updates base strip)
                (fun it w => let '(s, r) := iter_run U should_run it collect (IS w None) in (is_world s, r))).
  Proof.
    intros HP HU. set (cs := get_cases [] (fun l => l) updates).
    apply (w_ext _ (bind (lift (list_from_ambiguous paths base strip)) (fun items => bind (get_defaults U base cs)
             (fun d w => let '(s, r) := iter_run U should_run (It base strip items cs d) collect (IS w None) in (is_world s, r))))).
    { intros w. unfold iter_new, bind, lift, ret. destruct (list_from_ambiguous paths base strip); [|reflexivity]. fold cs.
      now destruct (get_defaults U base cs w) as [w1 [d|]]. }
    apply w_lift. intros items E. apply w_bind; [now apply (w_cases_defaults base strip)|]. intros d.
    apply w_start. unfold iter_run. apply i_bind; [|intros; apply i_const]. apply i_cases; cbn [it_items it_base it_strip it_cases].
    - intros sp S. destruct (names_list base strip paths items sp E S) as (q & Q & F). destruct (HP q Q) as (m & O & N).
      now rewrite (names_sp base strip q m sp N F).
    - now apply cases_paths.
  Qed.
  Lemma w_product name paths updates collect : (exists m, ok m /\ begins name m) -> name <> "" ->
    goodw (run_product U name paths updates collect).
  Proof.
    intros (m & O & B) N. unfold run_product. apply w_iterate; intros; exists m; split; trivial; now split.
  Qed.

  Hypothesis w_put : forall name p, ok name -> goodw (modify (dset name p)).
  Hypothesis w_drop : forall name, ok name -> goodw (modify (@ddel pmst name)).
  Lemma w_op o : 
    match o with
    | WOn name _ | WPut name _ | WDrop name => ok name
    | WUpdates base strip l => forall q b, In (q, b) l -> named_ok base strip q
    | WResets base strip l => forall q, In q l -> named_ok base strip q
    | WProduct name _ _ _ => (exists m, ok m /\ begins name m) /\ name <> ""
    | WIterate base strip paths updates _ _ => (forall q, In q paths -> named_ok base strip q) /\
                                               (forall p b, In (p, b) updates -> named_ok base strip (LStr p))
    end -> goodw (wop_run U o).
  Proof.
    destruct o as [name op|base strip l|base strip l|name paths updates collect|base strip paths updates sr collect|name p|name];
      intros H; cbn [wop_run].
    - apply w_bind; [now apply w_mgr|intros; apply w_const].
    - apply w_bind; [now apply w_updates|intros; apply w_const].
    - apply w_bind; [now apply w_resets|intros; apply w_const].
    - destruct H as [H N]. apply w_bind; [now apply w_product|intros; apply w_const].
    - destruct H as [H1 H2]. 
      apply (w_ext _ (bind (bind (iter_new U [] (fun l => l) paths updates base strip)
                (fun it w => let '(s, r) := iter_run U sr it collect (IS w None) in (is_world s, r))) (fun l => ret (Cases l)))).
      { intros w. unfold bind at 1 2 3. destruct (iter_new _ _ _ _ _ _ _ w) as [w1 [it|]]; reflexivity. }
      apply w_bind; [now apply w_iterate|intros; apply w_const].
    - apply w_bind; [now apply w_put|intros; apply w_const].
    - apply w_bind; [now apply w_drop|intros; apply w_const].
  Qed.
End Made.

(* ------------------------------------------------------------------ *)
(** * The two kinds of operations *)

Section Own.
  Variables (U : world -> string -> user) (n : string).
  Hypothesis L : minds_own U n.
  Definition same (w w' : world) : Prop := (dwf w /\ dwf w') /\ dget n w = dget n w'.
  Let samei (s t : ist) : Prop := same (is_world s) (is_world t) /\ is_last s = is_last t.

  Lemma on_manager_own {A} name (f : pmst -> user -> M rs A) : name = n -> respects same (on_manager U name f).
  Proof.
    intros -> w w' [[W W'] H]. unfold on_manager. rewrite <- H. destruct (dget n w) as [p|] eqn:E.
    - rewrite <- (L w w') by congruence. destruct (f p (U w n) (pm_rs p)) as [s r]. cbn [fst snd]. split; [|reflexivity].
      split; [split; now apply dset_wf|]. now rewrite !dget_dset_eq.
    - split; [|reflexivity]. split; [now split|]. cbn [fst]. congruence.
  Qed.

  Lemma own_op o : on_it n o -> respects same (wop_run U o).
  Proof.
    intros H. apply (w_op U (fun m => m = n) (fun A => @respects world same A) (fun A => @respects ist samei A)).
    - intros A f g E F s t R. rewrite <- !E. now apply F.
    - intros. apply respects_const.
    - intros. now apply respects_bind.
    - intros. now apply on_manager_own.
    - intros. apply respects_const.
    - intros. now apply respects_bind.
    - intros A B h g G s t [R1 R2]. unfold bind. rewrite <- R2. destruct (h (is_last s)) as [a|e] eqn:E; [apply (G _ a E); now split|].
      split; [now split|reflexivity].
    - intros c s t [R1 R2]. split; [now split|reflexivity].
    - intros A f F s t [R1 R2]. unfold on_world. destruct (F _ _ R1) as [F1 F2]. destruct (f (is_world s)), (f (is_world t)).
      cbn [fst snd is_world is_last] in *. split; [now split|exact F2].
    - intros A f F s t R. assert (R' : samei (IS s None) (IS t None)) by now split. destruct (F _ _ R') as [[F1 _] F2].
      destruct (f (IS s None)), (f (IS t None)). now split.
    - intros name p -> s t [[W W'] R]. unfold modify. cbn [fst snd]. split; [|reflexivity]. split; [split; now apply dset_wf|]. now rewrite !dget_dset_eq.
    - intros name -> s t [[W W'] R]. unfold modify. cbn [fst snd]. split; [|reflexivity]. split; [split; now apply ddel_wf|]. now rewrite !dget_ddel_eq.
    - destruct o; cbn [on_it] in H.
      + exact H.
      + intros q b I. exists n. split; [reflexivity|now apply (H q b)].
      + intros q I. exists n. split; [reflexivity|now apply H].
      + destruct H as [B N]. split; [|exact N]. exists n. now split.
      + destruct H as [H1 H2]. split; intros; exists n; (split; [reflexivity|eauto]).
      + exact H.
      + exact H.
  Qed.
End Own.

Section Elsewhere.
  Variables (U : world -> string -> user) (n : string).
  Definition kept (w w' : world) : Prop := (dwf w -> dwf w') /\ dget n w' = dget n w.
  Lemma kept_refl w : kept w w.
  Proof. now split. Qed.
  Lemma kept_trans a b c : kept a b -> kept b c -> kept a c.
  Proof. intros [W E] [W' E']. split; [auto|congruence]. Qed.
  Lemma on_manager_other {A} name (f : pmst -> user -> M rs A) : name <> n -> keeping kept (on_manager U name f).
  Proof.
    intros N w. unfold on_manager. destruct (dget name w) as [p|]; [|apply kept_refl]. destruct (f p _ _) as [s r]. cbn [fst].
    split; [apply dset_wf|]. rewrite dget_dset_neq; [reflexivity|congruence].
  Qed.
  Lemma other_op o : elsewhere n o -> keeping kept (wop_run U o).
  Proof.
    intros H. apply (w_op U (fun m => m <> n) (fun A => @keeping world kept A) (fun A => @keeping ist (fun s t => kept (is_world s) (is_world t)) A)).
    - intros A f g E F s. rewrite <- E. apply F.
    - intros. apply keeping_const. exact kept_refl.
    - intros. apply keeping_bind; trivial. exact kept_trans.
    - intros. now apply on_manager_other.
    - intros. apply keeping_const. intros. apply kept_refl.
    - intros. apply keeping_bind; trivial. intros ? ? ?. apply kept_trans.
    - intros A B h g G s. unfold bind. destruct (h (is_last s)) as [a|e] eqn:E; [apply (G _ a E)|apply kept_refl].
    - intros c s. apply kept_refl.
    - intros A f F s. unfold on_world. specialize (F (is_world s)). now destruct (f (is_world s)).
    - intros A f F s. specialize (F (IS s None)). now destruct (f (IS s None)).
    - intros name p N s. unfold modify. cbn [fst]. split; [apply dset_wf|]. rewrite dget_dset_neq; [reflexivity|congruence].
    - intros name N s. unfold modify. cbn [fst]. split; [apply ddel_wf|]. apply dget_ddel_neq. congruence.
    - destruct o; cbn [elsewhere] in H.
      + exact H.
      + intros q b I. exact (H q b I).
      + intros q I. exact (H q I).
      + destruct H as (m & N & B & E). split; [|exact E]. exists m. now split.
      + exact H.
      + exact H.
      + exact H.
  Qed.
End Elsewhere.

Lemma histories U n ops ops' : minds_own U n -> same_own n ops ops' -> forall w w', same n w w' -> same n (after U ops w) (after U ops' w').
Proof.
  intros L. induction 1 as [|o l l' O H IH|o l l' O H IH|o l l' O H IH]; intros w w' S; [exact S| | |].
  - apply IH. apply (own_op U n L o O w w' S).
  - apply IH. destruct S as [[W W'] E]. destruct (other_op U n o O w) as [K1 K2]. split; [split; [now apply K1|exact W']|congruence].
  - apply IH. destruct S as [[W W'] E]. destruct (other_op U n o O w') as [K1 K2]. split; [split; [exact W|now apply K1]|congruence].
Qed.

(** A batch that succeeds, seen by one of the managers. *)
Lemma batch_for U n base strip l l' : minds_own U n -> part_for n base strip l l' ->
  forall w w' w1, same n w w' -> batch_update U [] base strip l w = (w1, Ok tt) ->
  snd (batch_update U [] base strip l' w') = Ok tt /\ same n w1 (fst (batch_update U [] base strip l' w')).
Proof.
  intros L. unfold batch_update. cbn [concat app].
  induction 1 as [|q b l l' N H IH|q b l l' N H IH]; intros w w' w1 S; cbn [iterM].
  - intros [= <-]. now split.
  - assert (O : on_it n (WUpdates base strip [(q, b)])) by (intros q' b' [[= <- <-]|[]]; exact N).
    destruct (own_op U n L _ O w w' S) as [O1 O2].
    assert (St : forall x, wop_run U (WUpdates base strip [(q, b)]) x = let (y, r) := batch_step U base strip (q, b) x in (y, match r with Ok _ => Ok Done | Raise e => Raise e end)).
    { intros x. cbn [wop_run]. unfold batch_update. cbn [concat app iterM]. unfold bind, ret. now destruct (batch_step U base strip (q, b) x) as [y [[]|]]. }
    rewrite !St in O1, O2. unfold bind. destruct (batch_step U base strip (q, b) w) as [x [[]|e]], (batch_step U base strip (q, b) w') as [y [[]|e']];
      cbn [fst snd] in *; try discriminate. now apply IH.
  - assert (O : elsewhere n (WUpdates base strip [(q, b)])) by (intros q' b' [[= <- <-]|[]]; exact N).
    destruct (other_op U n _ O w) as [O1 O2].
    assert (St : forall x, wop_run U (WUpdates base strip [(q, b)]) x = let (y, r) := batch_step U base strip (q, b) x in (y, match r with Ok _ => Ok Done | Raise e => Raise e end)).
    { intros x. cbn [wop_run]. unfold batch_update. cbn [concat app iterM]. unfold bind, ret. now destruct (batch_step U base strip (q, b) x) as [y [[]|]]. }
    rewrite !St in O1, O2. unfold bind. destruct (batch_step U base strip (q, b) w) as [x [[]|e]]; cbn [fst snd] in *; [|discriminate].
    apply IH. destruct S as [[W W'] E]. split; [split; [now apply O1|exact W']|congruence].
Qed.
