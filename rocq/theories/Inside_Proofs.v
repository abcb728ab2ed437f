(** Proofs for [Inside_Props]. *)
From Verif Require Import Inside_Spec Parts_Proofs Runner_Proofs Run_Proofs IsolationRun_Proofs.
From Coq Require Import Permutation Lia.
Local Open Scope string_scope.
Local Open Scope list_scope.
Local Open Scope monad_scope.

(** * The calls of hooks *)
Definition no_post (evs : list event) : Prop := forall p ups, ~ In (EvPost p ups) evs.
Lemma no_post_nil : no_post [].
Proof. now intros p ups. Qed.
Lemma no_post_pre p ups : no_post [EvPre p ups].
Proof. intros q v [H|[]]. discriminate. Qed.
Lemma no_post_app a b : no_post a -> no_post b -> no_post (a ++ b).
Proof. intros A B p ups H. apply in_app_iff in H as [H|H]; [exact (A p ups H)|exact (B p ups H)]. Qed.

Definition grows {A} (m : M cms A) : Prop := forall st, exists evs, cs_trace (fst (m st)) = cs_trace st ++ evs /\ no_post evs.
Lemma grows_same {A} (m : M cms A) : (forall st, cs_trace (fst (m st)) = cs_trace st) -> grows m.
Proof. intros H st. exists []. rewrite app_nil_r. split; [apply H|apply no_post_nil]. Qed.
Lemma grows_ret {A} (a : A) : grows (ret a). Proof. now apply grows_same. Qed.
Lemma grows_raise {A} e : grows (@raise cms A e). Proof. now apply grows_same. Qed.
Lemma grows_lift {A} (r : res A) : grows (lift r). Proof. now apply grows_same. Qed.
Lemma grows_bind {A B} (m : M cms A) (k : A -> M cms B) : grows m -> (forall a, grows (k a)) -> grows (bind m k).
Proof.
  intros H K st. unfold bind. destruct (H st) as (e1 & E1 & N1). destruct (m st) as [st1 [a|e]]; cbn [fst] in *; [|now exists e1].
  destruct (K a st1) as (e2 & E2 & N2). exists (e1 ++ e2). rewrite E2, E1, app_assoc. split; [reflexivity|now apply no_post_app].
Qed.
Lemma grows_pre p ups : grows (emit (EvPre p ups)).
Proof. intro st. exists [EvPre p ups]. split; [reflexivity|apply no_post_pre]. Qed.
Lemma grows_set_item p v : grows (set_item p v).
Proof. apply grows_same. intro st. unfold set_item. now destruct (set_nested _ _ _ _). Qed.
Lemma grows_write r c : grows (write_cref r c).
Proof. destruct r; [now apply grows_same|apply grows_set_item|now apply grows_same]. Qed.
Lemma grows_deref r : grows (deref r).
Proof. apply grows_same. intro st. unfold deref. now destruct (read_cref st r). Qed.
Lemma grows_gf p : grows (get_func_or_section_configs p).
Proof.
  intro st. unfold get_func_or_section_configs. destruct (lookup_at st p) as [l|e]; [|apply (@grows_raise (option cref))]. destruct l as [c|c|ref name|s|].
  - apply (grows_bind (set_item p (NConf c))); [apply grows_set_item|intro; apply grows_ret].
  - apply (grows_bind (set_item p NSelf)); [apply grows_set_item|intro; apply grows_ret].
  - apply grows_bind; [apply grows_lift|]. intro. apply grows_bind; [apply grows_set_item|intro; apply grows_ret].
  - apply (grows_ret (match s_cfg s with Some _ => Some (CSec p) | None => None end)).
  - apply (@grows_raise (option cref)).
Qed.
Lemma grows_stored path : grows (stored_config path).
Proof. destruct path; [apply grows_gf|apply grows_ret]. Qed.
Lemma grows_update d path persist kw : grows (cm_update d path persist kw).
Proof.
  apply grows_bind; [apply grows_stored|]. intros [r|]; [|apply grows_raise]. apply grows_bind; [apply grows_deref|]. intro c.
  destruct (dmem "config_" kw); [apply grows_raise|]. apply grows_bind; [apply grows_lift|]. intros []; [|apply grows_ret].
  apply grows_bind; [destruct path; [apply grows_pre|apply grows_ret]|]. intro. destruct (dmem "E" kw); [apply grows_raise|].
  apply grows_bind; [apply grows_write|]. intro. apply grows_ret.
Qed.
Lemma grows_refresh path : grows (cm_refresh path).
Proof.
  apply grows_bind; [apply grows_stored|]. intros [r|]; [|apply grows_raise]. apply grows_bind; [apply grows_deref|]. intro c.
  apply grows_bind; [apply grows_same; intro st; unfold reread; now destruct (c_file c)|]. intro content. apply grows_bind; [apply grows_lift|].
  intros [|x l]; [apply grows_ret|]. apply grows_bind; [apply grows_pre|]. intro. apply grows_bind; [apply grows_lift|]. intro cu.
  apply grows_bind; [apply grows_write|]. intro. apply grows_ret.
Qed.
Lemma grows_sets p v b : grows (set_func_or_section_config p v b).
Proof. unfold set_func_or_section_config. destruct b; [|apply grows_set_item]. apply grows_same. intro st. now destruct (append_nested _ _ _ _). Qed.
Lemma grows_after {A B} (m : M cms A) (k : res A -> M cms B) : grows m -> (forall a, grows (k a)) -> grows (fun st => let '(st1, a) := m st in k a st1).
Proof.
  intros H K st. destruct (H st) as (e1 & E1 & N1). destruct (m st) as [st1 a]; cbn [fst] in *.
  destruct (K a st1) as (e2 & E2 & N2). exists (e1 ++ e2). rewrite E2, E1, app_assoc. split; [reflexivity|now apply no_post_app].
Qed.
Lemma grows_cm_set path v b : grows (cm_set path v b).
Proof.
  unfold cm_set. cbn zeta. set (F := fun (r : res (option cref)) => match r with
    | Raise KeyError | Ok None => set_func_or_section_config (path_parts path) v b ;;; ret true
    | Raise e => raise e
    | Ok (Some r) => match v with DSec _ => raise TypeError | DConf value =>
        c <- deref r ;; all_updates <- lift (value_as_kwargs (c_vals value)) ;; w <- lift (would_update c (Some all_updates) []) ;;
        if w : bool then emit (EvPre path all_updates) ;;; set_func_or_section_config (path_parts path) v b ;;; ret true else ret false end end).
  assert (G : grows (fun st => let '(st1, r) := get_func_or_section_configs (path_parts path) st in F r st1)).
  { apply grows_after; [apply grows_gf|]. intro r.
    assert (X : grows (set_func_or_section_config (path_parts path) v b ;;; ret true)) by (apply grows_bind; [apply grows_sets|intro; apply grows_ret]).
    destruct r as [[r|]|e]; cbn [F]; [|exact X|destruct e; try exact X; apply grows_raise].
    destruct v; [|apply grows_raise]. apply grows_bind; [apply grows_deref|]. intro. apply grows_bind; [apply grows_lift|]. intro. apply grows_bind; [apply grows_lift|].
    intros []; [|apply grows_ret]. apply grows_bind; [apply grows_pre|]. intro. exact X. }
  intro st. destruct (G st) as (evs & E & N). exists evs. split; [|exact N]. etransitivity; [|exact E]. clear. unfold F.
  set (x := get_func_or_section_configs (path_parts path) st). change (get_func_or_section_configs (path_parts path) st) with x. clearbody x. destruct x as [st1 [[r|]|[]]]; try reflexivity. now destruct v.
Qed.
Lemma grows_reset base path b : grows (cm_reset base path b).
Proof.
  destruct path as [p|]; cbn [cm_reset].
  - apply grows_bind; [now apply grows_same|]. intro v. apply grows_bind; [apply grows_cm_set|]. intro. apply grows_ret.
  - apply grows_bind; [now apply grows_same|]. intro. apply grows_ret.
Qed.
Lemma grows_get path : grows (cm_get path).
Proof.
  assert (MM : forall l, grows (mapM get_func_or_section_configs l)).
  { induction l as [|a l IH]; [apply grows_ret|]. cbn [mapM]. apply grows_bind; [apply grows_gf|]. intro. apply grows_bind; [exact IH|]. intro. apply grows_ret. }
  assert (UF : forall r src, grows (update_from r src)).
  { intros r src st. unfold update_from. destruct (read_cref st r); [apply grows_write|apply (@grows_raise unit)]. }
  assert (IT : forall r l, grows (iterM (update_from r) l)).
  { intros r. induction l as [|a l IH]; [apply grows_ret|]. cbn [iterM]. apply grows_bind; [apply UF|]. intro. exact IH. }
  unfold cm_get. cbn zeta. apply grows_bind; [apply grows_gf|]. intro c. apply grows_bind; [now apply grows_same|]. intro pr. apply grows_bind; [apply MM|]. intro sc.
  apply grows_bind.
  - intro st. destruct (lookup_at st (path_parts path)) as [[| | | |]|]; try (apply (@grows_raise (list (option cref)))); try (apply (grows_ret [])).
    apply grows_bind; [apply grows_gf|]. intro. apply grows_ret.
  - intro own. destruct c as [r|]; [|apply grows_ret]. apply grows_bind; [apply grows_deref|]. intro c. destruct (c_vals c); [apply grows_ret|].
    apply grows_bind; [apply IT|]. intro. apply grows_bind; [apply UF|]. intro. apply grows_ret.
Qed.

Definition rgrows {A} (m : M rs A) : Prop := forall s, exists evs, cs_trace (r_cms (fst (m s))) = cs_trace (r_cms s) ++ evs /\ no_post evs.
Lemma rgrows_same {A} (m : M rs A) : (forall s, r_cms (fst (m s)) = r_cms s) -> rgrows m.
Proof. intros H s. exists []. rewrite app_nil_r, H. split; [reflexivity|apply no_post_nil]. Qed.
Lemma rgrows_cms {A} (m : M cms A) : grows m -> rgrows (on_cms m).
Proof. intros H s. destruct (H (r_cms s)) as (e & E). exists e. unfold on_cms. destruct (m (r_cms s)). exact E. Qed.
Definition ends (m : M rs unit) : Prop := forall s, exists evs, no_post evs /\
  (cs_trace (r_cms (fst (m s))) = cs_trace (r_cms s) ++ evs \/
   exists p ups, snd (m s) = Ok tt /\ cs_trace (r_cms (fst (m s))) = cs_trace (r_cms s) ++ evs ++ [EvPost p ups]).
Lemma ends_quiet m : rgrows m -> ends m.
Proof. intros H s. destruct (H s) as (e & E & N). exists e. auto. Qed.
Lemma ends_bind {A} (m : M rs A) k : rgrows m -> (forall a, ends (k a)) -> ends (bind m k).
Proof.
  intros H K s. unfold bind. destruct (H s) as (e1 & E1 & N1). destruct (m s) as [s1 [a|e]]; cbn [fst snd] in *; [|exists e1; auto].
  destruct (K a s1) as (e2 & N2 & E2). exists (e1 ++ e2). split; [now apply no_post_app|]. rewrite E1 in E2. destruct E2 as [E2|(p & ups & Eo & E2)].
  - left. now rewrite E2, app_assoc.
  - right. exists p, ups. split; [exact Eo|]. now rewrite E2, !app_assoc.
Qed.
Lemma ends_post p ups : ends (on_cms (emit (EvPost p ups))).
Proof. intro s. exists []. split; [apply no_post_nil|]. right. exists p, ups. now split. Qed.
Lemma rgrows_apply u path o cfg : rgrows (apply_config u path o cfg).
Proof. apply rgrows_same. intro s. destruct o as [|i k cs]; [reflexivity|]. cbn [apply_config]. now destruct (u_init u k _). Qed.
Lemma rgrows_loaded path : rgrows (loaded_at path).
Proof. now apply rgrows_same. Qed.
Lemma ends_ret : ends (ret tt).
Proof. apply ends_quiet. now apply rgrows_same. Qed.
Lemma ends_raise e : ends (raise e).
Proof. apply ends_quiet. now apply rgrows_same. Qed.

Lemma update_ends u d path persist kw : ends (runner_update u d path persist kw).
Proof.
  apply ends_bind; [apply rgrows_cms, grows_update|]. intros [r b]. apply ends_bind; [apply rgrows_loaded|]. intros [o|]; [|apply ends_ret].
  destruct b; [|apply ends_ret]. apply ends_bind; [apply rgrows_cms, grows_deref|]. intro c. apply ends_bind; [apply rgrows_apply|]. intro.
  destruct (dmem "d" kw); [apply ends_raise|apply ends_post].
Qed.
Lemma reset_ends base u path ac : ends (runner_reset base u path ac).
Proof.
  apply ends_bind; [apply rgrows_cms, grows_reset|]. intros [r b]. apply ends_bind; [apply rgrows_loaded|]. intros [o|]; [|apply ends_ret].
  destruct b; [|apply ends_ret]. destruct r; [|apply ends_raise]. apply ends_bind; [apply rgrows_apply|]. intro.
  apply ends_bind; [now apply rgrows_same|]. intro. apply ends_post.
Qed.
Lemma rgrows_config path : rgrows (get_config path).
Proof.
  intro s. unfold get_config. unfold bind. destruct (rgrows_cms _ (grows_get path) s) as (e1 & E1 & N1).
  destruct (on_cms (cm_get path) s) as [s1 [[r|]|e]]; cbn [fst] in *; [|now exists e1|now exists e1].
  destruct (rgrows_cms _ (grows_deref r) s1) as (e2 & E2 & N2). exists (e1 ++ e2). rewrite E2, E1, app_assoc. split; [reflexivity|now apply no_post_app].
Qed.
Lemma refresh_ends u path : ends (runner_refresh u path).
Proof.
  apply ends_bind; [apply rgrows_cms, grows_refresh|]. intros [[r b] ups]. apply ends_bind; [apply rgrows_loaded|]. intros [o|]; [|apply ends_ret].
  destruct b; [|apply ends_ret]. apply ends_bind; [apply rgrows_config|]. intro c. apply ends_bind; [apply rgrows_apply|]. intro. apply ends_post.
Qed.

Lemma hooked_post before after evs p ups : cs_trace (r_cms after) = cs_trace (r_cms before) ++ evs ++ [EvPost p ups] -> hooked before after = Some p.
Proof. intro E. unfold hooked. rewrite E, skipn_app, Nat.sub_diag, skipn_all. cbn [skipn app]. now rewrite rev_app_distr. Qed.
Lemma hooked_none before after evs : no_post evs -> cs_trace (r_cms after) = cs_trace (r_cms before) ++ evs -> hooked before after = None.
Proof.
  intros N E. unfold hooked. rewrite E, skipn_app, Nat.sub_diag, skipn_all. cbn [skipn app].
  destruct (rev evs) as [|[|p ups] l] eqn:R; try reflexivity. exfalso. apply (N p ups). apply in_rev. rewrite R. now left.
Qed.

(** * One item *)
Lemma load_self m q s : load_with m (Some q) q s = on_rs m s.
Proof.
  unfold load_with, bind, gets, on_rs. destruct (m (n_rs s)) as [r [o|e]]; [|reflexivity]. destruct (dget q (r_loaded (n_rs s))); [reflexivity|].
  unfold record, modify, ret. now rewrite String.eqb_refl.
Qed.
Lemma record_rs top q s : n_rs (fst (record top q s)) = n_rs s.
Proof. unfold record, modify. cbn [fst]. destruct top as [f|]; [|reflexivity]. now destruct (_ || _)%bool. Qed.
Lemma in_run_one_eq its u progs inner top q b t s : get_func_or_collection its q = Ok (b, FThing t) ->
  in_run_one its u progs inner top q s = match run_head its u q t (n_rs s) with
    | (r1, Ok o) => (r <- call progs inner q o ;; record top q ;;; ret r) (NS r1 (n_deps s))
    | (r1, Raise e) => (NS r1 (n_deps s), Raise e)
    end.
Proof.
  intro E. unfold in_run_one, bind at 1, lift. rewrite E.
  assert (H : forall A (m : M rs A) m', (m <- on_rs m ;; o <- load_with m' (Some q) q ;; r <- call progs inner q o ;; record top q ;;; ret r) s =
    match (m <- m ;; m') (n_rs s) with (r1, Ok o) => (r <- call progs inner q o ;; record top q ;;; ret r) (NS r1 (n_deps s)) | (r1, Raise e) => (NS r1 (n_deps s), Raise e) end).
  { intros A m m'. unfold bind at 1, on_rs. unfold bind at 4. destruct (m (n_rs s)) as [r1 [a|e]]; [|reflexivity]. unfold bind at 1. rewrite load_self. unfold on_rs. cbn [n_rs n_deps].
    destruct (m' r1) as [r2 [o|e]]; reflexivity. }
  destruct b, t; first [apply H | now destruct s].
Qed.

Section Main.
Variable base : string.
Variable its : items.
Variable u : user.
Variable progs : list (string * lobj) -> string -> lobj -> prog.
Variable order : list string -> list string.
Hypothesis Pre : u_pre_run u = [].
Hypothesis Secs : sections_run its.
Hypothesis Ord : forall l, Permutation (order l) l.
Notation R := (rop_run base its u).
Notation Amounts := (amounts base its u progs order).
Notation Next := (next base its u progs order).
Notation Script := (script base its u progs order).
Notation Each := (each base its u progs order).
Definition inner_of (d : nat) := match d with 0 => None | S d' => Some (in_op base its u progs order d') end.
Lemma in_op_eq d : in_op base its u progs order d = op_with base its u progs order (inner_of d).
Proof. now destruct d. Qed.
Definition ok_at (d : nat) : Prop := forall top op s, exists l, Amounts d top s op l /\ n_rs (Next d top op s) = fold_left R l (n_rs s).
Definition ok_below (d : nat) : Prop := match d with 0 => True | S d' => ok_at d' end.

Lemma exec_script d f p : ok_below d -> forall s, exists l, Script d f s p l /\ n_rs (fst (exec (inner_of d) (Some f) p s)) = fold_left R l (n_rs s).
Proof.
  intro H. induction p as [r|op k IH]; intro s; [exists []; split; [constructor|reflexivity]|]. destruct d as [|d]; cbn [inner_of exec].
  - destruct (IH (Raise RecursionError) s) as (l & L1 & L2). exists l. split; [now constructor|exact L2].
  - destruct (H (Some f) op s) as (l1 & L1 & E1). unfold next in E1.
    destruct (IH (said base its u progs order d (Some f) op s) (Next d (Some f) op s)) as (l2 & L2 & E2). exists (l1 ++ l2). split; [now apply sc_use|].
    rewrite fold_left_app, <- E1. unfold next, said in E2. unfold inner_of in E2. destruct (in_op base its u progs order d (Some f) op s) as [s' a]. exact E2.
Qed.

Lemma alone_run q s : R s (run_alone q) = fst (run_one its u q s).
Proof. unfold run_alone. cbn [rop_run]. unfold pm_run. rewrite Pre. apply run_str_state. Qed.

Lemma one_does d top q s : ok_below d -> is_thing its q ->
  exists l, one base its u progs order d s q l /\ n_rs (fst (in_run_one its u progs (inner_of d) top q s)) = fold_left R l (n_rs s).
Proof.
  intros H (b & t & E). rewrite (in_run_one_eq _ _ _ _ _ _ _ _ _ E). assert (Q := head_quiet its u q t (n_rs s)). unfold quiet in Q.
  assert (X := alone_run q (n_rs s)). rewrite (run_one_eq _ _ _ _ _ _ E) in X. unfold bind in X.
  destruct (run_head its u q t (n_rs s)) as [r1 [o|e]]; cbn [fst] in Q, X.
  - set (s1 := NS (R (n_rs s) (run_alone q)) (n_deps s)). destruct (exec_script d q (progs (r_calls (n_rs s)) q o) H s1) as (l & L1 & L2).
    exists (run_alone q :: l). split.
    + apply one_calls with (o := o); [|exact L1]. unfold Inside_Spec.does. cbn [n_rs]. rewrite X. unfold call_object. cbn [fst r_calls]. now rewrite Q.
    + cbn [fold_left]. change (R (n_rs s) (run_alone q)) with (n_rs s1). rewrite <- L2. unfold bind at 1, call. cbn [n_rs n_deps]. unfold bind at 1.
      assert (S1 : NS (RS (r_cms r1) (r_loaded r1) (r_next r1) (r_calls r1 ++ [(q, o)])) (n_deps s) = s1) by (unfold s1; now rewrite X).
      rewrite S1, Q. destruct (exec (inner_of d) (Some q) (progs (r_calls (n_rs s)) q o) s1) as [s2 [v|e]]; [|reflexivity]. unfold ret, bind.
      assert (Y := record_rs top q s2). destruct (record top q s2) as [s3 [[]|e]]; exact Y.
  - exists [run_alone q]. split; [|cbn [fold_left n_rs fst]; now rewrite X]. apply one_fails. unfold Inside_Spec.does. cbn [n_rs]. now rewrite X.
Qed.

(** * Some of the functions, in order *)
Definition step (d : nat) (top : option string) (s : ns) (q : string) : ns := fst (in_run_one its u progs (inner_of d) top q s).
Lemma in_run_str_state inner top p s : fst (in_runner_run its u progs inner top (AStr p) s) = fst (in_run_one its u progs inner top p s).
Proof. unfold in_runner_run, bind. destruct (in_run_one its u progs inner top p s) as [s1 [r|e]]; [|reflexivity]. now destruct (u_post_run u r). Qed.
Lemma next_step d top q s : Next d top (run_alone q) s = step d top s q.
Proof.
  unfold next, run_alone, step. rewrite in_op_eq. cbn [op_with]. unfold bind at 1, in_pm_run. rewrite Pre. unfold combine. cbn [app].
  assert (X := in_run_str_state (inner_of d) top q s). destruct (in_runner_run its u progs (inner_of d) top (AStr q) s) as [s1 [r|e]]; exact X.
Qed.
Lemma each_does d top : ok_below d -> forall qs s, Forall (is_thing its) qs ->
  exists l, Each d top s qs l /\ n_rs (fold_left (step d top) qs s) = fold_left R l (n_rs s).
Proof.
  intros H. induction qs as [|q qs IH]; intros s T; [exists []; split; [constructor|reflexivity]|]. inversion T as [|? ? T1 T2]; subst.
  destruct (one_does d top q s H T1) as (l & L1 & L2). destruct (IH (step d top s q) T2) as (l' & L1' & L2'). exists (l ++ l'). split.
  - constructor; [exact L1|]. now rewrite next_step.
  - cbn [fold_left]. rewrite L2', fold_left_app. unfold step. now rewrite L2.
Qed.

Section Steps.
Variable d : nat.
Variable top : option string.
Notation run1 := (in_run_one its u progs (inner_of d) top).
Definition goes {A} (m : M ns A) (ps : list string) : Prop :=
  forall s, exists qs, beginning qs ps /\ fst (m s) = fold_left (step d top) qs s /\ forall a, snd (m s) = Ok a -> qs = ps.
Lemma goes_ret {A} (a : A) : goes (ret a) [].
Proof. intro s. exists []. repeat split. apply beginning_nil. Qed.
Lemma goes_raise {A} e ps : goes (A := A) (raise e) ps.
Proof. intro s. exists []. split; [apply beginning_nil|]. split; [reflexivity|discriminate]. Qed.
Lemma goes_bind {A B} (m : M ns A) (k : A -> M ns B) ps ps' : goes m ps -> (forall a, goes (k a) ps') -> goes (bind m k) (ps ++ ps').
Proof.
  intros H K s. unfold bind. destruct (H s) as (qs & H1 & H2 & H3). destruct (m s) as [s1 [a|e]]; cbn [fst snd] in *.
  - rewrite (H3 a eq_refl) in *. destruct (K a s1) as (qs' & K1 & K2 & K3). exists (ps ++ qs'). split; [now apply beginning_app|].
    rewrite fold_left_app. rewrite <- H2. split; [exact K2|]. intros b Eb. now rewrite (K3 b Eb).
  - exists qs. split; [now apply beginning_more|]. split; [exact H2|discriminate].
Qed.
Lemma goes_then {A B} (m : M ns A) (k : A -> M ns B) ps : goes m ps -> (forall a, goes (k a) []) -> goes (bind m k) ps.
Proof. intros H K. rewrite <- (app_nil_r ps). now apply goes_bind. Qed.
Lemma goes_mapM {A B} (f : A -> M ns B) (h : A -> list string) l : (forall a, In a l -> goes (f a) (h a)) -> goes (mapM f l) (flat_map h l).
Proof.
  induction l as [|a l IH]; intro H; cbn [mapM flat_map]; [apply goes_ret|]. apply goes_bind; [apply H; now left|]. intro b.
  apply goes_then; [apply IH; intros x Hx; apply H; now right|]. intro. apply goes_ret.
Qed.
Lemma goes_one q : goes (run1 q) [q].
Proof. intro s. exists [q]. split; [apply beginning_refl|]. split; reflexivity. Qed.

(** * Sections *)
Definition thunks {A} (f : coll -> string -> M ns A) (path : string) (l : list entry) : list (string * option (M ns A)) :=
  map (fun e => match e with
                | EItem n _ => (n, None)
                | EColl c => (coll_name c, Some (f c (sub_path path (coll_name c))))
                end) l.
Lemma thunk_coll {A} (f : coll -> string -> M ns A) path l c : NoDup (map entry_name l) -> In (EColl c) l ->
  dget (coll_name c) (rev (thunks f path l)) = Some (Some (f c (sub_path path (coll_name c)))).
Proof.
  intros N H. apply In_dget.
  - unfold dwf, dkeys. rewrite map_rev. apply NoDup_rev. replace (map fst (thunks f path l)) with (map entry_name l); [exact N|].
    unfold thunks. rewrite map_map. apply map_ext. now intros [].
  - apply in_rev. rewrite rev_involutive. unfold thunks. apply in_map_iff. exists (EColl c). auto.
Qed.
Definition in_entry (path : string) (subs : list (string * option (M ns result))) (e : entry) : M ns result :=
  match e with
  | EColl c' => match dget (coll_name c') (rev subs) with
                | Some (Some m) => m
                | _ => raise TypeError
                end
  | EItem n (TFunc _) => in_run_func its progs (inner_of d) top (sub_path path n)
  | EItem n (TClass _) => in_run_class its u progs (inner_of d) top path
  | EItem n (TInst _) => in_run_specific_class its u progs (inner_of d) top path
  | EItem n (TBroken e) => raise e
  | EItem n TOther => raise ValueError
  end.
Lemma in_section_eq n l path : in_run_section its u progs (inner_of d) top (Coll n l) path =
  (results <- mapM (in_entry path (thunks (in_run_section its u progs (inner_of d) top) path l)) l ;; ret (RList results)).
Proof.
  cbn [in_run_section]. f_equal. match goal with |- mapM (fun e => match e with EItem _ _ => _ | EColl c' => match dget _ (rev ?x) with _ => _ end end) _ = _ =>
    assert (E : x = thunks (in_run_section its u progs (inner_of d) top) path l) end.
  { unfold thunks. induction l as [|[]]; cbn; [reflexivity| |]; now f_equal. }
  rewrite E. reflexivity.
Qed.
Lemma goes_section c : forall path, names_ok c -> get_func_or_collection its path = Ok (false, FColl c) -> ~ In SFail (section_plan path c) ->
  goes (in_run_section its u progs (inner_of d) top c path) (item_paths path c).
Proof.
  induction c as [n l IH] using coll_ind2. intros path N Hp G. assert (Ge := good_entries path n l G). rewrite in_section_eq, item_paths_eq.
  apply goes_then; [|intro; apply goes_ret]. apply goes_mapM. intros e He. specialize (Ge e He). destruct e as [x t|c]; cbn [in_entry entry_paths].
  - destruct t as [f|k| |err|k]; try contradiction. assert (Ef := entry_found its path n l (EItem x (TFunc f)) Hp N He ltac:(discriminate)).
    cbn [entry_name found_of] in Ef. rewrite <- sub_path_str. intro s. destruct (goes_one (sub_path path x) s) as (qs & B & X). exists qs. split; [exact B|].
    unfold in_run_one at 1 2, bind, lift in X. now rewrite Ef in X.
  - rewrite thunk_coll; [|eapply names_ok_nodup; exact N|exact He]. cbn [good_entry] in Ge. rewrite <- sub_path_str in *.
    apply (IH c He); [exact (proj2 (proj2 (names_ok_entry _ _ _ N He)))|exact (entry_found its path n l (EColl c) Hp N He ltac:(discriminate))|exact Ge].
Qed.
Lemma things_section c : forall path, names_ok c -> get_func_or_collection its path = Ok (false, FColl c) -> ~ In SFail (section_plan path c) ->
  Forall (is_thing its) (item_paths path c).
Proof.
  induction c as [n l IH] using coll_ind2. intros path N Hp G. assert (Ge := good_entries path n l G). rewrite item_paths_eq. apply Forall_forall. intros q Hq.
  apply in_flat_map in Hq as (e & He & Hq). specialize (Ge e He). destruct e as [x t|c]; cbn [entry_paths] in Hq.
  - destruct t as [f|k| |err|k]; try contradiction. destruct Hq as [<-|[]]. rewrite <- sub_path_str. exists false, (TFunc f).
    exact (entry_found its path n l (EItem x (TFunc f)) Hp N He ltac:(discriminate)).
  - cbn [good_entry] in Ge. rewrite <- sub_path_str in *. refine (proj1 (Forall_forall _ _) (IH c He _ _ _ Ge) q Hq);
      [exact (proj2 (proj2 (names_ok_entry _ _ _ N He)))|exact (entry_found its path n l (EColl c) Hp N He ltac:(discriminate))].
Qed.

Lemma goes_path p : exists ps, leads its p ps /\ Forall (is_thing its) ps /\ goes (run1 p) ps.
Proof.
  destruct (get_func_or_collection its p) as [[b f]|e] eqn:E.
  - destruct f as [c|t|].
    + destruct b.
      * exists []. split; [apply leads_nowhere; [intros (b & t & X); congruence|intros c' X; congruence]|]. split; [constructor|].
        unfold in_run_one. intro s. unfold bind, lift. rewrite E. exact (goes_raise ValueError [] s).
      * destruct (Secs p c E) as (N & G). exists (item_paths p c). split; [constructor; now apply for_its_functions|]. split; [now apply things_section|].
        intro s. unfold in_run_one, bind, lift. rewrite E. now apply goes_section.
    + assert (T : is_thing its p) by now exists b, t. exists [p]. split; [constructor; now constructor|]. split; [now constructor|]. apply goes_one.
    + exists []. split; [apply leads_nowhere; [intros (b' & t & X); congruence|intros c' X; congruence]|]. split; [constructor|].
      unfold in_run_one. intro s. unfold bind, lift. rewrite E. destruct b; exact (goes_raise ValueError [] s).
  - exists []. split; [apply leads_nowhere; [intros (b' & t & X); congruence|intros c' X; congruence]|]. split; [constructor|].
    unfold in_run_one. intro s. unfold bind, lift. rewrite E. exact (goes_raise e [] s).
Qed.
Lemma choose l : exists pss, Forall2 (leads its) l pss /\ Forall (is_thing its) (concat pss) /\ Forall2 (fun p ps => goes (run1 p) ps) l pss.
Proof.
  induction l as [|p l (pss & I1 & I2 & I3)]; [exists []; repeat constructor|]. destruct (goes_path p) as (ps & J1 & J2 & J3). exists (ps :: pss).
  split; [now constructor|]. split; [cbn [concat]; apply Forall_app; now split|now constructor].
Qed.

(** * Lists and settings *)
Lemma goes_list l pss : Forall2 (fun p ps => goes (run1 p) ps) l pss -> goes (mapM run1 l) (concat pss).
Proof. induction 1 as [|p ps l pss H _ IH]; [apply goes_ret|]. cbn [mapM concat]. apply goes_bind; [exact H|]. intro. apply goes_then; [exact IH|]. intro. apply goes_ret. Qed.
Lemma goes_post {A} (m : M ns A) (k : A -> result) ps : goes m ps -> goes (r <- m ;; ret (k r)) ps.
Proof. intro H. apply goes_then; [exact H|]. intro. apply goes_ret. Qed.
Lemma goes_runner a pss : Forall2 (fun p ps => goes (run1 p) ps) (asked_for a) pss -> goes (in_runner_run its u progs (inner_of d) top a) (concat pss).
Proof.
  intro H. unfold in_runner_run. apply goes_then.
  - destruct a as [p|l]; cbn [asked_for] in H.
    + inversion H as [|? ps ? ? H1 H2]; subst. inversion H2; subst. cbn [concat]. rewrite app_nil_r. exact H1.
    + apply (goes_post (mapM run1 l) RList). now apply goes_list.
  - intro r. destruct (u_post_run u r); [apply goes_ret|]. destruct a; [apply goes_ret|]. destruct r; apply goes_ret.
Qed.
Lemma in_try_state {A} (m : M ns A) s : fst (in_try m s) = fst (m s).
Proof. unfold in_try. destruct (m s) as [s1 [a|e]]; [reflexivity|]. destruct (user_interrupt e); reflexivity. Qed.
Lemma goes_force l pss : Forall2 (fun p ps => goes (run1 p) ps) l pss -> forall s, exists qss, Forall2 beginning qss pss /\
  fst (in_force_loop its u progs (inner_of d) top l s) = fold_left (step d top) (concat qss) s.
Proof.
  induction 1 as [|p ps l pss H _ IH]; intro s; [exists []; now split|]. cbn [in_force_loop]. unfold bind at 1.
  assert (T := in_try_state (in_runner_run its u progs (inner_of d) top (AStr p)) s). destruct (H s) as (qs & B & E & _).
  rewrite in_run_str_state, E in T. destruct (in_try (in_runner_run its u progs (inner_of d) top (AStr p)) s) as [s1 [r|e]]; cbn [fst] in T; subst s1.
  - unfold bind at 1. destruct (IH (fold_left (step d top) qs s)) as (qss & Bs & Es). destruct (in_force_loop its u progs (inner_of d) top l _) as [s2 [x|e]]; cbn [fst] in Es.
    + exists (qs :: qss). split; [now constructor|]. cbn [concat]. rewrite fold_left_app, <- Es. now destruct r.
    + exists (qs :: qss). split; [now constructor|]. cbn [concat fst]. now rewrite fold_left_app, <- Es.
  - exists (qs :: map (fun _ => []) pss). split.
    + constructor; [exact B|]. clear. induction pss; constructor; [apply beginning_nil|assumption].
    + cbn [concat fst]. now rewrite concat_nils, app_nil_r.
Qed.
Lemma goes_pm set a pss s : Forall2 (fun p ps => goes (run1 p) ps) (asked_for a) pss -> exists qss, Forall2 beginning qss pss /\
  fst (in_pm_run its u progs (inner_of d) top set a s) = fold_left (step d top) (concat qss) s /\
  (set = Plain -> forall r, snd (in_pm_run its u progs (inner_of d) top set a s) = Ok r -> qss = pss).
Proof.
  intro H. unfold in_pm_run. rewrite Pre. set (a' := combine a []).
  assert (Ha : asked_for a' = asked_for a). { unfold a', combine. rewrite app_nil_r. destruct a as [p|[|p [|]]]; reflexivity. }
  rewrite <- Ha in H. destruct (goes_runner a' pss H s) as (qs & B & E & O).
  assert (X : exists qss, Forall2 beginning qss pss /\ fst (in_runner_run its u progs (inner_of d) top a' s) = fold_left (step d top) (concat qss) s /\
    (forall r, snd (in_runner_run its u progs (inner_of d) top a' s) = Ok r -> qss = pss)).
  { destruct (snd (in_runner_run its u progs (inner_of d) top a' s)) as [r|e] eqn:Es.
    - exists pss. split; [clear; induction pss; constructor; [apply beginning_refl|assumption]|]. rewrite <- (O r eq_refl). now split.
    - destruct (beginning_split _ _ B) as (qss & B1 & B2). exists qss. split; [exact B1|]. rewrite B2. split; [exact E|discriminate]. }
  destruct set.
  - destruct X as (qss & X1 & X2 & X3). exists qss. repeat split; auto.
  - unfold in_force_continue. fold (asked_for a').
    destruct (goes_force _ _ H s) as (qss & F1 & F2). exists qss. split; [exact F1|]. split; [|discriminate]. rewrite <- F2. unfold bind.
    destruct (in_force_loop its u progs (inner_of d) top (asked_for a') s) as [s1 [x|e]]; [|reflexivity]. cbn [fst snd]. destruct a'; [destruct x as [|? [|]]|]; reflexivity.
  - destruct X as (qss & X1 & X2 & X3). exists qss. split; [exact X1|]. split; [|discriminate]. rewrite <- X2. unfold bind.
    rewrite <- (in_try_state (in_runner_run its u progs (inner_of d) top a')). destruct (in_try _ s) as [s1 [[|]|]]; reflexivity.
Qed.
End Steps.

Lemma run_amounts d top set a s : ok_below d -> exists l, Amounts d top s (RRun set a) l /\ n_rs (Next d top (RRun set a) s) = fold_left R l (n_rs s).
Proof.
  intro H. destruct (choose d top (asked_for a)) as (pss & C1 & C2 & C3). destruct (goes_pm d top set a pss s C3) as (qss & B & E & O).
  assert (T : Forall (is_thing its) (concat qss)). { apply Forall_forall. intros q Hq. exact (proj1 (Forall_forall _ _) C2 q (concat_In _ _ q B Hq)). }
  destruct (each_does d top H (concat qss) s T) as (l & L1 & L2). exists l. split.
  - apply am_run with (pss := pss) (qss := qss); [exact C1|exact B|exact L1|]. intros Hs r Hr. unfold said in Hr. rewrite in_op_eq in Hr. cbn [op_with] in Hr. unfold bind in Hr.
    destruct (in_pm_run its u progs (inner_of d) top set a s) as [s1 [x|e]]; [|discriminate]. exact (O Hs x eq_refl).
  - rewrite <- L2. rewrite <- E. unfold next. rewrite in_op_eq. cbn [op_with]. unfold bind. now destruct (in_pm_run its u progs (inner_of d) top set a s) as [s1 [x|e]].
Qed.

(** * Gets and changes *)
Lemma get_rs top path s : n_rs (fst (in_get its u top path s)) = R (n_rs s) (RGet path).
Proof.
  unfold in_get, on_rs. cbn [rop_run]. destruct (runner_get its u path (n_rs s)) as [r o]. cbn [fst n_rs].
  assert (X : forall l x, n_rs (fold_left (fun t q => fst (record top q t)) l x) = n_rs x).
  { induction l as [|q l IH]; intro x; [reflexivity|]. cbn [fold_left]. rewrite IH. apply record_rs. }
  now rewrite X.
Qed.
Lemma refreshes d top : ok_below d -> forall qs s,
  let m := mapM (fun q => match inner_of d with None => raise RecursionError | Some f => f top (RRefresh q) end) qs s in
  exists qs1 rest l, qs1 ++ rest = qs /\ refreshed base its u progs order d top s qs1 l /\ n_rs (fst m) = fold_left R l (n_rs s) /\ (forall a, snd m = Ok a -> rest = []).
Proof.
  intro H. induction qs as [|q qs IH]; intros s m.
  - exists [], [], []. repeat split. constructor.
  - unfold m. clear m. cbn [mapM]. unfold bind. destruct d as [|d]; cbn [inner_of].
    + exists [], (q :: qs), []. split; [reflexivity|]. split; [constructor|]. split; [reflexivity|discriminate].
    + destruct (H top (RRefresh q) s) as (l & L1 & L2). specialize (IH (Next d top (RRefresh q) s)). cbv zeta in IH.
      destruct IH as (qs1 & rest & l' & I1 & I2 & I3 & I4). unfold next in L2, I2, I3, I4. destruct (in_op base its u progs order d top (RRefresh q) s) as [s1 [a|e]] eqn:Eo; cbn [fst] in *.
      * exists (q :: qs1), rest, (l ++ l'). split; [cbn [app]; now rewrite I1|]. split; [constructor; [exact L1|unfold next; rewrite Eo; exact I2]|].
        unfold inner_of in I3, I4. unfold ret. rewrite fold_left_app, <- L2, <- I3.
        destruct (mapM _ qs s1) as [s2 [x|e]]; cbn [fst snd] in *; split; try reflexivity; [intros b _; exact (I4 x eq_refl)|discriminate].
      * exists [q], qs, (l ++ []). split; [reflexivity|]. split; [constructor; [exact L1|constructor]|]. rewrite app_nil_r. split; [exact L2|discriminate].
Qed.
Lemma depending_eq deps p : dependents deps p = flat_map (fun d => if String.eqb (fst d) p then [snd d] else []) deps.
Proof. unfold dependents. induction deps as [|x l IH]; [reflexivity|]. cbn [filter flat_map]. destruct (String.eqb (fst x) p); cbn [map app]; now rewrite IH. Qed.

Lemma change_amounts d top op m s : ok_below d -> changes op -> ends m -> (forall r, R r op = fst (m r)) ->
  in_op base its u progs order d top op = change order (inner_of d) top m ->
  exists l, Amounts d top s op l /\ n_rs (Next d top op s) = fold_left R l (n_rs s).
Proof.
  intros H C En Em Eo. assert (Es := Em (n_rs s)). destruct (En (n_rs s)) as (evs & N & Tr). unfold next. rewrite Eo. unfold change, on_rs.
  destruct Tr as [Tr|(p & ups & Ok1 & Tr)].
  - exists [op]. split.
    + apply am_alone; [exact C|]. intros p (evs' & ups & E). unfold Inside_Spec.does in E. cbn [n_rs] in E. rewrite Es, Tr in E. apply app_inv_head in E.
      apply (N p ups). rewrite E. apply in_app_iff. right. now left.
    + cbn [fold_left]. rewrite Es. assert (Hn := hooked_none (n_rs s) _ _ N Tr). destruct (m (n_rs s)) as [r [[]|e]]; cbn [fst n_rs] in *; [|reflexivity].
      rewrite Hn. reflexivity.
  - assert (Hk := hooked_post _ _ _ _ _ Tr). destruct (refreshes d top H (order (dependents (n_deps s) p)) (Inside_Spec.does base its u op s)) as (qs & rest & l & I1 & I2 & I3 & I4).
    assert (Xd : Inside_Spec.does base its u op s = NS (fst (m (n_rs s))) (n_deps s)) by (unfold Inside_Spec.does; now rewrite Es).
    exists (op :: l). split.
    + apply am_change with (p := p) (qs := qs) (rest := rest); [exact C| | |exact I2|].
      * exists evs, ups. rewrite Xd. exact Tr.
      * unfold depending. rewrite I1, <- depending_eq. apply Ord.
      * intros a Ea. unfold said in Ea. rewrite Eo in Ea. unfold change, on_rs in Ea. rewrite Xd in I4. destruct (m (n_rs s)) as [r [[]|e]]; [|discriminate Ok1].
        cbn [n_rs fst] in *. rewrite Hk in Ea. unfold bind at 1 in Ea. unfold refresh_dependents in Ea. cbn [n_deps] in Ea. unfold bind in Ea.
        destruct (mapM _ (order (dependents (n_deps s) p)) (NS r (n_deps s))) as [s2 [x|e]]; [exact (I4 x eq_refl)|discriminate].
    + cbn [fold_left]. change (R (n_rs s) op) with (n_rs (Inside_Spec.does base its u op s)). rewrite <- I3, Xd. destruct (m (n_rs s)) as [r [[]|e]]; [|discriminate Ok1].
      cbn [n_rs fst] in *. rewrite Hk. unfold bind at 1, refresh_dependents. cbn [n_deps]. unfold bind.
      destruct (mapM _ (order (dependents (n_deps s) p)) (NS r (n_deps s))) as [s2 [x|e]]; reflexivity.
Qed.

Theorem all_amount d : ok_at d.
Proof.
  assert (S : forall d, ok_below d -> ok_at d).
  { intros d0 H top op s. destruct op as [p|set a|dd p persist kw|p ac|p].
    - exists [RGet p]. split; [constructor|]. cbn [fold_left]. rewrite <- (get_rs top). unfold next. rewrite in_op_eq. cbn [op_with]. unfold bind. now destruct (in_get its u top p s) as [s1 [g|e]].
    - now apply run_amounts.
    - apply (change_amounts d0 top _ (runner_update u dd p persist kw)); [exact H|exact I|apply update_ends|reflexivity|now rewrite in_op_eq].
    - apply (change_amounts d0 top _ (runner_reset base u p ac)); [exact H|exact I|apply reset_ends|reflexivity|now rewrite in_op_eq].
    - apply (change_amounts d0 top _ (runner_refresh u p)); [exact H|exact I|apply refresh_ends|reflexivity|now rewrite in_op_eq]. }
  induction d as [|d IH]; apply S; [exact I|exact IH].
Qed.
Theorem history_amounts d ops : forall s, exists l, amount_all base its u progs order d s ops l /\
  n_rs (history base its u progs order d ops s) = fold_left R l (n_rs s).
Proof.
  induction ops as [|op ops IH]; intro s; [exists []; split; [constructor|reflexivity]|].
  destruct (all_amount d None op s) as (l & L1 & L2). destruct (IH (Next d None op s)) as (l' & L1' & L2'). exists (l ++ l'). split; [now constructor|].
  rewrite fold_left_app, <- L2. exact L2'.
Qed.
End Main.

(** * The dependencies recorded *)
Lemma NoDup_both {A} (a b : list A) : NoDup a -> NoDup b -> (forall x, In x a -> In x b -> False) -> NoDup (a ++ b).
Proof.
  intros Ha Hb H. induction Ha as [|x a Hx Ha IH]; [exact Hb|]. cbn [app]. constructor.
  - intro I. apply in_app_iff in I as [I|I]; [exact (Hx I)|]. apply (H x); [now left|exact I].
  - apply IH. intros y Hy. apply H. now right.
Qed.
Section Recorded.
Variable base : string.
Variable its : items.
Variable u : user.
Variable progs : list (string * lobj) -> string -> lobj -> prog.
Variable order : list string -> list string.
Hypothesis Pre : u_pre_run u = [].
Hypothesis Secs : sections_run its.
Notation Next := (next base its u progs order).
Notation inner_of := (inner_of base its u progs order).
Notation step := (step base its u progs order).

Definition fits (top : option string) (deps : list (string * string)) (r : rs) (x : string * string) : Prop :=
  fst x <> snd x /\ ~ In x deps /\ (top = Some (snd x) \/ is_thing its (snd x) /\ exists o, In (snd x, o) (r_calls r)).
Definition ext (top : option string) (s s' : ns) : Prop :=
  incl (r_calls (n_rs s)) (r_calls (n_rs s')) /\
  exists new, n_deps s' = n_deps s ++ new /\ NoDup new /\ Forall (fits top (n_deps s) (n_rs s')) new.
Lemma ext_refl top s : ext top s s.
Proof. split; [apply incl_refl|]. exists []. rewrite app_nil_r. repeat split; constructor. Qed.
Lemma ext_trans top s1 s2 s3 : ext top s1 s2 -> ext top s2 s3 -> ext top s1 s3.
Proof.
  intros (C1 & n1 & E1 & N1 & F1) (C2 & n2 & E2 & N2 & F2). split; [exact (incl_tran C1 C2)|]. exists (n1 ++ n2). split; [now rewrite E2, E1, app_assoc|].
  rewrite Forall_forall in F1, F2. split.
  - apply NoDup_both; [exact N1|exact N2|]. intros x H1 H2. destruct (F2 x H2) as (_ & X & _). apply X. rewrite E1. apply in_app_iff. now right.
  - apply Forall_forall. intros x Hx. apply in_app_iff in Hx as [Hx|Hx].
    + destruct (F1 x Hx) as (A & B & C). split; [exact A|]. split; [exact B|]. destruct C as [C|(T & o & C)]; [now left|]. right. split; [exact T|]. exists o. now apply C2.
    + destruct (F2 x Hx) as (A & B & C). split; [exact A|]. split; [|exact C]. intro H. apply B. rewrite E1. apply in_app_iff. now left.
Qed.
Lemma ext_calls top s r : incl (r_calls (n_rs s)) (r_calls r) -> ext top s (NS r (n_deps s)).
Proof. intro H. split; [exact H|]. exists []. cbn [n_deps]. rewrite app_nil_r. repeat split; constructor. Qed.
Lemma pair_eqb_iff a b : pair_eqb a b = true <-> a = b.
Proof.
  unfold pair_eqb. rewrite Bool.andb_true_iff, !String.eqb_eq. destruct a, b. cbn. split; [now intros [-> ->]|]. now intros [= -> ->].
Qed.
Lemma ext_record top q s : ext top s (fst (record top q s)).
Proof.
  unfold record, modify. cbn [fst]. destruct top as [f|]; [|apply ext_refl]. destruct (String.eqb f q || existsb (pair_eqb (q, f)) (n_deps s))%bool eqn:E; [apply ext_refl|].
  apply Bool.orb_false_iff in E as (E1 & E2). apply String.eqb_neq in E1. split; [apply incl_refl|]. exists [(q, f)]. split; [reflexivity|].
  split; [constructor; [intros []|constructor]|]. constructor; [|constructor]. split; [cbn; congruence|]. split; [|now left]. intro H.
  assert (X : existsb (pair_eqb (q, f)) (n_deps s) = true) by (apply existsb_exists; exists (q, f); split; [exact H|now apply pair_eqb_iff]). congruence.
Qed.
Lemma ext_inside top q s1 s2 : is_thing its q -> (exists o, In (q, o) (r_calls (n_rs s1))) -> ext (Some q) s1 s2 -> ext top s1 s2.
Proof.
  intros T (o & Hc) (C & n & E & N & F). split; [exact C|]. exists n. split; [exact E|]. split; [exact N|]. rewrite Forall_forall in *. intros x Hx. destruct (F x Hx) as (A & B & D).
  split; [exact A|]. split; [exact B|]. right. destruct D as [[= ->]|D]; [|exact D]. split; [exact T|]. exists o. now apply C.
Qed.

Definition ext_at (d : nat) : Prop := forall top op s, ext top s (Next d top op s).
Definition ext_below (d : nat) : Prop := match d with 0 => True | S d' => ext_at d' end.
Lemma ext_exec d f p : ext_below d -> forall s, ext (Some f) s (fst (exec (inner_of d) (Some f) p s)).
Proof.
  intro H. induction p as [r|op k IH]; intro s; [apply ext_refl|]. destruct d as [|d]; cbn [Inside_Proofs.inner_of exec]; [apply IH|].
  assert (X := H (Some f) op s). unfold next in X. destruct (in_op base its u progs order d (Some f) op s) as [s' a]. exact (ext_trans _ _ _ _ X (IH a s')).
Qed.
Lemma ext_step d top q s : ext_below d -> is_thing its q -> ext top s (step d top s q).
Proof.
  intros H T. assert (T' := T). destruct T as (b & t & E). unfold Inside_Proofs.step. rewrite (in_run_one_eq _ _ _ _ _ _ _ _ _ E). assert (Q := head_quiet its u q t (n_rs s)). unfold quiet in Q.
  destruct (run_head its u q t (n_rs s)) as [r1 [o|e]]; cbn [fst] in *; [|apply ext_calls; rewrite Q; apply incl_refl].
  unfold bind at 1, call. cbn [n_rs n_deps]. unfold bind at 1. set (s1 := NS (RS (r_cms r1) (r_loaded r1) (r_next r1) (r_calls r1 ++ [(q, o)])) (n_deps s)).
  assert (X1 : ext top s s1) by (apply ext_calls; cbn [r_calls]; rewrite Q; apply incl_appl, incl_refl).
  assert (X2 := ext_exec d q (progs (r_calls r1) q o) H s1). apply (ext_inside top) in X2; [|exact T'|exists o; cbn; apply in_app_iff; right; now left].
  assert (X3 := ext_trans _ _ _ _ X1 X2). destruct (exec (inner_of d) (Some q) (progs (r_calls r1) q o) s1) as [s2 [v|e]]; [|exact X3]. unfold ret, bind. cbn [fst] in X3.
  assert (Y := ext_record top q s2). assert (Z := ext_trans _ _ _ _ X3 Y). destruct (record top q s2) as [s3 [[]|e]]; exact Z.
Qed.
Lemma ext_steps d top qs : ext_below d -> Forall (is_thing its) qs -> forall s, ext top s (fold_left (step d top) qs s).
Proof.
  intros H T. induction T as [|q qs T1 T2 IH]; intro s; [apply ext_refl|]. cbn [fold_left]. exact (ext_trans _ _ _ _ (ext_step d top q s H T1) (IH _)).
Qed.
Lemma rop_calls r op : incl (r_calls r) (r_calls (rop_run base its u r op)).
Proof. destruct (steps_next _ _ (rop_steps base its u r op)) as (_ & (more & E) & _). rewrite E. apply incl_appl, incl_refl. Qed.
Lemma ext_refreshes d top qs : ext_below d -> forall s,
  ext top s (fst (mapM (fun q => match inner_of d with None => raise RecursionError | Some f => f top (RRefresh q) end) qs s)).
Proof.
  intro H. induction qs as [|q qs IH]; intro s; [apply ext_refl|]. cbn [mapM]. unfold bind, ret. destruct d as [|d]; cbn [Inside_Proofs.inner_of] in *; [apply ext_refl|].
  assert (X := H top (RRefresh q) s). unfold next in X. destruct (in_op base its u progs order d top (RRefresh q) s) as [s1 [a|e]]; [|exact X].
  specialize (IH s1). assert (Z := ext_trans _ _ _ _ X IH). destruct (mapM _ qs s1) as [s2 [x|e]]; exact Z.
Qed.
Lemma ext_change d top op m s : ext_below d -> (forall r, rop_run base its u r op = fst (m r)) -> ext top s (fst (change order (inner_of d) top m s)).
Proof.
  intros H E. unfold change, on_rs. assert (X := rop_calls (n_rs s) op). rewrite E in X. destruct (m (n_rs s)) as [r [[]|e]]; cbn [fst n_rs] in *; [|now apply ext_calls].
  assert (Y := ext_calls top s r X). destruct (hooked (n_rs s) r) as [p|]; [|exact Y]. unfold bind at 1, refresh_dependents. cbn [n_deps]. unfold bind, ret.
  assert (Z := ext_trans _ _ _ _ Y (ext_refreshes d top (order (dependents (n_deps s) p)) H (NS r (n_deps s)))).
  destruct (mapM _ (order (dependents (n_deps s) p)) (NS r (n_deps s))) as [s2 [x|e]]; exact Z.
Qed.
Theorem ext_all d : ext_at d.
Proof.
  assert (S : forall d, ext_below d -> ext_at d).
  { intros d0 H top op s. unfold next. rewrite in_op_eq. destruct op as [p|set a|dd p persist kw|p ac|p]; cbn [op_with].
    - unfold bind, in_get, on_rs. assert (X := rop_calls (n_rs s) (RGet p)). cbn [rop_run] in X. destruct (runner_get its u p (n_rs s)) as [r o]; cbn [fst n_rs] in *.
      assert (Y : forall l x, ext top s x -> ext top s (fold_left (fun t q => fst (record top q t)) l x)).
      { induction l as [|q l IH]; intros x Hx; [exact Hx|]. cbn [fold_left]. apply IH. exact (ext_trans _ _ _ _ Hx (ext_record top q x)). }
      assert (Z := Y (filter (fun q => negb (dmem q (r_loaded (n_rs s)))) (dkeys (r_loaded r))) _ (ext_calls top s r X)). destruct o; exact Z.
    - destruct (choose base its u progs order Secs d0 top (asked_for a)) as (pss & C1 & C2 & C3). destruct (goes_pm base its u progs order Pre d0 top set a pss s C3) as (qss & B & E & O).
      assert (T : Forall (is_thing its) (concat qss)). { apply Forall_forall. intros q Hq. exact (proj1 (Forall_forall _ _) C2 q (concat_In _ _ q B Hq)). }
      assert (X := ext_steps d0 top (concat qss) H T s). rewrite <- E in X. unfold bind, ret. destruct (in_pm_run its u progs (inner_of d0) top set a s) as [s1 [x|e]]; exact X.
    - now apply (ext_change d0 top (RUpdate dd p persist kw)).
    - now apply (ext_change d0 top (RReset p ac)).
    - now apply (ext_change d0 top (RRefresh p)). }
  induction d as [|d IH]; apply S; [exact I|exact IH].
Qed.

(** a run of an item by a running item *)
Lemma recorded_one d f q s v : is_thing its q -> q <> f -> snd (in_run_one its u progs (inner_of d) (Some f) q s) = Ok v -> In (q, f) (n_deps (step d (Some f) s q)).
Proof.
  intros (b & t & E) Nf. unfold Inside_Proofs.step. rewrite (in_run_one_eq _ _ _ _ _ _ _ _ _ E). destruct (run_head its u q t (n_rs s)) as [r1 [o|e]]; [|discriminate].
  unfold bind. destruct (call progs (inner_of d) q o (NS r1 (n_deps s))) as [s2 [w|e]]; [|discriminate].
  assert (X : In (q, f) (n_deps (fst (record (Some f) q s2))) /\ snd (record (Some f) q s2) = Ok tt).
  { unfold record, modify. cbn [fst snd]. split; [|reflexivity]. destruct (String.eqb f q) eqn:Ef; [apply String.eqb_eq in Ef; congruence|]. cbn [orb].
    destruct (existsb (pair_eqb (q, f)) (n_deps s2)) eqn:Ex; [|cbn; apply in_app_iff; right; now left]. apply existsb_exists in Ex as (x & H & Hx). apply pair_eqb_iff in Hx. now subst x. }
  destruct (record (Some f) q s2) as [s3 [[]|e]]; cbn [fst snd] in X; [intros _; apply X|destruct X; discriminate].
Qed.
Lemma recorded d f q s r : is_thing its q -> q <> f -> snd (in_op base its u progs order d (Some f) (run_alone q) s) = Ok r ->
  In (q, f) (n_deps (Next d (Some f) (run_alone q) s)).
Proof.
  intros T Nf H. rewrite (next_step base its u progs order Pre). rewrite in_op_eq in H. unfold run_alone in H. cbn [op_with] in H. unfold bind at 1, in_pm_run in H. rewrite Pre in H.
  unfold combine in H. cbn [app] in H. unfold in_runner_run in H. unfold bind in H. assert (X := recorded_one d f q s). destruct (in_run_one its u progs (inner_of d) (Some f) q s) as [s1 [v|e]]; [|discriminate].
  exact (X v T Nf eq_refl).
Qed.

(** * Properties of all operations made *)
Section All.
Hypothesis Ord : forall l, Permutation (order l) l.
Variable P : rop -> Prop.
Hypothesis Prun : forall q, is_thing its q -> P (run_alone q).
Hypothesis Pref : forall q, is_thing its q -> P (RRefresh q).
Definition P0 (op : rop) : Prop := match op with RRun _ _ => True | _ => P op end.
Hypothesis Pprog : forall h q o, only P0 (progs h q o).
Definition top_ok (top : option string) : Prop := forall f, top = Some f -> is_thing its f.
Definition deps_ok (s : ns) : Prop := forall p q, In (p, q) (n_deps s) -> is_thing its q.
Lemma deps_next d top op s : top_ok top -> deps_ok s -> deps_ok (Next d top op s).
Proof.
  intros T D p q H. destruct (ext_all d top op s) as (_ & new & E & _ & F). rewrite E in H. apply in_app_iff in H as [H|H]; [exact (D _ _ H)|].
  rewrite Forall_forall in F. destruct (F _ H) as (_ & _ & [X|(X & _)]); [exact (T _ X)|exact X].
Qed.
Lemma leads_things p ps : leads its p ps -> Forall (is_thing its) ps.
Proof. intros [q qs [q' T|q' c Hp N G]|q _ _]; [now constructor|now apply things_section|constructor]. Qed.

Lemma all_made :
  (forall d top s op l, amounts base its u progs order d top s op l -> P0 op -> top_ok top -> deps_ok s -> Forall P l) /\
  (forall d top s qs l, each base its u progs order d top s qs l -> Forall (is_thing its) qs -> top_ok top -> deps_ok s -> Forall P l) /\
  (forall d s q l, one base its u progs order d s q l -> is_thing its q -> deps_ok s -> Forall P l) /\
  (forall d f s p l, script base its u progs order d f s p l -> is_thing its f -> deps_ok s -> only P0 p -> Forall P l) /\
  (forall d top s qs l, refreshed base its u progs order d top s qs l -> Forall (is_thing its) qs -> top_ok top -> deps_ok s -> Forall P l).
Proof.
  apply amounts_all_ind.
  - intros d top s p H _ _. constructor; [exact H|constructor].
  - intros d top s op C _ H _ _. constructor; [destruct op; try contradiction; exact H|constructor].
  - intros d top s op p qs rest l C Hr Hd _ IH _ H T D. constructor; [destruct op; try contradiction; exact H|]. apply IH; [|exact T|exact D].
    apply Forall_forall. intros q Hq. apply (D p). assert (X := Permutation_in q Hd (in_or_app _ _ _ (or_introl Hq))). apply in_flat_map in X as ((a & b) & X1 & X2).
    cbn [fst snd] in X2. destruct (String.eqb a p) eqn:Ea; [|destruct X2]. destruct X2 as [<-|[]]. apply String.eqb_eq in Ea. now subst a.
  - intros d top s set a pss qss l H1 H2 _ IH _ _ T D. apply IH; [|exact T|exact D]. apply Forall_forall. intros q Hq. assert (X := concat_In _ _ q H2 Hq).
    clear - H1 X. induction H1 as [|p ps l pss H _ IH]; [destruct X|]. cbn [concat] in X. apply in_app_iff in X as [X|X]; [|auto].
    exact (proj1 (Forall_forall _ _) (leads_things _ _ H) q X).
  - constructor.
  - intros d top s q qs l l' _ IH1 _ IH2 T To D. inversion T as [|? ? T1 T2]; subst. apply Forall_app. split; [now apply IH1|]. apply IH2; [exact T2|exact To|now apply deps_next].
  - intros d s q _ T _. constructor; [now apply Prun|constructor].
  - intros d s q o l _ _ IH T D. constructor; [now apply Prun|]. apply IH; [exact T|exact D|apply Pprog].
  - constructor.
  - intros f s op k l _ IH T D O. inversion O as [|? ? O1 O2]; subst. apply IH; [exact T|exact D|apply O2].
  - intros d f s op k l l' _ IH1 _ IH2 T D O. inversion O as [|? ? O1 O2]; subst. assert (To : top_ok (Some f)) by (intros g [= <-]; exact T).
    apply Forall_app. split; [now apply IH1|]. apply IH2; [exact T|now apply deps_next|apply O2].
  - constructor.
  - intros d top s q qs l l' _ IH1 _ IH2 T To D. inversion T as [|? ? T1 T2]; subst. apply Forall_app. split; [apply IH1; [exact (Pref q T1)|exact To|exact D]|].
    apply IH2; [exact T2|exact To|now apply deps_next].
Qed.
Lemma all_made_history d ops : forall s l, amount_all base its u progs order d s ops l -> (forall op, In op ops -> P0 op) -> deps_ok s -> Forall P l.
Proof.
  assert (To : top_ok None) by (intros f X; discriminate).
  induction ops as [|op ops IH]; intros s l A H D; inversion A as [|? ? ? l1 l2 A1 A2]; subst; [constructor|]. apply Forall_app. split.
  - apply (proj1 all_made _ _ _ _ _ A1); [apply H; now left|exact To|exact D].
  - apply (IH _ _ A2); [intros o Ho; apply H; now right|now apply deps_next].
Qed.
End All.
End Recorded.

(** * Functions that do not use the manager *)
Section Plainly.
Variable base : string.
Variable its : items.
Variable u : user.
Variable order : list string -> list string.
Variable inner : option (option string -> rop -> M ns answer).
Hypothesis Ord : forall l, Permutation (order l) l.
Notation progs := (plainly (u_call u)).
Definition lifts {A} (m : M ns A) (m' : M rs A) : Prop := forall r, m (NS r []) = (NS (fst (m' r)) [], snd (m' r)).
Lemma lifts_rs {A} (m : M rs A) : lifts (on_rs m) m.
Proof. intro r. unfold on_rs. cbn. now destruct (m r). Qed.
Lemma lifts_ret {A} (a : A) : lifts (ret a) (ret a). Proof. intro r. reflexivity. Qed.
Lemma lifts_raise {A} e : lifts (@raise ns A e) (raise e). Proof. intro r. reflexivity. Qed.
Lemma lifts_lift {A} (x : res A) : lifts (lift x) (lift x). Proof. intro r. reflexivity. Qed.
Lemma lifts_bind {A B} (m : M ns A) m' (k : A -> M ns B) k' : lifts m m' -> (forall a, lifts (k a) (k' a)) -> lifts (bind m k) (bind m' k').
Proof. intros H K r. unfold bind. rewrite H. destruct (m' r) as [r1 [a|e]]; cbn [fst snd]; [apply K|reflexivity]. Qed.
Lemma lifts_mapM {A B} (f : A -> M ns B) f' l : (forall a, In a l -> lifts (f a) (f' a)) -> lifts (mapM f l) (mapM f' l).
Proof.
  induction l as [|a l IH]; intro H; [apply lifts_ret|]. cbn [mapM]. apply lifts_bind; [apply H; now left|]. intro.
  apply lifts_bind; [apply IH; intros x Hx; apply H; now right|]. intro. apply lifts_ret.
Qed.
Lemma lifts_call q o : lifts (call progs inner q o) (call_object u q o).
Proof. intro r. unfold call, call_object, plainly, bind, lift, ret. cbn [n_rs n_deps exec fst snd]. now destruct (u_call u (r_calls r) q o). Qed.
Lemma lifts_end (m : M ns result) m' q : lifts m m' -> lifts (r <- m ;; record None q ;;; ret r) m'.
Proof. intros H r. unfold bind. rewrite H. destruct (m' r) as [r1 [a|e]]; reflexivity. Qed.
Lemma lifts_load m q : lifts (load_with m (Some q) q) m.
Proof. intro r. rewrite load_self. apply lifts_rs. Qed.
Lemma lifts_func q : lifts (in_run_func its progs inner None q) (run_one_func its u q).
Proof. apply lifts_bind; [apply lifts_rs|]. intro. apply lifts_bind; [apply lifts_load|]. intro. apply lifts_end, lifts_call. Qed.
Lemma lifts_class q : lifts (in_run_class its u progs inner None q) (run_one_class its u q).
Proof. apply lifts_bind; [apply lifts_rs|]. intro. apply lifts_bind; [apply lifts_load|]. intro. apply lifts_end, lifts_call. Qed.
Lemma lifts_specific q : lifts (in_run_specific_class its u progs inner None q) (run_one_specific_class its u q).
Proof. apply lifts_bind; [apply lifts_rs|]. intro. apply lifts_bind; [apply lifts_load|]. intro. apply lifts_end, lifts_call. Qed.
Lemma lifts_section c : forall path, lifts (in_run_section its u progs inner None c path) (run_section its u c path).
Proof.
  induction c as [n l IH] using coll_ind2. intro path. cbn [in_run_section run_section]. apply lifts_bind; [|intro; apply lifts_ret]. apply lifts_mapM. intros e He.
  destruct e as [x [| | | |]|c]; try apply lifts_raise; try apply lifts_func; try apply lifts_class; try apply lifts_specific.
  match goal with |- lifts (match dget ?k (rev ?f) with _ => _ end) (match dget ?k (rev ?g) with _ => _ end) =>
    assert (E : f = thunks (in_run_section its u progs inner None) path l); [|assert (E' : g = sub_thunks (run_section its u) path l)] end.
  { clear. unfold thunks. induction l as [|[]]; cbn; [reflexivity| |]; now f_equal. }
  { clear. unfold sub_thunks. induction l as [|[]]; cbn; [reflexivity| |]; now f_equal. }
  rewrite E, E'. clear E E'. generalize (coll_name c). intro k. clear c He. unfold thunks, sub_thunks. rewrite <- !map_rev.
  assert (IH' : forall c, In (EColl c) (rev l) -> forall path, lifts (in_run_section its u progs inner None c path) (run_section its u c path)) by (intros c Hc; apply IH, in_rev, Hc).
  clear IH. induction (rev l) as [|e l' IHl]; [apply lifts_raise|]. assert (IHl' := IHl (fun c Hc => IH' c (or_intror Hc))). cbn [map].
  destruct e as [y t|c]; cbn [dget]; [destruct (String.eqb k y)|destruct (String.eqb k (coll_name c))]; try exact IHl'; [apply lifts_raise|apply IH'; now left].
Qed.
Lemma lifts_one q : lifts (in_run_one its u progs inner None q) (run_one its u q).
Proof.
  apply lifts_bind; [apply lifts_lift|]. intros [[] [c|[]|]]; try apply lifts_raise; try apply lifts_func; try apply lifts_class; try apply lifts_specific. apply lifts_section.
Qed.
Lemma lifts_runner a : lifts (in_runner_run its u progs inner None a) (runner_run its u a).
Proof.
  apply lifts_bind.
  - destruct a; [apply lifts_one|]. apply lifts_bind; [apply lifts_mapM; intros; apply lifts_one|]. intro. apply lifts_ret.
  - intro r. destruct (u_post_run u r); [apply lifts_ret|]. destruct a; [apply lifts_ret|]. destruct r; apply lifts_ret.
Qed.
Lemma lifts_try {A} (m : M ns A) m' : lifts m m' -> lifts (in_try m) (try_run m').
Proof. intros H r. unfold in_try, try_run. rewrite H. destruct (m' r) as [r1 [a|e]]; [reflexivity|]. cbn [fst snd]. destruct (user_interrupt e); reflexivity. Qed.
Definition firsts (m : M rs (list result * list (string * exn))) : M rs (list result) := x <- m ;; ret (fst x).
Lemma lifts_force l : lifts (in_force_loop its u progs inner None l) (firsts (force_loop its u l)).
Proof.
  induction l as [|p l IH]; intro r; [reflexivity|]. cbn [in_force_loop force_loop]. unfold firsts, bind, ret. rewrite (lifts_try _ _ (lifts_runner (AStr p))).
  destruct (try_run (runner_run its u (AStr p)) r) as [r1 [x|e]]; [|reflexivity]. cbn [fst snd]. rewrite IH. unfold firsts, bind, ret.
  destruct (force_loop its u l r1) as [r2 [[y z]|e]]; [|reflexivity]. now destruct x.
Qed.
Lemma lifts_pm set a : lifts (in_pm_run its u progs inner None set a) (pm_run its u set a).
Proof.
  unfold in_pm_run, pm_run. destruct set; [apply lifts_runner| |].
  - intro r. unfold in_force_continue, run_with_force_continue. unfold bind. rewrite lifts_force. unfold firsts, bind, ret.
    destruct (force_loop its u _ r) as [r1 [[x y]|e]]; [|reflexivity]. cbn [fst snd]. destruct (combine a (u_pre_run u)); [|reflexivity]. destruct x as [|? [|]]; reflexivity.
  - apply lifts_bind; [apply lifts_try, lifts_runner|]. intros []; apply lifts_ret.
Qed.
Lemma lifts_get q : lifts (in_get its u None q) (runner_get its u q).
Proof.
  intro r. unfold in_get. rewrite lifts_rs. cbn [n_rs fst snd]. generalize (filter (fun q0 => negb (dmem q0 (r_loaded r))) (dkeys (r_loaded (fst (runner_get its u q r))))).
  intro l. f_equal. generalize (NS (fst (runner_get its u q r)) []). induction l as [|x l IH]; intro s; [reflexivity|]. cbn [fold_left]. exact (IH _).
Qed.
Lemma order_nil : order [] = [].
Proof. apply Permutation_nil, Permutation_sym, Ord. Qed.
Lemma lifts_change m : lifts (change order inner None m) (m ;;; ret AnNone).
Proof.
  intro r. unfold change. rewrite lifts_rs. unfold bind, ret. destruct (m r) as [r1 [[]|e]]; [|reflexivity]. cbn [fst snd n_rs]. destruct (hooked r r1); [|reflexivity].
  unfold refresh_dependents, bind. cbn [n_deps dependents filter map]. unfold dependents. cbn [filter map]. now rewrite order_nil.
Qed.
Lemma plain_op op r : op_with base its u progs order inner None op (NS r []) = (NS (rop_run base its u r op) [], plain_answer base its u op r).
Proof.
  destruct op as [p|set a|dd p persist kw|p ac|p]; cbn [op_with rop_run plain_answer].
  - unfold bind. rewrite lifts_get. destruct (runner_get its u p r) as [r1 [g|e]]; reflexivity.
  - unfold bind. rewrite lifts_pm. destruct (pm_run its u set a r) as [r1 [g|e]]; reflexivity.
  - rewrite lifts_change. unfold bind, ret. destruct (runner_update u dd p persist kw r) as [r1 [[]|e]]; reflexivity.
  - rewrite lifts_change. unfold bind, ret. destruct (runner_reset base u p ac r) as [r1 [[]|e]]; reflexivity.
  - rewrite lifts_change. unfold bind, ret. destruct (runner_refresh u p r) as [r1 [[]|e]]; reflexivity.
Qed.
End Plainly.

(** * Projects of functions *)
Lemma below_good parts : forall c c', names_ok c -> functions_only c -> coll_get c parts = Ok (FColl c') -> names_ok c' /\ functions_only c'.
Proof.
  induction parts as [|x rest IH]; intros c c' N F; [intros [= <-]; now split|]. cbn [coll_get]. unfold coll_getattr. destruct c as [n l]. cbn [coll_entries].
  destruct (mem x coll_reserved); [destruct rest; discriminate|]. destruct (last_entry x l) as [[y t|c1]|] eqn:E; [destruct rest; discriminate| |discriminate].
  apply last_entry_In in E as (E & _). apply IH.
  - exact (proj2 (proj2 (names_ok_entry _ _ _ N E))).
  - intro p. assert (G := good_entries p n l (F p) (EColl c1) E). cbn [good_entry] in G. clear - G. revert G. generalize (p ++ "." ++ coll_name c1)%string. intro q.
    assert (X : forall c p q, In SFail (section_plan p c) -> In SFail (section_plan q c)).
    { clear. induction c as [n l IH] using coll_ind2. intros p q. rewrite !section_plan_eq. intro H. apply in_flat_map in H as (e & He & H). apply in_flat_map. exists e. split; [exact He|].
      destruct e as [y t|c]; cbn [entry_plan] in *; [|exact (IH c He _ _ H)]. destruct t; auto. destruct H as [H|[]]; discriminate. }
    intros G H. exact (G (X _ _ _ H)).
Qed.
Lemma functions_run its : names_ok (i_general its) -> functions_only (i_general its) -> sections_run its.
Proof.
  intros N F p c H. unfold get_func_or_collection in H. destruct (path_parts p) as [|x rest]; [discriminate|]. destruct (find_registrar x (i_specific its)) as [r|].
  - destruct (String.eqb _ ""); [discriminate|]. destruct (reg_get (reg_coll r) rest); discriminate.
  - unfold general_get in H. assert (X : reg_get (i_general its) (x :: rest) = Ok (FColl c)). { destruct (reg_get (i_general its) (x :: rest)) as [[c0|[]|]|]; try discriminate. congruence. }
    clear H. unfold reg_get in X. assert (Y : exists parts, coll_get (i_general its) parts = Ok (FColl c)).
    { destruct (String.eqb x "collection"); [eauto|]. destruct (mem x reg_reserved); [destruct rest; discriminate|eauto]. }
    destruct Y as (parts & Y). destruct (below_good parts _ _ N F Y) as (N' & F'). split; [exact N'|apply F'].
Qed.

(** * Functions that run themselves *)
Lemma runs_itself base its u progs order f : u_pre_run u = [] -> is_thing its f ->
  (forall h o, exists k, progs h f o = Use (run_alone f) k /\ forall e, k (Raise e) = Done (Raise e)) ->
  forall d top s, exists e, said base its u progs order d top (run_alone f) s = Raise e.
Proof.
  intros Pre (b & t & E) H. induction d as [|d IH]; intros top s; unfold said; rewrite in_op_eq; unfold run_alone; cbn [op_with]; unfold bind at 1, in_pm_run; rewrite Pre;
    unfold combine; cbn [app]; unfold in_runner_run, bind at 1; rewrite (in_run_one_eq _ _ _ _ _ _ _ _ _ E); destruct (run_head its u f t (n_rs s)) as [r1 [o|e]]; try (now eexists);
    unfold bind, call; cbn [n_rs n_deps]; unfold bind; destruct (H (r_calls r1) o) as (k & -> & Hk); cbn [exec inner_of].
  - rewrite Hk. now eexists.
  - set (s1 := NS _ _). destruct (IH (Some f) s1) as (e & Ee). unfold said in Ee. destruct (in_op base its u progs order d (Some f) (run_alone f) s1) as [s2 a]. cbn [snd] in Ee. subst a. rewrite Hk. now eexists.
Qed.
