(** Proofs for [Parts_Props]. *)
From Verif Require Import Parts_Spec Runner_Proofs Run_Proofs.
Local Open Scope string_scope.
Local Open Scope list_scope.
Local Open Scope monad_scope.

(** * The functions of a section *)
Definition entry_paths (path : string) (e : entry) : list string :=
  match e with EItem n _ => [(path ++ "." ++ n)%string] | EColl c => item_paths (path ++ "." ++ coll_name c)%string c end.
Lemma item_paths_eq path n l : item_paths path (Coll n l) = flat_map (entry_paths path) l.
Proof. cbn [item_paths]. induction l as [|[x t|c] l IH]; cbn [flat_map entry_paths app]; try reflexivity; now rewrite IH. Qed.

Definition good_entry (path : string) (e : entry) : Prop :=
  match e with EItem _ (TFunc _) => True | EItem _ _ => False | EColl c => ~ In SFail (section_plan (path ++ "." ++ coll_name c)%string c) end.
Lemma good_entries path n l : ~ In SFail (section_plan path (Coll n l)) -> forall e, In e l -> good_entry path e.
Proof.
  rewrite section_plan_eq. intros H e He. assert (N : ~ In SFail (entry_plan path e)) by (intro I; apply H, in_flat_map; eauto).
  destruct e as [x []|c]; cbn in N |- *; tauto.
Qed.

(** * With results *)
Definition like {A} (fl : A -> list pyval) (x : rs * res A) (y : rs * res (list result)) : Prop :=
  fst x = fst y /\ match snd x, snd y with Ok a, Ok l => fl a = values_in l | Raise e, Raise e' => e = e' | _, _ => False end.
Lemma mapM_app {A B} (f : A -> M rs B) l l' s : mapM f (l ++ l') s = bind (mapM f l) (fun x => bind (mapM f l') (fun y => ret (x ++ y))) s.
Proof.
  revert s. induction l as [|a l IH]; intro s; cbn [app mapM].
  - unfold bind, ret. destruct (mapM f l' s) as [s1 [x|]]; reflexivity.
  - unfold bind, ret in *. destruct (f a s) as [s1 [b|e]]; [|reflexivity]. rewrite IH. destruct (mapM f l s1) as [s2 [x|e]]; [|reflexivity].
    destruct (mapM f l' s2) as [s3 [y|e]]; reflexivity.
Qed.
Lemma values_in_app l l' : values_in (l ++ l') = values_in l ++ values_in l'.
Proof. apply flat_map_app. Qed.
Lemma flatten_values l : flatten (RList l) = values_in l.
Proof. unfold values_in. cbn [flatten]. induction l as [|r l IH]; [reflexivity|]. cbn [flat_map]. now rewrite <- IH. Qed.

Lemma mapM_like {A} (f : A -> M rs result) (g : string -> M rs result) (h : A -> list string) l :
  (forall a, In a l -> forall s, like flatten (f a s) (mapM g (h a) s)) -> forall s, like values_in (mapM f l s) (mapM g (flat_map h l) s).
Proof.
  induction l as [|a l IH]; intros H s; [now split|]. cbn [mapM flat_map]. rewrite mapM_app. unfold bind, ret.
  destruct (H a (or_introl eq_refl) s) as (H1 & H2). destruct (f a s) as [s1 o1], (mapM g (h a) s) as [s1' o1']. cbn [fst snd] in H1, H2. subst s1'.
  destruct o1 as [r|e], o1' as [x|e']; try contradiction; [|subst e'; now split].
  destruct (IH (fun b Hb => H b (or_intror Hb)) s1) as (H3 & H4). destruct (mapM f l s1) as [s2 o2], (mapM g (flat_map h l) s1) as [s2' o2']. cbn [fst snd] in H3, H4. subst s2'.
  destruct o2 as [y|e], o2' as [z|e']; try contradiction; [|subst e'; now split]. split; [reflexivity|]. cbn [fst snd].
  rewrite values_in_app. rewrite <- H2, <- H4. reflexivity.
Qed.

Lemma section_like its u c : forall path, names_ok c -> get_func_or_collection its path = Ok (false, FColl c) -> ~ In SFail (section_plan path c) ->
  forall s, like flatten (run_section its u c path s) (mapM (run_one its u) (item_paths path c) s).
Proof.
  induction c as [n l IH] using coll_ind2. intros path N Hp G s. assert (Ge := good_entries path n l G). rewrite run_section_eq, item_paths_eq.
  set (F := run_entry its u path (sub_thunks (run_section its u) path l)).
  assert (L : forall a, In a l -> forall s, like flatten (F a s) (mapM (run_one its u) (entry_paths path a) s)).
  { intros a Ha s0. specialize (Ge a Ha). destruct a as [x t|c]; unfold F; cbn [run_entry entry_paths].
    - destruct t as [f|k| |err|k]; try contradiction. cbn [mapM]. assert (Ef := entry_found its path n l (EItem x (TFunc f)) Hp N Ha ltac:(discriminate)).
      cbn [entry_name found_of] in Ef. rewrite <- sub_path_str. unfold run_one, bind at 1, ret. unfold bind at 1, lift. rewrite Ef. unfold bind.
      destruct (run_one_func its u (sub_path path x) s0) as [s1 [r|e]]; split; try reflexivity. cbn [snd]. unfold values_in. cbn [flat_map]. now rewrite app_nil_r.
    - rewrite sub_thunk_coll; [|eapply names_ok_nodup; exact N|exact Ha]. cbn [good_entry] in Ge. rewrite <- sub_path_str in *.
      apply (IH c Ha); [exact (proj2 (proj2 (names_ok_entry _ _ _ N Ha)))|exact (entry_found its path n l (EColl c) Hp N Ha ltac:(discriminate))|exact Ge]. }
  destruct (mapM_like F (run_one its u) (entry_paths path) l L s) as (H1 & H2). unfold bind, ret. destruct (mapM F l s) as [s1 [x|e]], (mapM _ _ s) as [s1' o1']; cbn [fst snd] in *; subst s1'.
  - split; [reflexivity|]. cbn [snd]. destruct o1'; [|contradiction]. now rewrite flatten_values.
  - now split.
Qed.

Lemma path_like its u p ps : stands_for its p ps -> forall s, like flatten (run_one its u p s) (mapM (run_one its u) ps s).
Proof.
  intros [q T|q c Hp N G] s.
  - cbn [mapM]. unfold bind, ret. destruct (run_one its u q s) as [s1 [r|e]]; split; try reflexivity. cbn [snd]. unfold values_in. cbn [flat_map]. now rewrite app_nil_r.
  - assert (R := section_like its u c q N Hp G s). unfold run_one at 1, bind, lift. now rewrite Hp.
Qed.

Lemma runs_mapM its u l s : runs its u l s (fst (mapM (run_one its u) l s)) (snd (mapM (run_one its u) l s)).
Proof.
  revert s. induction l as [|p l IH]; intro s; [constructor|]. cbn [mapM]. unfold bind, ret. destruct (run_one its u p s) as [s1 [r|e]] eqn:E.
  - specialize (IH s1). destruct (mapM (run_one its u) l s1) as [s2 [x|e]]; cbn [fst snd] in *; econstructor; eassumption.
  - cbn [fst snd]. now constructor.
Qed.
Lemma runs_fun its u l s s' o : runs its u l s s' o -> mapM (run_one its u) l s = (s', o).
Proof.
  induction 1; cbn [mapM]; unfold bind, ret; [reflexivity| | |].
  - now rewrite H.
  - now rewrite H, IHruns.
  - now rewrite H, IHruns.
Qed.

Lemma list_like its u l pss : Forall2 (stands_for its) l pss -> forall s, like values_in (mapM (run_one its u) l s) (mapM (run_one its u) (concat pss) s).
Proof.
  induction 1 as [|p ps l pss H _ IH]; intro s; [now split|]. cbn [mapM concat]. rewrite mapM_app. unfold bind, ret.
  destruct (path_like its u p ps H s) as (H1 & H2). destruct (run_one its u p s) as [s1 o1], (mapM (run_one its u) ps s) as [s1' o1']. cbn [fst snd] in H1, H2. subst s1'.
  destruct o1 as [r|e], o1' as [x|e']; try contradiction; [|subst e'; now split].
  destruct (IH s1) as (H3 & H4). destruct (mapM (run_one its u) l s1) as [s2 o2], (mapM (run_one its u) (concat pss) s1) as [s2' o2']. cbn [fst snd] in H3, H4. subst s2'.
  destruct o2 as [y|e], o2' as [z|e']; try contradiction; [|subst e'; now split]. split; [reflexivity|]. cbn [snd].
  rewrite values_in_app. rewrite <- H2, <- H4. reflexivity.
Qed.
Lemma list_runs its u l pss s s' o : Forall2 (stands_for its) l pss -> runs its u l s s' o -> exists o', runs its u (concat pss) s s' o' /\ same_outcome o o'.
Proof.
  intros H R. apply runs_fun in R. destruct (list_like its u l pss H s) as (L1 & L2). rewrite R in L1, L2. cbn [fst snd] in L1, L2.
  exists (snd (mapM (run_one its u) (concat pss) s)). split; [rewrite L1; apply runs_mapM|]. unfold same_outcome. exact L2.
Qed.
Lemma runs_app its u l l' s s' o : runs its u (l ++ l') s s' o <->
  (exists e, runs its u l s s' (Raise e) /\ o = Raise e) \/
  exists s1 x o', runs its u l s s1 (Ok x) /\ runs its u l' s1 s' o' /\ o = match o' with Ok y => Ok (x ++ y) | Raise e => Raise e end.
Proof.
  split.
  - intro R. apply runs_fun in R. rewrite mapM_app in R. unfold bind, ret in R. assert (R1 := runs_mapM its u l s). destruct (mapM (run_one its u) l s) as [s1 [x|e]]; cbn [fst snd] in R1.
    + right. assert (R2 := runs_mapM its u l' s1). destruct (mapM (run_one its u) l' s1) as [s2 o2]; cbn [fst snd] in R2. exists s1, x, o2. split; [exact R1|].
      destruct o2; injection R as <- <-; now split.
    + left. injection R as <- <-. eauto.
  - intros [(e & R & ->)|(s1 & x & o' & R1 & R2 & ->)].
    + apply runs_fun in R. assert (X := runs_mapM its u (l ++ l') s). rewrite mapM_app in X. unfold bind in X. now rewrite R in X.
    + apply runs_fun in R1. apply runs_fun in R2. assert (X := runs_mapM its u (l ++ l') s). rewrite mapM_app in X. unfold bind, ret in X. rewrite R1, R2 in X. now destruct o'.
Qed.

(** * States: some of the functions, in order *)
Lemma beginning_refl {A} (l : list A) : beginning l l.
Proof. exists []. now rewrite app_nil_r. Qed.
Lemma beginning_nil {A} (l : list A) : beginning [] l.
Proof. now exists l. Qed.
Lemma beginning_app {A} (a b c : list A) : beginning b c -> beginning (a ++ b) (a ++ c).
Proof. intros (r & ->). exists r. now rewrite app_assoc. Qed.
Lemma beginning_more {A} (a b c : list A) : beginning a b -> beginning a (b ++ c).
Proof. intros (r & ->). exists (r ++ c). now rewrite app_assoc. Qed.
Lemma beginning_incl {A} (a b : list A) : beginning a b -> incl a b.
Proof. intros (r & ->) x H. apply in_app_iff. now left. Qed.
Lemma concat_nils {A B} (l : list B) : concat (map (fun _ => @nil A) l) = [].
Proof. induction l as [|b l IH]; [reflexivity|exact IH]. Qed.
Lemma beginning_split {A} (l : list (list A)) : forall q, beginning q (concat l) -> exists ql, Forall2 beginning ql l /\ concat ql = q.
Proof.
  induction l as [|a l IH]; intros q (r & E); cbn [concat] in E.
  - symmetry in E. apply app_eq_nil in E as (-> & _). exists []. now split.
  - apply app_eq_app in E as (m & [(-> & E)|(-> & E)]).
    + exists (q :: map (fun _ => []) l). split.
      * constructor; [now exists m|]. clear. induction l; constructor; [apply beginning_nil|assumption].
      * cbn [concat]. rewrite concat_nils. apply app_nil_r.
    + destruct (IH m) as (ql & H1 & H2); [now exists r|]. exists (a :: ql). split; [constructor; [apply beginning_refl|exact H1]|]. cbn [concat]. now rewrite H2.
Qed.

Section Does.
Variable one : rs -> string -> rs.
Definition does {A} (m : M rs A) (ps : list string) : Prop :=
  forall s, exists qs, beginning qs ps /\ fst (m s) = fold_left one qs s /\ forall a, snd (m s) = Ok a -> qs = ps.
Lemma does_ret {A} (a : A) : does (ret a) [].
Proof. intro s. exists []. repeat split. apply beginning_nil. Qed.
Lemma does_raise {A} e ps : does (A := A) (raise e) ps.
Proof. intro s. exists []. split; [apply beginning_nil|]. split; [reflexivity|discriminate]. Qed.
Lemma does_bind {A B} (m : M rs A) (k : A -> M rs B) ps ps' : does m ps -> (forall a, does (k a) ps') -> does (bind m k) (ps ++ ps').
Proof.
  intros H K s. unfold bind. destruct (H s) as (qs & H1 & H2 & H3). destruct (m s) as [s1 [a|e]]; cbn [fst snd] in *.
  - rewrite (H3 a eq_refl) in *. destruct (K a s1) as (qs' & K1 & K2 & K3). exists (ps ++ qs'). split; [now apply beginning_app|].
    rewrite fold_left_app. rewrite <- H2. split; [exact K2|]. intros b Eb. now rewrite (K3 b Eb).
  - exists qs. split; [now apply beginning_more|]. split; [exact H2|discriminate].
Qed.
Lemma does_then {A B} (m : M rs A) (k : A -> M rs B) ps : does m ps -> (forall a, does (k a) []) -> does (bind m k) ps.
Proof. intros H K. rewrite <- (app_nil_r ps). now apply does_bind. Qed.
Lemma does_mapM {A B} (f : A -> M rs B) (h : A -> list string) l : (forall a, In a l -> does (f a) (h a)) -> does (mapM f l) (flat_map h l).
Proof.
  induction l as [|a l IH]; intro H; cbn [mapM flat_map]; [apply does_ret|]. apply does_bind; [apply H; now left|]. intro b.
  apply does_then; [apply IH; intros x Hx; apply H; now right|]. intro. apply does_ret.
Qed.
End Does.

Definition one_run (its : items) (u : user) (s : rs) (q : string) : rs := fst (run_one its u q s).
Definition one_get (its : items) (u : user) (s : rs) (q : string) : rs := fst (runner_get its u q s).

Lemma flat_single {A} (l : list A) : flat_map (fun a => [a]) l = l.
Proof. induction l as [|a l IH]; [reflexivity|]. cbn. now rewrite IH. Qed.
Lemma list_does its u l : does (one_run its u) (mapM (run_one its u) l) l.
Proof.
  rewrite <- (flat_single l) at 2. apply does_mapM. intros q _ s. exists [q]. split; [apply beginning_refl|]. split; reflexivity.
Qed.
Lemma like_does {A} its u (fl : A -> list pyval) (m : M rs A) ps : (forall s, like fl (m s) (mapM (run_one its u) ps s)) -> does (one_run its u) m ps.
Proof.
  intros H s. destruct (H s) as (H1 & H2). destruct (list_does its u ps s) as (qs & B & E & O). exists qs. split; [exact B|]. split; [congruence|].
  intros a Ea. rewrite Ea in H2. destruct (snd (mapM (run_one its u) ps s)) as [x|]; [now apply (O x)|contradiction].
Qed.

(** a run with no hook before it *)
Lemma run_str_state its u p s : fst (runner_run its u (AStr p) s) = fst (run_one its u p s).
Proof. unfold runner_run, bind. destruct (run_one its u p s) as [s1 [r|e]]; [|reflexivity]. now destruct (u_post_run u r). Qed.
Lemma run_list_state its u l s : fst (runner_run its u (AList l) s) = fst (mapM (run_one its u) l s) /\
  (forall a, snd (runner_run its u (AList l) s) = Ok a -> exists x, snd (mapM (run_one its u) l s) = Ok x).
Proof.
  unfold runner_run, bind, ret. destruct (mapM (run_one its u) l s) as [s1 [x|e]]; cbn [fst snd]; [|now split].
  split; [now destruct (u_post_run u (RList x))|eauto].
Qed.
Lemma run_str_ok its u p s a : snd (runner_run its u (AStr p) s) = Ok a -> exists r, snd (run_one its u p s) = Ok r.
Proof. unfold runner_run, bind. destruct (run_one its u p s) as [s1 [r|e]]; cbn [snd]; eauto. Qed.
Lemma try_state {A} (m : M rs A) s : fst (try_run m s) = fst (m s).
Proof. unfold try_run. destruct (m s) as [s1 [a|e]]; [reflexivity|]. destruct (user_interrupt e); reflexivity. Qed.

Lemma force_does its u l pss : Forall2 (stands_for its) l pss -> forall s, exists qss, Forall2 beginning qss pss /\
  fst (force_loop its u l s) = fold_left (one_run its u) (concat qss) s.
Proof.
  induction 1 as [|p ps l pss H _ IH]; intro s; [exists []; now split|]. cbn [force_loop]. unfold bind at 1.
  assert (T := try_state (runner_run its u (AStr p)) s). destruct (like_does its u flatten _ ps (path_like its u p ps H) s) as (qs & B & E & _).
  rewrite run_str_state, E in T. destruct (try_run (runner_run its u (AStr p)) s) as [s1 [r|e]]; cbn [fst] in T; subst s1.
  - unfold bind at 1. destruct (IH (fold_left (one_run its u) qs s)) as (qss & Bs & Es). destruct (force_loop its u l _) as [s2 [x|e]]; cbn [fst] in Es.
    + exists (qs :: qss). split; [now constructor|]. cbn [concat]. rewrite fold_left_app, <- Es. now destruct r.
    + exists (qs :: qss). split; [now constructor|]. cbn [concat fst]. now rewrite fold_left_app, <- Es.
  - exists (qs :: map (fun _ => []) pss). split.
    + constructor; [exact B|]. clear. induction pss; constructor; [apply beginning_nil|assumption].
    + cbn [concat fst]. now rewrite concat_nils, app_nil_r.
Qed.

Lemma plain_does its u l pss : Forall2 (stands_for its) l pss -> does (one_run its u) (runner_run its u (combine (AList l) [])) (concat pss).
Proof.
  intros H. assert (D := like_does its u values_in _ _ (list_like its u l pss H)). unfold combine. rewrite app_nil_r.
  assert (L : does (one_run its u) (runner_run its u (AList l)) (concat pss)).
  { intro s. destruct (D s) as (qs & B & E & O). destruct (run_list_state its u l s) as (E1 & E2). exists qs. split; [exact B|]. split; [congruence|].
    intros a Ea. destruct (E2 a Ea) as (x & Ex). exact (O x Ex). }
  destruct l as [|p [|q l]]; try exact L. intro s. inversion H as [|? ps ? ? H1 H2]; subst. inversion H2; subst. cbn [concat]. rewrite app_nil_r.
  destruct (like_does its u flatten _ ps (path_like its u p ps H1) s) as (qs & B & E & O). exists qs. split; [exact B|]. rewrite run_str_state. split; [exact E|].
  intros a Ea. destruct (run_str_ok its u p s a Ea) as (r & Er). exact (O r Er).
Qed.
Lemma combine_asked a : combine a [] = combine (AList (asked_for a)) [].
Proof. now destruct a. Qed.

Lemma pm_run_does its u set a pss s : u_pre_run u = [] -> Forall2 (stands_for its) (asked_for a) pss -> exists qss, Forall2 beginning qss pss /\
  fst (pm_run its u set a s) = fold_left (one_run its u) (concat qss) s /\ (set = Plain -> forall r, snd (pm_run its u set a s) = Ok r -> qss = pss).
Proof.
  intros P H. unfold pm_run. rewrite P, combine_asked. assert (D := plain_does its u _ _ H s). destruct D as (qs & B & E & O).
  assert (X : exists qss, Forall2 beginning qss pss /\ fst (runner_run its u (combine (AList (asked_for a)) []) s) = fold_left (one_run its u) (concat qss) s /\
    (forall r, snd (runner_run its u (combine (AList (asked_for a)) []) s) = Ok r -> qss = pss)).
  { destruct (snd (runner_run its u (combine (AList (asked_for a)) []) s)) as [r|e] eqn:Es.
    - exists pss. split; [clear; induction pss; constructor; [apply beginning_refl|assumption]|]. rewrite <- (O r eq_refl). now split.
    - destruct (beginning_split _ _ B) as (qss & B1 & B2). exists qss. split; [exact B1|]. rewrite B2. split; [exact E|discriminate]. }
  destruct set.
  - destruct X as (qss & X1 & X2 & X3). exists qss. repeat split; auto.
  - unfold bind, run_with_force_continue.
    assert (L : match combine (AList (asked_for a)) [] with AStr p => [p] | AList l => l end = asked_for a).
    { unfold combine. rewrite app_nil_r. destruct (asked_for a) as [|p [|]]; reflexivity. }
    rewrite L. destruct (force_does its u _ _ H s) as (qss & F1 & F2). exists qss. split; [exact F1|]. split; [|discriminate]. rewrite <- F2. unfold bind.
    destruct (force_loop its u (asked_for a) s) as [s1 [[x y]|e]]; [|reflexivity]. cbn [fst snd]. destruct (combine _ _); [destruct x as [|? [|]]|]; reflexivity.
  - destruct X as (qss & X1 & X2 & X3). exists qss. split; [exact X1|]. split; [|discriminate]. rewrite <- X2. unfold bind.
    rewrite <- (try_state (runner_run its u (combine (AList (asked_for a)) []))). destruct (try_run _ s) as [s1 [[|]|]]; reflexivity.
Qed.

Lemma run_each_state base its u l s : u_pre_run u = [] -> fold_left (rop_run base its u) (run_each l) s = fold_left (one_run its u) l s.
Proof.
  intros P. revert s. induction l as [|p l IH]; intro s; [reflexivity|]. cbn [run_each map fold_left]. unfold run_each in IH. rewrite IH. f_equal.
  cbn [rop_run]. unfold pm_run. rewrite P. unfold combine. cbn [app]. apply run_str_state.
Qed.

(** * Gets *)
Lemma get_section_does its u c : forall path, names_ok c -> get_func_or_collection its path = Ok (false, FColl c) -> ~ In SFail (section_plan path c) ->
  does (one_get its u) (get_section its u c path) (item_paths path c).
Proof.
  induction c as [n l IH] using coll_ind2. intros path N Hp G. assert (Ge := good_entries path n l G). rewrite get_section_eq, item_paths_eq.
  destruct (existsb is_coll l) eqn:El.
  - apply does_then; [|intro; apply does_ret]. apply does_mapM. intros e He. specialize (Ge e He). destruct e as [x t|c]; cbn [dict_entry].
    + destruct t; try contradiction. apply does_raise.
    + cbn [entry_paths]. apply does_then; [|intro; apply does_ret]. unfold sub_got. rewrite sub_thunk_coll; [|eapply names_ok_nodup; exact N|exact He].
      cbn [good_entry] in Ge. rewrite <- sub_path_str in *.
      apply (IH c He); [exact (proj2 (proj2 (names_ok_entry _ _ _ N He)))|exact (entry_found its path n l (EColl c) Hp N He ltac:(discriminate))|exact Ge].
  - apply does_then; [|intro; apply does_ret].
    assert (L : forall l0, incl l0 l -> existsb is_coll l0 = false -> does (one_get its u) (list_entries its u path l0) (flat_map (entry_paths path) l0)).
    { induction l0 as [|e l0 IHl]; intros Hi Hn; [apply does_ret|]. assert (He := Hi e (or_introl eq_refl)). specialize (Ge e He).
      destruct e as [x t|c]; [|discriminate]. destruct t as [f|k| |err|k]; try contradiction. cbn [list_entries flat_map list_entry].
      apply does_bind; [|intro; apply does_then; [apply IHl; [intros y Hy; apply Hi; now right|exact Hn]|intro; apply does_ret]].
      assert (Ef := entry_found its path n l (EItem x (TFunc f)) Hp N He ltac:(discriminate)). cbn [entry_name found_of] in Ef. cbn [entry_paths]. rewrite <- sub_path_str.
      intro s. exists [sub_path path x]. split; [apply beginning_refl|]. split; [|reflexivity]. cbn [fold_left]. unfold one_get, runner_get, bind at 2, lift. rewrite Ef. reflexivity. }
    exact (L l (incl_refl l) El).
Qed.
Lemma get_does its u p ps : stands_for its p ps -> does (one_get its u) (runner_get its u p) ps.
Proof.
  intros [q T|q c Hp N G].
  - intro s. exists [q]. split; [apply beginning_refl|]. now split.
  - assert (R := get_section_does its u c q N Hp G). intro s. destruct (R s) as (qs & B & E & O). exists qs. split; [exact B|].
    assert (X : runner_get its u q s = get_section its u c q s) by (unfold runner_get, bind, lift; now rewrite Hp). rewrite X. now split.
Qed.
Lemma get_each_state base its u l s : fold_left (rop_run base its u) (get_each l) s = fold_left (one_get its u) l s.
Proof. revert s. induction l as [|p l IH]; intro s; [reflexivity|]. cbn [get_each map fold_left]. unfold get_each in IH. now rewrite IH. Qed.

(** * Histories *)
Lemma all_pass_app base its u path l : forall s l', all_pass base its u path s l -> all_pass base its u path (fold_left (rop_run base its u) l s) l' ->
  all_pass base its u path s (l ++ l').
Proof. induction l as [|op l IH]; intros s l' H H'; [exact H'|]. destruct H as (H1 & H2). split; [exact H1|]. exact (IH _ _ H2 H'). Qed.
Lemma pass_quiet base its u path l : (forall op, In op l -> match op with RRun _ _ | RGet _ => True | _ => False end) -> forall s, all_pass base its u path s l.
Proof.
  induction l as [|op l IH]; intros H s; [exact I|]. split; [|apply IH; intros o Ho; apply H; now right].
  assert (X := H op (or_introl eq_refl)). destruct op; try contradiction; exact I.
Qed.
Lemma concat_In {A} (ql pl : list (list A)) x : Forall2 beginning ql pl -> In x (concat ql) -> In x (concat pl).
Proof.
  induction 1 as [|q p ql pl B _ IH]; [easy|]. cbn [concat]. rewrite !in_app_iff. intros [H|H]; [left; exact (beginning_incl _ _ B x H)|right; auto].
Qed.

Lemma unfold_history base its u path k : u_pre_run u = [] -> forall ops s, (forall op, In op ops -> permitted_parts its base path k op) ->
  all_pass base its u path s ops -> exists ops', unfolds its ops ops' /\ (forall op, In op ops' -> permitted base path k op) /\
    all_pass base its u path s ops' /\ fold_left (rop_run base its u) ops' s = fold_left (rop_run base its u) ops s.
Proof.
  intros P. induction ops as [|op ops IH]; intros s Hp Ha; [exists []; repeat split; [constructor|easy]|].
  destruct Ha as (Ha1 & Ha2). destruct (IH (rop_run base its u s op) (fun o Ho => Hp o (or_intror Ho)) Ha2) as (ops' & U & Pm & Al & E).
  destruct (Hp op (or_introl eq_refl)) as [K|K].
  - exists (op :: ops'). split; [now constructor|]. split; [intros o [<-|Ho]; auto|]. split; [now split|]. exact E.
  - destruct op as [p|set a|d q persist kw|q ac|q]; try contradiction.
    + destruct K as (ps & S & F). destruct (get_does its u p ps S s) as (qs & B & Es & _).
      assert (E0 : fold_left (rop_run base its u) (get_each qs) s = rop_run base its u s (RGet p)) by (rewrite get_each_state; symmetry; exact Es).
      exists (get_each qs ++ ops'). split; [econstructor; eassumption|]. split; [|split].
      * intros o Ho. apply in_app_iff in Ho as [Ho|Ho]; [|auto]. apply in_map_iff in Ho as (q & <- & Hq). destruct (F q (beginning_incl _ _ B q Hq)) as [->|Ap]; [right; reflexivity|left; exact Ap].
      * apply all_pass_app; [|now rewrite E0]. apply pass_quiet. intros o Ho. apply in_map_iff in Ho as (q & <- & _). exact I.
      * rewrite fold_left_app, E0. exact E.
    + destruct K as (pss & S & F). destruct (pm_run_does its u set a pss s P S) as (qss & B & Es & _).
      assert (E0 : fold_left (rop_run base its u) (run_each (concat qss)) s = rop_run base its u s (RRun set a)) by (rewrite run_each_state by exact P; symmetry; exact Es).
      exists (run_each (concat qss) ++ ops'). split; [econstructor; eassumption|]. split; [|split].
      * intros o Ho. apply in_app_iff in Ho as [Ho|Ho]; [|auto]. apply in_map_iff in Ho as (q & <- & Hq). destruct (F q (concat_In _ _ q B Hq)) as [->|Ap]; [right; reflexivity|left; exact Ap].
      * apply all_pass_app; [|now rewrite E0]. apply pass_quiet. intros o Ho. apply in_map_iff in Ho as (q & <- & _). exact I.
      * rewrite fold_left_app, E0. exact E.
Qed.

Lemma plain_like its u l s : (forall r, u_post_run u r = []) -> like flatten (runner_run its u (combine (AList l) []) s) (mapM (run_one its u) l s).
Proof.
  intros Q. unfold combine. rewrite app_nil_r.
  assert (L : like flatten (runner_run its u (AList l) s) (mapM (run_one its u) l s)).
  { unfold runner_run, bind, ret. destruct (mapM (run_one its u) l s) as [s1 [x|e]]; [|now split]. rewrite Q. split; [reflexivity|]. apply flatten_values. }
  destruct l as [|p [|q l]]; try exact L. unfold runner_run. cbn [mapM]. unfold bind, ret. destruct (run_one its u p s) as [s1 [r|e]]; [|now split]. rewrite Q.
  split; [reflexivity|]. cbn [snd]. unfold values_in. cbn [flat_map]. now rewrite app_nil_r.
Qed.
Lemma run_parts its u a pss s : u_pre_run u = [] -> (forall r, u_post_run u r = []) -> Forall2 (stands_for its) (asked_for a) pss ->
  let x := pm_run its u Plain a s in let y := pm_run its u Plain (AList (concat pss)) s in
  fst x = fst y /\ match snd x, snd y with Ok r, Ok r' => flatten r = flatten r' | Raise e, Raise e' => e = e' | _, _ => False end.
Proof.
  intros P Q H. cbv zeta. unfold pm_run. rewrite P, combine_asked.
  destruct (plain_like its u (asked_for a) s Q) as (A1 & A2). destruct (plain_like its u (concat pss) s Q) as (B1 & B2). destruct (list_like its u _ _ H s) as (C1 & C2).
  split; [congruence|]. destruct (snd (runner_run its u (combine (AList (asked_for a)) []) s)), (snd (mapM (run_one its u) (asked_for a) s)); try contradiction;
  destruct (snd (runner_run its u (combine (AList (concat pss)) []) s)), (snd (mapM (run_one its u) (concat pss) s)); try contradiction; congruence.
Qed.
