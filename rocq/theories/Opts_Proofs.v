(** Proofs for C32, C33 and C59. *)
From Verif Require Import Opts_Model Opts_Spec.
Local Open Scope string_scope.
Local Open Scope list_scope.
Local Open Scope monad_scope.

Section P.
Variable open_log : ost -> option exn.
Notation set_value := (set_value open_log).
Notation oop_run := (oop_run open_log).

Lemma opt_dset s name v vals a :
  o_vals s = dset name v vals -> opt s a = if String.eqb a name then v else match dget a vals with Some w => w | None => VNone end.
Proof. unfold opt. intros ->. rewrite dget_dset. now destruct (String.eqb a name). Qed.

Lemma existsb_attr a : existsb (String.eqb a) option_attrs = true <-> In a option_attrs.
Proof.
  rewrite existsb_exists. split.
  - intros (x & Hx & E). apply String.eqb_eq in E. now subst.
  - intro H. exists a. split; [exact H|apply String.eqb_refl].
Qed.

Lemma bind_ok {S A B} (m : M S A) (f : A -> M S B) s s1 a : m s = (s1, Ok a) -> (a <- m ;; f a) s = f a s1.
Proof. unfold bind. now intros ->. Qed.

(** what setting an option does *)
Lemma set_value_spec name v s :
  let s1 := OS (dset name v (o_vals s)) (o_assigned s) (o_handlers s) in
  set_value name v s =
    if String.eqb name "log_folder" then
      match differs (opt s name) v with
      | Raise e => (s1, Raise e)
      | Ok false => (s1, Ok tt)
      | Ok true => log_folder_callback open_log v s1
      end
    else (s1, Ok tt).
Proof.
  cbv zeta. unfold Opts_Model.set_value, bind, gets, store, modify. destruct (String.eqb name "log_folder"); [|reflexivity].
  unfold lift. now destruct (differs (opt s name) v) as [[]|].
Qed.

Lemma callback_vals v s s' r : log_folder_callback open_log v s = (s', r) -> o_vals s' = o_vals s /\ o_assigned s' = o_assigned s.
Proof.
  assert (A : forall s s' r, add_file_handler open_log s = (s', r) -> o_vals s' = o_vals s /\ o_assigned s' = o_assigned s).
  { intros s0 s0' r0. unfold add_file_handler. destruct (opt s0 "log_folder"); try (destruct (open_log s0)); intros [= <- _]; auto. }
  unfold log_folder_callback. destruct v; try apply A. unfold remove_file_handler.
  destruct (o_handlers s) as [|h [|]]; intros [= <- _]; auto.
Qed.

Lemma set_value_vals name v s s' r : set_value name v s = (s', r) ->
  o_vals s' = dset name v (o_vals s) /\ o_assigned s' = o_assigned s.
Proof.
  rewrite set_value_spec. destruct (String.eqb name "log_folder"); [|intros [= <- _]; auto].
  destruct (differs _ v) as [[]|]; [|intros [= <- _]; auto|intros [= <- _]; auto]. intro H. now apply callback_vals in H.
Qed.

Lemma set_value_opt name v s s' r a : set_value name v s = (s', r) -> opt s' a = if String.eqb a name then v else opt s a.
Proof. intro H. apply set_value_vals in H as [H _]. erewrite opt_dset by exact H. reflexivity. Qed.

(** options other than log_folder *)
Lemma set_value_other name v s : name <> "log_folder" ->
  set_value name v s = (OS (dset name v (o_vals s)) (o_assigned s) (o_handlers s), Ok tt).
Proof. intro H. rewrite set_value_spec. destruct (String.eqb_spec name "log_folder"); congruence. Qed.

Lemma differs_none_none : differs VNone VNone = Ok false. Proof. reflexivity. Qed.
Lemma differs_str a b : differs (VStr a) (VStr b) = Ok (negb (String.eqb a b)). Proof. reflexivity. Qed.
Lemma differs_none_str a : differs VNone (VStr a) = Ok true. Proof. reflexivity. Qed.
Lemma differs_str_none a : differs (VStr a) VNone = Ok true. Proof. reflexivity. Qed.

Definition folder s := opt s "log_folder".

Lemma set_folder_cases v s : folder_value (folder s) -> folder_value v ->
  let s1 := OS (dset "log_folder" v (o_vals s)) (o_assigned s) (o_handlers s) in
  set_value "log_folder" v s =
    match v with
    | VNone => match folder s with VNone => (s1, Ok tt) | _ => remove_file_handler s1 end
    | VStr f => if (match folder s with VStr g => String.eqb g f | _ => false end) then (s1, Ok tt) else add_file_handler open_log s1
    | _ => (s1, Ok tt)
    end.
Proof.
  intros Hs Hv s1. rewrite set_value_spec. rewrite String.eqb_refl. fold s1. unfold folder in *.
  destruct Hs as [->|(g & ->)], Hv as [->|(f & ->)].
  - reflexivity.
  - reflexivity.
  - reflexivity.
  - rewrite differs_str. now destruct (String.eqb g f).
Qed.

Lemma add_handler_ok v s : opt s "log_folder" = v -> v <> VNone -> open_log s = None ->
  add_file_handler open_log s =
    (OS (o_vals s) (o_assigned s) (o_handlers s ++ [Handler v (opt s "log_file_rollover_freq") (opt s "log_file_num_keep")]), Ok tt).
Proof. intros H Hv Ho. unfold add_file_handler. rewrite H, Ho. now destruct v. Qed.

(** one setting keeps the handlers in step *)
Lemma set_matched a v s :
  (forall s, open_log s = None) -> In a option_attrs -> (a = "log_folder" -> folder_value v) -> folder_value (folder s) -> matched s ->
  (a = "log_folder" -> folder s = VNone \/ v = VNone \/ v = folder s) ->
  exists s', set_value a v s = (s', Ok tt) /\ matched s' /\ o_assigned s' = o_assigned s /\
    folder s' = (if String.eqb a "log_folder" then v else folder s).
Proof.
  intros Ho Ha Hv Hf Hm Hsw. destruct (String.eqb_spec a "log_folder") as [->|Hne].
  2:{ rewrite set_value_other by exact Hne. eexists. split; [reflexivity|].
      assert (E : folder (OS (dset a v (o_vals s)) (o_assigned s) (o_handlers s)) = folder s).
      { unfold folder, opt. cbn [o_vals]. now rewrite dget_dset_neq by congruence. }
      split; [|split; [reflexivity|exact E]]. unfold matched in *. fold (folder s) in Hm. unfold folder in E. rewrite E. exact Hm. }
  specialize (Hv eq_refl). specialize (Hsw eq_refl). rewrite set_folder_cases by assumption. cbv zeta.
  set (s1 := OS (dset "log_folder" v (o_vals s)) (o_assigned s) (o_handlers s)).
  assert (F1 : opt s1 "log_folder" = v).
  { unfold opt, s1. cbn [o_vals]. now rewrite dget_dset_eq. }
  unfold matched in Hm. fold (folder s) in Hm.
  destruct Hv as [->|(f & ->)].
  - destruct Hf as [E|(g & E)]; rewrite E in *.
    + eexists. split; [reflexivity|]. unfold matched, folder. rewrite F1. auto.
    + destruct Hm as (h & Hh & _). unfold remove_file_handler. unfold s1 at 1. cbn [o_handlers]. rewrite Hh.
      eexists. split; [reflexivity|]. unfold matched, folder, opt in *. cbn [o_vals o_handlers o_assigned] in *. rewrite F1. auto.
  - destruct Hf as [E|(g & E)]; rewrite E in *.
    + rewrite (add_handler_ok (VStr f) s1 F1) by (congruence || apply Ho). eexists. split; [reflexivity|].
      unfold matched, folder. change (opt (OS (o_vals s1) (o_assigned s1) ?h) "log_folder") with (opt s1 "log_folder"). cbv beta.
      unfold opt at 1 2. cbn [o_vals]. fold (opt s1 "log_folder"). rewrite F1. cbn [o_handlers o_assigned]. unfold s1 at 1. cbn [o_handlers].
      rewrite Hm. split; [|split; reflexivity]. eexists. split; [reflexivity|reflexivity].
    + destruct Hsw as [Hsw|[Hsw|Hsw]]; try discriminate. injection Hsw as ->. rewrite String.eqb_refl.
      eexists. split; [reflexivity|]. unfold matched, folder. rewrite F1. unfold s1. cbn [o_handlers o_assigned]. auto.
Qed.

(** operations as sequences of settings *)
Definition apply_settings (l : list (string * pyval)) : M ost unit := iterM (fun q => set_value (fst q) (snd q)) l.

Lemma option_object_ok a s : In a option_attrs -> o_assigned s = [] -> option_object a s = (s, Ok tt).
Proof. intros H E. unfold option_object. apply existsb_attr in H. rewrite H, E. reflexivity. Qed.

Lemma iterM_ext {S A} (f g : A -> M S unit) (I : S -> Prop) (l : list A) :
  (forall a s, In a l -> I s -> f a s = g a s) -> (forall a s s' r, I s -> g a s = (s', r) -> I s') ->
  forall s, I s -> iterM f l s = iterM g l s.
Proof.
  intros H K. induction l as [|a l IH]; intros s Hs; [reflexivity|]. cbn [iterM]. unfold bind. rewrite (H a s (or_introl eq_refl) Hs).
  destruct (g a s) as [s1 [x|e]] eqn:E; [|reflexivity]. apply IH; [intros; apply H; cbn; auto|]. eapply K; eassumption.
Qed.

Lemma iterM_map {S A B} (f : B -> M S unit) (g : A -> B) l s : iterM f (map g l) s = iterM (fun a => f (g a)) l s.
Proof. revert s. induction l as [|a l IH]; intro s; [reflexivity|]. cbn [map iterM]. unfold bind. destruct (f (g a) s) as [s1 [|]]; auto. Qed.

Lemma iterM_app {S A} (f : A -> M S unit) l1 l2 s : iterM f (l1 ++ l2) s = (iterM f l1 ;;; iterM f l2) s.
Proof.
  unfold bind. revert s. induction l1 as [|a l IH]; intro s; [reflexivity|]. cbn [app iterM]. unfold bind.
  destruct (f a s) as [s1 [x|e]]; [apply IH|reflexivity].
Qed.

Lemma set_value_assigned a v s s' r : o_assigned s = [] -> set_value a v s = (s', r) -> o_assigned s' = [].
Proof. intros H E. apply set_value_vals in E as [_ ->]. exact H. Qed.

Lemma reset_options_eq attrs s : (forall a, In a attrs -> In a option_attrs) -> o_assigned s = [] ->
  reset_options open_log attrs s = apply_settings (map (fun a => (a, default_value a)) attrs) s.
Proof.
  intros H Hs. unfold reset_options, apply_settings. rewrite iterM_map. cbn [fst snd].
  apply (iterM_ext _ _ (fun s => o_assigned s = [])); [|intros a s0 s' r; apply set_value_assigned|exact Hs].
  intros a s0 Ha H0. unfold reset_option, bind. now rewrite option_object_ok by auto.
Qed.

Lemma oop_run_settings op s : (forall a v, op <> OAssign a v) -> (forall a v, In (a, v) (settings op) -> In a option_attrs) ->
  o_assigned s = [] -> oop_run op s = apply_settings (settings op) s.
Proof.
  intros Hn Hp Hs. destruct op as [a v|l|a|l| |a v]; cbn [Opts_Model.oop_run settings].
  - unfold set_option, apply_settings, bind. cbn [iterM fst snd]. rewrite option_object_ok by (exact Hs || (eapply Hp; left; reflexivity)).
    unfold bind. destruct (set_value a v s) as [s1 [[]|]]; reflexivity.
  - unfold set_options, apply_settings. apply (iterM_ext _ _ (fun s => o_assigned s = [])); [|intros [a v] s0 s' r; apply set_value_assigned|exact Hs].
    intros [a v] s0 Ha H0. unfold set_option, bind. cbn [fst snd]. rewrite option_object_ok; [reflexivity|eapply Hp; exact Ha|exact H0].
  - unfold reset_option, apply_settings, bind. cbn [iterM fst snd]. rewrite option_object_ok by (exact Hs || (eapply Hp; left; reflexivity)).
    unfold bind. destruct (set_value a _ s) as [s1 [[]|]]; reflexivity.
  - apply reset_options_eq; [|exact Hs]. intros a Ha. apply (Hp a (default_value a)). cbn [settings]. apply in_map_iff. eauto.
  - unfold reset_all. rewrite reset_options_eq; auto.
  - exfalso. now apply (Hn a v).
Qed.

Lemma settings_matched l s :
  (forall s, open_log s = None) -> (forall a v, In (a, v) l -> In a option_attrs /\ (a = "log_folder" -> folder_value v)) ->
  folder_value (folder s) -> matched s -> no_switch (folder s) (folders l) ->
  exists s', apply_settings l s = (s', Ok tt) /\ matched s' /\ o_assigned s' = o_assigned s /\ folder s' = last (folders l) (folder s).
Proof.
  intros Ho. revert s. induction l as [|[a v] l IH]; intros s Hl Hf Hm Hn.
  - exists s. auto.
  - unfold apply_settings. cbn [iterM fst snd]. unfold folders in Hn |- *. cbn [filter fst] in Hn |- *.
    destruct (Hl a v (or_introl eq_refl)) as [Ha Hv].
    destruct (set_matched a v s Ho Ha Hv Hf Hm) as (s1 & E1 & M1 & A1 & F1).
    { intros ->. rewrite String.eqb_refl in Hn. cbn [map snd no_switch] in Hn. tauto. }
    unfold bind. rewrite E1.
    destruct (String.eqb_spec a "log_folder") as [->|Hne]; cbn [map snd] in Hn |- *.
    + destruct Hn as [_ Hn]. rewrite <- F1 in Hn.
      destruct (IH s1) as (s2 & E2 & M2 & A2 & F2); [intros; apply Hl; cbn; auto|rewrite F1; auto|exact M1|exact Hn|].
      exists s2. split; [exact E2|]. split; [exact M2|]. split; [congruence|]. rewrite F2, F1. unfold folders.
      destruct (map snd _) as [|y ys]; [reflexivity|]. cbn [last]. clear. revert y. induction ys as [|z zs IH]; intro y; [reflexivity|].
      cbn [last] in *. apply IH.
    + rewrite <- F1 in Hn. destruct (IH s1) as (s2 & E2 & M2 & A2 & F2); [intros; apply Hl; cbn; auto|rewrite F1; exact Hf|exact M1|exact Hn|].
      exists s2. split; [exact E2|]. split; [exact M2|]. split; [congruence|]. rewrite F2, F1. reflexivity.
Qed.

Lemma folders_app l1 l2 : folders (l1 ++ l2) = folders l1 ++ folders l2.
Proof. unfold folders. now rewrite filter_app, map_app. Qed.

Lemma history_settings ops s : (forall op, In op ops -> proper op) -> o_assigned s = [] ->
  history open_log ops s = apply_settings (concat (map settings ops)) s.
Proof.
  revert s. induction ops as [|op ops IH]; intros s Hp Hs; [reflexivity|]. cbn [map concat]. unfold apply_settings, history. rewrite iterM_app. cbn [iterM].
  unfold bind. destruct (Hp op (or_introl eq_refl)) as [P1 P2].
  rewrite (oop_run_settings op s P1 (fun a v H => proj1 (P2 a v H)) Hs). unfold apply_settings.
  destruct (iterM _ (settings op) s) as [s1 [x|e]] eqn:E; [|reflexivity]. apply IH; [intros; apply Hp; cbn; auto|].
  clear -E Hs. revert s s1 x E Hs. induction (settings op) as [|[a v] l IH]; cbn [iterM]; unfold bind, ret; intros s s1 x E Hs.
  - now injection E as <- _.
  - cbn [fst snd] in E. destruct (set_value a v s) as [s2 [y|]] eqn:E2; [|discriminate]. eapply IH; [exact E|].
    eapply set_value_assigned; eassumption.
Qed.

(* ------------------------------------------------------------------ *)
(** * Several handlers *)

Lemma set_value_handlers name v s s' r : set_value name v s = (s', r) -> 2 <= length (o_handlers s) ->
  exists added, o_handlers s' = o_handlers s ++ added.
Proof.
  rewrite set_value_spec. intros H Hl. destruct (String.eqb name "log_folder"); [|injection H as <- _; exists []; now rewrite app_nil_r].
  set (s1 := OS _ _ _) in H. assert (L : o_handlers s1 = o_handlers s) by reflexivity.
  destruct (differs _ v) as [[]|]; [|injection H as <- _; exists []; now rewrite app_nil_r|injection H as <- _; exists []; now rewrite app_nil_r].
  assert (A : forall s' r, add_file_handler open_log s1 = (s', r) -> exists added, o_handlers s' = o_handlers s1 ++ added).
  { intros s2 r2. unfold add_file_handler. destruct (opt s1 "log_folder"); try (destruct (open_log s1)); intros [= <- _];
      try (exists []; now rewrite app_nil_r); eexists; reflexivity. }
  rewrite <- L. destruct v; cbn [log_folder_callback] in H; try (eapply A; exact H).
  unfold remove_file_handler in H. destruct (o_handlers s1) as [|h1 [|h2 hs]] eqn:E.
  - injection H as <- _. exists []. now rewrite E.
  - rewrite <- L in Hl. cbn in Hl. inversion Hl. inversion H1.
  - injection H as <- _. exists []. now rewrite app_nil_r.
Qed.

(** a relation every setting keeps is kept by every operation *)
Lemma oop_run_keeps (R : ost -> ost -> Prop) :
  (forall s, R s s) -> (forall s1 s2 s3, R s1 s2 -> R s2 s3 -> R s1 s3) ->
  (forall a v s s' r, set_value a v s = (s', r) -> R s s') ->
  (forall a v s, R s (OS (o_vals s) (dset a v (o_assigned s)) (o_handlers s))) ->
  forall op s s' r, oop_run op s = (s', r) -> R s s'.
Proof.
  intros Rr Rt Rs Ra.
  assert (S1 : forall a v s s' r, set_option open_log a v s = (s', r) -> R s s').
  { intros a v s s' r. unfold set_option, bind, option_object. destruct (_ && _)%bool; [apply Rs|]. intros [= <- _]. apply Rr. }
  assert (R1 : forall a s s' r, reset_option open_log a s = (s', r) -> R s s').
  { intros a s s' r. unfold reset_option, bind, option_object. destruct (_ && _)%bool; [apply Rs|]. intros [= <- _]. apply Rr. }
  assert (I : forall A (f : A -> M ost unit), (forall a s s' r, f a s = (s', r) -> R s s') -> forall l s s' r, iterM f l s = (s', r) -> R s s').
  { intros A f Hf l. induction l as [|a l IH]; intros s s' r; cbn [iterM]; [intros [= <- _]; apply Rr|]. unfold bind.
    destruct (f a s) as [s1 [x|e]] eqn:E; intro H; [eapply Rt; [eapply Hf; exact E|eapply IH; exact H]|]. injection H as <- _. eapply Hf; exact E. }
  intros op s s' r H. destruct op as [a v|l|a|l| |a v]; cbn [Opts_Model.oop_run] in H.
  - eapply S1; exact H.
  - eapply I; [|exact H]. intros [a v] ? ? ?. apply S1.
  - eapply R1; exact H.
  - eapply I; [|exact H]. apply R1.
  - eapply I; [|exact H]. apply R1.
  - injection H as <- _. apply Ra.
Qed.

Lemma handlers_stay op s s' r : oop_run op s = (s', r) -> 2 <= length (o_handlers s) -> exists added, o_handlers s' = o_handlers s ++ added.
Proof.
  intros H. revert H. apply (oop_run_keeps (fun s s' => 2 <= length (o_handlers s) -> exists added, o_handlers s' = o_handlers s ++ added)).
  - intros s0 _. exists []. now rewrite app_nil_r.
  - intros s1 s2 s3 H1 H2 Hl. destruct (H1 Hl) as (l1 & E1). destruct H2 as (l2 & E2); [rewrite E1, app_length; lia|].
    exists (l1 ++ l2). now rewrite E2, E1, app_assoc.
  - intros a v s1 s2 r0. apply set_value_handlers.
  - intros a v s0 _. exists []. cbn [o_handlers]. now rewrite app_nil_r.
Qed.

(* ------------------------------------------------------------------ *)
(** * reset *)

Lemma reset_all_eq s : o_assigned s = [] -> reset_all open_log s = apply_settings default_options s.
Proof. intro H. unfold reset_all. rewrite reset_options_eq; auto. Qed.

(** resetting everything, step by step: only the second option can fail *)
Lemma reset_all_spec s : o_assigned s = [] -> exists s1,
  o_assigned s1 = [] /\ o_handlers s1 = o_handlers s /\ (forall a, opt s1 a = if String.eqb a "log_stdout" then VBool false else opt s a) /\
  match set_value "log_folder" VNone s1 with
  | (s2, Raise e) => reset_all open_log s = (s2, Raise e)
  | (s2, Ok _) => exists s', reset_all open_log s = (s', Ok tt) /\ all_default s' /\ o_handlers s' = o_handlers s2 /\ o_assigned s' = []
  end.
Proof.
  intro H. rewrite reset_all_eq by exact H. unfold apply_settings, default_options. cbn [iterM fst snd].
  exists (OS (dset "log_stdout" (VBool false) (o_vals s)) (o_assigned s) (o_handlers s)). split; [exact H|]. split; [reflexivity|]. split.
  { intro a. apply (opt_dset _ "log_stdout" (VBool false) (o_vals s)). reflexivity. }
  rewrite (bind_ok _ _ _ _ _ (set_value_other "log_stdout" _ s ltac:(discriminate))).
  set (s1 := OS _ _ _). destruct (set_value "log_folder" VNone s1) as [s2 [[]|e]] eqn:E2.
  2:{ unfold bind. now rewrite E2. }
  rewrite (bind_ok _ _ _ _ _ E2), (bind_ok _ _ _ _ _ (set_value_other "log_file_rollover_freq" _ s2 ltac:(discriminate))).
  rewrite (bind_ok _ _ _ _ _ (set_value_other "log_file_num_keep" _ _ ltac:(discriminate))).
  eexists. split; [reflexivity|]. split; [|split; [reflexivity|]].
  - intros a Ha. cbn in Ha. unfold opt. cbn [o_vals].
    destruct Ha as [<-|[<-|[<-|[<-|[]]]]]; rewrite ?dget_dset_eq; try reflexivity; rewrite dget_dset_neq by discriminate.
    + rewrite dget_dset_neq by discriminate. destruct (set_value_vals _ _ _ _ _ E2) as [V _]. rewrite V.
      rewrite dget_dset_neq by discriminate. unfold s1. cbn [o_vals]. rewrite dget_dset_eq. reflexivity.
    + rewrite dget_dset_neq by discriminate. destruct (set_value_vals _ _ _ _ _ E2) as [V _]. rewrite V. rewrite dget_dset_eq. reflexivity.
    + rewrite dget_dset_eq. reflexivity.
  - cbn [o_assigned]. apply set_value_vals in E2 as [_ ->]. exact H.
Qed.

End P.
