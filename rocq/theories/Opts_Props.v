(** Property theorems C32 (file log handlers), C33 (options contexts) and C59 (assigning to an option attribute). Vocabulary:
    Opts_Spec. [open_log] stands for opening the log file, which may raise. *)
From Verif Require Import Opts_Model Opts_Spec Opts_Proofs.
Local Open Scope string_scope.
Local Open Scope list_scope.
Local Open Scope monad_scope.

(* ------------------------------------------------------------------ *)
(** * C32 *)

(** As long as log files can be opened and no folder is directly replaced by a different one, no operation raises and at the
    end (hence, as this holds for every history, at every moment in between) there is exactly one file handler, for the
    folder that is set, or none if none is set. *)
Theorem C32_handlers_match_log_folder : forall open_log ops,
  (forall s, open_log s = None) -> (forall op, In op ops -> proper op) ->
  no_switch VNone (folders (concat (map settings ops))) ->
  exists s, history open_log ops fresh = (s, Ok tt) /\ matched s /\
    opt s "log_folder" = last (folders (concat (map settings ops))) VNone.
Proof.
  intros open_log ops Ho Hp Hn. rewrite history_settings by auto.
  destruct (settings_matched open_log (concat (map settings ops)) fresh Ho) as (s & E & Hm & _ & F); auto.
  - intros a v H. apply in_concat in H as (l & Hl & H). apply in_map_iff in Hl as (op & <- & Hop). now apply (Hp op Hop).
  - now left.
  - reflexivity.
  - exists s. auto.
Qed.
Example C32_example : exists ops s, (forall op, In op ops -> proper op) /\ no_switch VNone (folders (concat (map settings ops))) /\
  history (fun _ => None) ops fresh = (s, Ok tt) /\ opt s "log_folder" = VStr "b" /\ length (o_handlers s) = 1 /\ length ops = 4.
Proof.
  exists [OSet "log_folder" (VStr "a"); OResetAll; OSets [("log_stdout", VBool true); ("log_folder", VStr "b")]; OSet "log_folder" (VStr "b")].
  eexists. split.
  - intros op H. cbn in H. destruct H as [<-|[<-|[<-|[<-|[]]]]]; (split; [discriminate|]); cbn [settings In option_attrs default_options];
      intros a v H; repeat (destruct H as [[= <- <-]|H]; [split; [cbn; tauto|try discriminate; intros _; (now left) || (right; eexists; reflexivity)]|]); contradiction.
  - split; [vm_compute; auto 10|]. split; [vm_compute; reflexivity|]. split; [reflexivity|]. split; reflexivity.
Qed.

(** Replacing one folder by another attaches a second handler and keeps the first. *)
Theorem C32_direct_switch_keeps_old_handler : forall open_log s a b,
  (forall s, open_log s = None) -> o_assigned s = [] -> opt s "log_folder" = VStr a -> a <> b ->
  exists s' h, oop_run open_log (OSet "log_folder" (VStr b)) s = (s', Ok tt) /\
    o_handlers s' = o_handlers s ++ [h] /\ h_folder h = VStr b /\ opt s' "log_folder" = VStr b.
Proof.
  intros open_log s a b Ho Ha Hf Hab. cbn [oop_run]. unfold set_option.
  rewrite (bind_ok _ _ _ _ _ (option_object_ok "log_folder" s ltac:(cbn; auto) Ha)).
  rewrite set_folder_cases by (right; eauto). unfold folder. rewrite Hf. rewrite (proj2 (String.eqb_neq a b) Hab).
  erewrite add_handler_ok; [|unfold opt; cbn [o_vals]; now rewrite dget_dset_eq|discriminate|apply Ho].
  do 2 eexists. split; [reflexivity|]. split; [reflexivity|]. split; [reflexivity|]. unfold opt. cbn [o_vals]. now rewrite dget_dset_eq.
Qed.

(** A folder that can not be compared with the one before, such as an array, is stored; then ValueError comes and the handlers stay. *)
Theorem C32_folder_not_comparable : forall open_log s v, o_assigned s = [] -> (forall b, py_eq (opt s "log_folder") v <> EqBool b) ->
  exists s', oop_run open_log (OSet "log_folder" v) s = (s', Raise ValueError) /\ opt s' "log_folder" = v /\ o_handlers s' = o_handlers s.
Proof.
  intros open_log s v Ha N. cbn [oop_run]. unfold set_option. rewrite (bind_ok _ _ _ _ _ (option_object_ok "log_folder" s ltac:(cbn; auto) Ha)).
  unfold set_value, store, bind, gets, modify, lift. change (String.eqb "log_folder" "log_folder") with true. cbv iota beta. unfold differs.
  destruct (py_eq (opt s "log_folder") v) as [b| |] eqn:E; [now elim (N b)| |]; (eexists; split; [reflexivity|]; split; [unfold opt; cbn [o_vals]; now rewrite dget_dset_eq|reflexivity]).
Qed.
Example C32_ex_not_comparable : forall b, py_eq (VArray 0) VNone <> EqBool b.
Proof. intros b. vm_compute. discriminate. Qed.

(** With two or more handlers, none of them is ever removed again by any use of the options, *)
Theorem C32_two_handlers_stay_forever : forall open_log ops s,
  2 <= length (o_handlers s) -> exists added, o_handlers (survive open_log ops s) = o_handlers s ++ added.
Proof.
  intros open_log ops. induction ops as [|op ops IH]; intros s Hl.
  - exists []. now rewrite app_nil_r.
  - unfold survive in *. cbn [fold_left]. destruct (oop_run open_log op s) as [s1 r] eqn:E. cbn [fst].
    destruct (handlers_stay open_log op s s1 r E Hl) as (l1 & E1). destruct (IH s1) as (l2 & E2); [rewrite E1, app_length; lia|].
    exists (l1 ++ l2). now rewrite E2, E1, app_assoc.
Qed.
Example C32_two_handlers_example : 2 <= length (o_handlers (survive (fun _ => None)
  [OSet "log_folder" (VStr "a"); OSet "log_folder" (VStr "b"); OResetAll; OResetAll] fresh)).
Proof. apply le_n. Qed.

(** and resetting all options while a folder is set raises (unless there is exactly one handler): the options after
    log_folder keep their values although log_folder itself is None afterwards. *)
Theorem C32_reset_raises_with_other_than_one_handler : forall open_log s f s' r,
  o_assigned s = [] -> opt s "log_folder" = VStr f -> length (o_handlers s) <> 1 -> reset_all open_log s = (s', r) ->
  r = Raise ValueError /\ o_handlers s' = o_handlers s /\ opt s' "log_stdout" = VBool false /\ opt s' "log_folder" = VNone /\
  opt s' "log_file_rollover_freq" = opt s "log_file_rollover_freq" /\ opt s' "log_file_num_keep" = opt s "log_file_num_keep".
Proof.
  intros open_log s f s' r Ha Hf Hl H. destruct (reset_all_spec open_log s Ha) as (s1 & A1 & H1 & V1 & S).
  assert (F1 : folder s1 = VStr f) by (unfold folder; rewrite V1; exact Hf).
  rewrite set_folder_cases in S by ((left; reflexivity) || (right; eauto)). rewrite F1 in S. unfold remove_file_handler in S.
  cbn [o_handlers] in S. rewrite H1 in S.
  assert (X : reset_all open_log s = (OS (dset "log_folder" VNone (o_vals s1)) (o_assigned s1) (o_handlers s1), Raise ValueError)).
  { rewrite H1. destruct (o_handlers s) as [|h [|]]; try exact S. now cbn in Hl. }
  rewrite X in H. injection H as <- <-. split; [reflexivity|]. split; [exact H1|].
  repeat split; rewrite (opt_dset _ "log_folder" VNone (o_vals s1)) by reflexivity; try reflexivity; cbn [String.eqb Ascii.eqb Bool.eqb];
    change (match dget ?k (o_vals s1) with Some w => w | None => VNone end) with (opt s1 k); apply V1.
Qed.

(** If the log file cannot be opened, setting the folder raises but the option keeps the new value without a handler; setting
    the same folder again then does not try again, and resetting raises. *)
Theorem C32_failed_open_leaves_option_set : forall open_log e s f,
  o_assigned s = [] -> opt s "log_folder" = VNone -> o_handlers s = [] ->
  open_log (OS (dset "log_folder" (VStr f) (o_vals s)) [] []) = Some e ->
  exists s', oop_run open_log (OSet "log_folder" (VStr f)) s = (s', Raise e) /\
    opt s' "log_folder" = VStr f /\ o_handlers s' = [] /\
    (exists s2, oop_run open_log (OSet "log_folder" (VStr f)) s' = (s2, Ok tt) /\ o_handlers s2 = []) /\
    snd (reset_all open_log s') = Raise ValueError.
Proof.
  intros open_log e s f Ha Hf Hh Ho. cbn [oop_run]. unfold set_option.
  rewrite (bind_ok _ _ _ _ _ (option_object_ok "log_folder" s ltac:(cbn; auto) Ha)).
  rewrite set_folder_cases by ((right; eauto; fail) || (left; exact Hf)). unfold folder at 1. rewrite Hf. cbv beta iota zeta.
  set (s1 := OS (dset "log_folder" (VStr f) (o_vals s)) (o_assigned s) (o_handlers s)).
  assert (F1 : opt s1 "log_folder" = VStr f) by (unfold opt, s1; cbn [o_vals]; now rewrite dget_dset_eq).
  assert (O1 : open_log s1 = Some e) by (unfold s1; rewrite Ha, Hh; exact Ho).
  exists s1. split; [unfold add_file_handler; now rewrite F1, O1|]. split; [exact F1|]. split; [exact Hh|]. split.
  - rewrite (bind_ok _ _ _ _ _ (option_object_ok "log_folder" s1 ltac:(cbn; auto) Ha)).
    rewrite set_folder_cases by (right; eauto). unfold folder. rewrite F1, String.eqb_refl. eexists. split; [reflexivity|exact Hh].
  - destruct (reset_all open_log s1) as [s2 r] eqn:E.
    destruct (C32_reset_raises_with_other_than_one_handler open_log s1 f s2 r Ha F1) as (-> & _); auto.
    unfold s1. cbn [o_handlers]. rewrite Hh. discriminate.
Qed.

(** A handler has the rollover frequency and number of files to keep that were set when the folder was set; setting these
    options afterwards, even in the same call, has no effect on it. *)
Theorem C32_handler_follows_options_refuted : exists ops s h,
  (forall op, In op ops -> proper op) /\ history (fun _ => None) ops fresh = (s, Ok tt) /\ matched s /\ o_handlers s = [h] /\
  opt s "log_file_rollover_freq" = VStr "H" /\ h_freq h = VStr "D".
Proof.
  exists [OSets [("log_folder", VStr "a"); ("log_file_rollover_freq", VStr "H")]]. do 2 eexists. split.
  - intros op [<-|[]]. split; [discriminate|]. cbn [settings In option_attrs].
    intros a v [[= <- <-]|[[= <- <-]|[]]]; (split; [tauto|]); try discriminate. intros _. right. eauto.
  - split; [reflexivity|]. split; [eexists; split; reflexivity|]. split; [reflexivity|]. split; reflexivity.
Qed.

Theorem C32_handler_has_options_of_that_time : forall open_log s f s' r,
  o_assigned s = [] -> opt s "log_folder" = VNone -> open_log (OS (dset "log_folder" (VStr f) (o_vals s)) [] (o_handlers s)) = None ->
  oop_run open_log (OSet "log_folder" (VStr f)) s = (s', r) ->
  r = Ok tt /\ o_handlers s' = o_handlers s ++ [Handler (VStr f) (opt s "log_file_rollover_freq") (opt s "log_file_num_keep")].
Proof.
  intros open_log s f s' r Ha Hf Ho. cbn [oop_run]. unfold set_option.
  rewrite (bind_ok _ _ _ _ _ (option_object_ok "log_folder" s ltac:(cbn; auto) Ha)).
  rewrite set_folder_cases by ((right; eauto; fail) || (left; exact Hf)). unfold folder at 1. rewrite Hf. cbv beta iota zeta.
  rewrite (add_handler_ok open_log (VStr f)); [|unfold opt; cbn [o_vals]; now rewrite dget_dset_eq|discriminate|rewrite Ha; exact Ho].
  intros [= <- <-]. cbn [o_handlers]. unfold opt. cbn [o_vals]. rewrite !dget_dset_neq by discriminate. auto.
Qed.

(* ------------------------------------------------------------------ *)
(** * C33 *)

(** Leaving a with-block sets every option to its default, whatever was set before or inside and whether or not the body
    raised (provided removing the handler works). The body's exception goes on. *)
Theorem C33_leaving_sets_defaults : forall open_log body s s1 r,
  iterM (oprog_run open_log) body s = (s1, r) -> o_assigned s1 = [] ->
  (opt s1 "log_folder" = VNone \/ (exists f, opt s1 "log_folder" = VStr f) /\ length (o_handlers s1) = 1) ->
  exists s', oprog_run open_log (PWith body) s = (s', r) /\ all_default s' /\
    o_handlers s' = match opt s1 "log_folder" with VNone => o_handlers s1 | _ => [] end.
Proof.
  intros open_log body s s1 r H Ha Hm.
  assert (B : forall l s, (fix go (l : list oprog) (s : ost) : ost * res unit :=
                match l with
                | [] => (s, Ok tt)
                | p :: rest => match oprog_run open_log p s with (s', Ok _) => go rest s' | (s', Raise e) => (s', Raise e) end
                end) l s = iterM (oprog_run open_log) l s).
  { induction l as [|p l IH]; intro s0; [reflexivity|]. cbn [iterM]. unfold bind. destruct (oprog_run open_log p s0) as [s2 [|]]; auto. }
  cbn [oprog_run]. rewrite B, H. unfold leave. destruct (reset_all_spec open_log s1 Ha) as (s2 & A2 & H2 & V2 & S).
  assert (F2 : folder s2 = opt s1 "log_folder") by (unfold folder; apply V2).
  assert (FV : folder_value (folder s2)) by (rewrite F2; destruct Hm as [->|[Hf _]]; [now left|right; exact Hf]).
  rewrite set_folder_cases in S by (exact FV || now left). rewrite F2 in S.
  destruct Hm as [E|[(f & E) Hl]]; rewrite E in *.
  - destruct S as (s' & -> & D & Hh & _). exists s'. split; [reflexivity|]. split; [exact D|]. now rewrite Hh.
  - unfold remove_file_handler in S. cbn [o_handlers] in S. rewrite H2 in S. destruct (o_handlers s1) as [|h [|]]; try discriminate.
    destruct S as (s' & -> & D & Hh & _). exists s'. auto.
Qed.
Example C33_example : exists s', oprog_run (fun _ => None) (PWith [POp (OSet "log_folder" (VStr "a")); PRaise (UserExn 1)]) fresh =
  (s', Raise (UserExn 1)) /\ o_handlers s' = [].
Proof. eexists. split; reflexivity. Qed.

(** So the values from before the block are back exactly if all options had their defaults. *)
Theorem C33_restores_iff_default_before : forall open_log body s s1 r s' r',
  iterM (oprog_run open_log) body s = (s1, r) -> o_assigned s1 = [] ->
  (opt s1 "log_folder" = VNone \/ (exists f, opt s1 "log_folder" = VStr f) /\ length (o_handlers s1) = 1) ->
  oprog_run open_log (PWith body) s = (s', r') ->
  ((forall a, In a option_attrs -> opt s' a = opt s a) <-> all_default s).
Proof.
  intros open_log body s s1 r s' r' H Ha Hm H'. destruct (C33_leaving_sets_defaults open_log body s s1 r H Ha Hm) as (s2 & E & D & _).
  rewrite E in H'. injection H' as <- <-. split; intros K a In.
  - rewrite <- (D a In). symmetry. now apply K.
  - rewrite (D a In). symmetry. now apply K.
Qed.

(** In particular an inner block discards the settings of the outer one. *)
Theorem C33_inner_block_restores_outer_refuted : exists outer s s',
  outer = PWith [POp (OSet "log_stdout" (VBool true)); PWith []; PRaise (UserExn 0)] /\ s = fresh /\
  iterM (oprog_run (fun _ => None)) [POp (OSet "log_stdout" (VBool true)); PWith []] s = (s', Ok tt) /\
  opt s' "log_stdout" = VBool false.
Proof. do 3 eexists. split; [reflexivity|]. split; [reflexivity|]. split; reflexivity. Qed.

(** Without a folder no handler is made: asking for one raises and changes nothing. *)
Theorem C32_handler_needs_a_folder : forall open_log s,
  opt s "log_folder" = VNone -> add_file_handler open_log s = (s, Raise ValueError).
Proof. intros open_log s H. unfold add_file_handler. now rewrite H. Qed.
Example C32_needs_a_folder_example : opt fresh "log_folder" = VNone /\ add_file_handler (fun _ => None) fresh = (fresh, Raise ValueError).
Proof. split; reflexivity. Qed.

(* ------------------------------------------------------------------ *)
(** * C59 *)

(** Assigning to an option attribute of the interface, as its documentation suggests, does not set the option, and the option
    can neither be set nor reset through the interface from then on, by whatever calls. *)
Theorem C59_assignment_does_not_set : forall open_log a b v s s' r,
  oop_run open_log (OAssign a v) s = (s', r) -> r = Ok tt /\ opt s' b = opt s b /\ o_handlers s' = o_handlers s.
Proof. intros open_log a b v s s' r [= <- <-]. auto. Qed.

Theorem C59_option_is_dead_after_assignment : forall open_log a v s ops,
  dmem a (o_assigned s) = true ->
  let s' := survive open_log ops s in
  opt s' a = opt s a /\ oop_run open_log (OSet a v) s' = (s', Raise AttributeError) /\ oop_run open_log (OReset a) s' = (s', Raise AttributeError).
Proof.
  intros open_log a v s ops Ha.
  assert (D : forall s, dmem a (o_assigned s) = true -> option_object a s = (s, Raise AttributeError)).
  { intros s0 H. unfold option_object. rewrite H. cbn [negb]. now rewrite Bool.andb_false_r. }
  assert (K : forall s ops, dmem a (o_assigned s) = true ->
    opt (survive open_log ops s) a = opt s a /\ dmem a (o_assigned (survive open_log ops s)) = true).
  { clear s ops Ha. intros s ops. revert s. unfold survive. induction ops as [|op ops IH]; intros s Ha; [auto|]. cbn [fold_left].
    destruct (oop_run open_log op s) as [s1 r] eqn:E. cbn [fst].
    assert (X : opt s1 a = opt s a /\ dmem a (o_assigned s1) = true).
    { assert (S1 : forall b w s s' r, (option_object b ;;; set_value open_log b w) s = (s', r) -> dmem a (o_assigned s) = true ->
                     opt s' a = opt s a /\ dmem a (o_assigned s') = true).
      { intros b w s0 s0' r0 H0 H1. destruct (String.eqb_spec a b) as [<-|Hne].
        - unfold bind in H0. rewrite (D s0 H1) in H0. injection H0 as <- _. auto.
        - unfold bind, option_object in H0. destruct (_ && _)%bool.
          + split; [|apply set_value_vals in H0 as [_ ->]; exact H1]. rewrite (set_value_opt _ _ _ _ _ _ a H0).
            now rewrite (proj2 (String.eqb_neq a b) Hne).
          + injection H0 as <- _. auto. }
      assert (I : forall A (f : A -> M ost unit) l, (forall x s s' r, f x s = (s', r) -> dmem a (o_assigned s) = true ->
                    opt s' a = opt s a /\ dmem a (o_assigned s') = true) ->
                  forall s s' r, iterM f l s = (s', r) -> dmem a (o_assigned s) = true -> opt s' a = opt s a /\ dmem a (o_assigned s') = true).
      { intros A f l Hf. induction l as [|x l IHl]; intros s0 s0' r0 H0 H1; cbn [iterM] in H0; [injection H0 as <- _; auto|].
        unfold bind in H0. destruct (f x s0) as [s2 [y|e]] eqn:E2; [|injection H0 as <- _; eapply Hf; eassumption].
        destruct (Hf _ _ _ _ E2 H1) as [V2 A2]. destruct (IHl _ _ _ H0 A2) as [V3 A3]. split; [congruence|exact A3]. }
      destruct op as [b w|l|b|l| |b w]; cbn [oop_run] in E.
      - eapply S1; eassumption.
      - eapply I; [|exact E|exact Ha]. intros [b w] ? ? ?. apply S1.
      - eapply S1; eassumption.
      - eapply I; [|exact E|exact Ha]. intros b ? ? ?. apply S1.
      - eapply I; [|exact E|exact Ha]. intros b ? ? ?. apply S1.
      - injection E as <- _. split; [reflexivity|]. cbn [o_assigned]. apply dmem_In. apply In_dkeys_dget. apply dmem_In, In_dkeys_dget in Ha.
        rewrite dget_dset. destruct (String.eqb a b); [eauto|exact Ha]. }
    destruct X as [V1 A1]. destruct (IH s1 A1) as [V2 A2]. split; [congruence|exact A2]. }
  cbv zeta. destruct (K s ops Ha) as [V A]. split; [exact V|]. cbn [oop_run]. unfold set_option, reset_option, bind. now rewrite (D _ A).
Qed.
Example C59_example : dmem "log_stdout" (o_assigned (fst (oop_run (fun _ => None) (OAssign "log_stdout" (VBool true)) fresh))) = true.
Proof. reflexivity. Qed.

(** Resetting everything, and so leaving every with-block, raises from then on, before any later option is reset. *)
Theorem C59_reset_raises_after_assignment : forall open_log s, dmem "log_stdout" (o_assigned s) = true ->
  reset_all open_log s = (s, Raise AttributeError).
Proof.
  intros open_log s H. unfold reset_all, reset_options, option_attrs. cbn [iterM]. unfold bind at 1. unfold reset_option at 1, bind at 1.
  unfold option_object. rewrite H. reflexivity.
Qed.

(** In general: the options before it are reset, unless resetting one of these raises; it and those after it are not. *)
Theorem C59_reset_stops_there : forall open_log before a rest s s' r, dmem a (o_assigned s) = true ->
  reset_options open_log (before ++ a :: rest) s = (s', r) ->
  (forall b, ~ In b before -> opt s' b = opt s b) /\
  exists e, r = Raise e /\ (e = AttributeError /\ (forall b, In b before -> opt s' b = default_value b) \/ reset_options open_log before s = (s', Raise e)).
Proof.
  intros open_log before a rest. induction before as [|b before IH]; intros s s' r H E; unfold reset_options in E; cbn [app iterM] in E; unfold bind at 1 in E.
  - unfold reset_option, bind, option_object in E. rewrite H in E. cbn [negb] in E. rewrite Bool.andb_false_r in E. injection E as <- <-. split; [reflexivity|]. exists AttributeError. split; [reflexivity|]. left. split; [reflexivity|intros b []].
  - assert (K : forall s1 q, reset_option open_log b s = (s1, q) -> o_assigned s1 = o_assigned s /\ forall x, x <> b -> opt s1 x = opt s x).
    { intros s1 q F. unfold reset_option, bind, option_object in F. destruct (_ && _)%bool; [|injection F as <- _; auto]. split; [now apply set_value_vals in F as [_ ->]|].
      intros x N. rewrite (set_value_opt _ _ _ _ _ _ x F). now rewrite (proj2 (String.eqb_neq x b) N). }
    destruct (reset_option open_log b s) as [s1 [u|e]] eqn:F.
    + destruct (K _ _ eq_refl) as [A V]. destruct (IH s1 s' r) as [U (e & -> & R)]; [now rewrite A|exact E|]. split.
      * intros x N. rewrite U; [apply V; intros ->; apply N; now left|]. intros X. apply N. now right.
      * exists e. split; [reflexivity|]. destruct R as [[-> R]|R].
        -- left. split; [reflexivity|]. intros x [->|X]; [|now apply R]. destruct (in_dec string_dec x before) as [X|X]; [now apply R|]. rewrite (U x X).
           unfold reset_option, bind, option_object in F. destruct (_ && _)%bool; [|discriminate]. rewrite (set_value_opt _ _ _ _ _ _ x F). now rewrite String.eqb_refl.
        -- right. unfold reset_options. cbn [iterM]. unfold bind at 1. rewrite F. exact R.
    + injection E as <- <-. destruct (K _ _ eq_refl) as [A V]. split; [intros x N; apply V; intros ->; apply N; now left|]. exists e. split; [reflexivity|]. right.
      unfold reset_options. cbn [iterM]. unfold bind at 1. now rewrite F.
Qed.
Example C59_stops_example : option_attrs = ["log_stdout"] ++ "log_folder" :: ["log_file_rollover_freq"; "log_file_num_keep"] /\
  snd (reset_all (fun _ => None) (fst (oop_run (fun _ => None) (OAssign "log_folder" (VStr "logs")) fresh))) = Raise AttributeError.
Proof. split; reflexivity. Qed.

Print Assumptions C32_handlers_match_log_folder.
Print Assumptions C32_direct_switch_keeps_old_handler.
Print Assumptions C32_two_handlers_stay_forever.
Print Assumptions C32_reset_raises_with_other_than_one_handler.
Print Assumptions C32_failed_open_leaves_option_set.
Print Assumptions C32_handler_follows_options_refuted.
Print Assumptions C32_handler_has_options_of_that_time.
Print Assumptions C33_leaving_sets_defaults.
Print Assumptions C33_restores_iff_default_before.
Print Assumptions C33_inner_block_restores_outer_refuted.
Print Assumptions C59_assignment_does_not_set.
Print Assumptions C59_option_is_dead_after_assignment.
Print Assumptions C59_reset_raises_after_assignment.
Print Assumptions C59_reset_stops_there.
Print Assumptions C32_handler_needs_a_folder.
Print Assumptions C32_folder_not_comparable.
