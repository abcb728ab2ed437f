From Verif Require Import Config_Model Config_Spec.
Local Open Scope list_scope.

Lemma wul_true vals us :
  would_update_loop vals us = Ok true <->
  exists before k v old after, us = before ++ (k, v) :: after /\
    dget k vals = Some old /\ values_are_equal old v = Ok false /\
    (forall k' v' old', In (k', v') before -> dget k' vals = Some old' -> values_are_equal old' v' = Ok true).
Proof.
  induction us as [|[k v] us IH]; cbn [would_update_loop].
  - split; [discriminate|]. intros (b & ? & ? & ? & ? & E & _). now destruct b.
  - destruct (dget k vals) as [old|] eqn:Ek.
    + destruct (values_are_equal old v) as [[]|e] eqn:Ev.
      * rewrite IH. split.
        -- intros (b & k1 & v1 & o1 & a & -> & H1 & H2 & H3).
           exists ((k, v) :: b), k1, v1, o1, a. split; [reflexivity|]. split; [exact H1|]. split; [exact H2|].
           intros k' v' o' [[= <- <-]|Hin] Ho; [congruence|]. eapply H3; eassumption.
        -- intros (b & k1 & v1 & o1 & a & E & H1 & H2 & H3). destruct b as [|p b]; cbn in E.
           ++ injection E as <- <- <-. congruence.
           ++ injection E as <- ->. exists b, k1, v1, o1, a. split; [reflexivity|].
              split; [exact H1|]. split; [exact H2|]. intros. eapply H3; [right|]; eassumption.
      * split; [intros _|reflexivity]. exists [], k, v, old, us. repeat split; auto. intros ? ? ? [].
      * split; [discriminate|]. intros (b & k1 & v1 & o1 & a & E & H1 & H2 & H3). destruct b as [|p b]; cbn in E.
        -- injection E as <- <- <-. congruence.
        -- injection E as <- ->. assert (X := H3 k v old (or_introl eq_refl) Ek). congruence.
    + rewrite IH. split.
      * intros (b & k1 & v1 & o1 & a & -> & H1 & H2 & H3).
        exists ((k, v) :: b), k1, v1, o1, a. split; [reflexivity|]. split; [exact H1|]. split; [exact H2|].
        intros k' v' o' [[= <- <-]|Hin] Ho; [congruence|]. eapply H3; eassumption.
      * intros (b & k1 & v1 & o1 & a & E & H1 & H2 & H3). destruct b as [|p b]; cbn in E.
        -- injection E as <- <- <-. congruence.
        -- injection E as <- ->. exists b, k1, v1, o1, a. split; [reflexivity|].
           split; [exact H1|]. split; [exact H2|]. intros. eapply H3; [right|]; eassumption.
Qed.

Lemma wul_raise vals us e :
  would_update_loop vals us = Raise e <->
  exists before k v old after, us = before ++ (k, v) :: after /\
    dget k vals = Some old /\ values_are_equal old v = Raise e /\
    (forall k' v' old', In (k', v') before -> dget k' vals = Some old' -> values_are_equal old' v' = Ok true).
Proof.
  induction us as [|[k v] us IH]; cbn [would_update_loop].
  - split; [discriminate|]. intros (b & ? & ? & ? & ? & E & _). now destruct b.
  - destruct (dget k vals) as [old|] eqn:Ek.
    + destruct (values_are_equal old v) as [[]|e'] eqn:Ev.
      * rewrite IH. split.
        -- intros (b & k1 & v1 & o1 & a & -> & H1 & H2 & H3).
           exists ((k, v) :: b), k1, v1, o1, a. split; [reflexivity|]. split; [exact H1|]. split; [exact H2|].
           intros k' v' o' [[= <- <-]|Hin] Ho; [congruence|]. eapply H3; eassumption.
        -- intros (b & k1 & v1 & o1 & a & E & H1 & H2 & H3). destruct b as [|p b]; cbn in E.
           ++ injection E as <- <- <-. congruence.
           ++ injection E as <- ->. exists b, k1, v1, o1, a. split; [reflexivity|].
              split; [exact H1|]. split; [exact H2|]. intros. eapply H3; [right|]; eassumption.
      * split; [discriminate|]. intros (b & k1 & v1 & o1 & a & E & H1 & H2 & H3). destruct b as [|p b]; cbn in E.
        -- injection E as <- <- <-. congruence.
        -- injection E as <- ->. assert (X := H3 k v old (or_introl eq_refl) Ek). congruence.
      * split.
        -- intros [= ->]. exists [], k, v, old, us. repeat split; auto. intros ? ? ? [].
        -- intros (b & k1 & v1 & o1 & a & E & H1 & H2 & H3). destruct b as [|p b]; cbn in E.
           ++ injection E as <- <- <-. congruence.
           ++ injection E as <- ->. assert (X := H3 k v old (or_introl eq_refl) Ek). congruence.
    + rewrite IH. split.
      * intros (b & k1 & v1 & o1 & a & -> & H1 & H2 & H3).
        exists ((k, v) :: b), k1, v1, o1, a. split; [reflexivity|]. split; [exact H1|]. split; [exact H2|].
        intros k' v' o' [[= <- <-]|Hin] Ho; [congruence|]. eapply H3; eassumption.
      * intros (b & k1 & v1 & o1 & a & E & H1 & H2 & H3). destruct b as [|p b]; cbn in E.
        -- injection E as <- <- <-. congruence.
        -- injection E as <- ->. exists b, k1, v1, o1, a. split; [reflexivity|].
           split; [exact H1|]. split; [exact H2|]. intros. eapply H3; [right|]; eassumption.
Qed.

Lemma wul_false vals us :
  would_update_loop vals us = Ok false <->
  forall k v old, In (k, v) us -> dget k vals = Some old -> values_are_equal old v = Ok true.
Proof.
  induction us as [|[k v] us IH]; cbn [would_update_loop].
  - split; [intros _ ? ? ? []|reflexivity].
  - destruct (dget k vals) as [old|] eqn:Ek.
    + destruct (values_are_equal old v) as [[]|e] eqn:Ev.
      * rewrite IH. split.
        -- intros H k' v' o' [[= <- <-]|Hin] Ho; [congruence|eauto].
        -- intros H k' v' o' Hin Ho. exact (H k' v' o' (or_intror Hin) Ho).
      * split; [discriminate|]. intro H. specialize (H k v old (or_introl eq_refl) Ek). congruence.
      * split; [discriminate|]. intro H. specialize (H k v old (or_introl eq_refl) Ek). congruence.
    + rewrite IH. split.
      * intros H k' v' o' [[= <- <-]|Hin] Ho; [congruence|eauto].
      * intros H k' v' o' Hin Ho. exact (H k' v' o' (or_intror Hin) Ho).
Qed.

Lemma values_raise_only_value_error x y e : values_are_equal x y = Raise e -> e = ValueError.
Proof.
  assert (G : forall r, match r with EqBool b => Ok b | EqAmbig => Raise ValueError | EqRaise => Ok false end
                        = Raise e -> e = ValueError).
  { intros [b| |]; try discriminate. intros [= <-]. reflexivity. }
  destruct x, y; cbn [values_are_equal]; first [discriminate | apply G].
Qed.

Lemma wul_raise_value_error vals us e : would_update_loop vals us = Raise e -> e = ValueError.
Proof.
  intro H. apply wul_raise in H as (? & ? & ? & ? & ? & _ & _ & H & _).
  now apply values_raise_only_value_error in H.
Qed.

(** with every comparison defined, the loop decides [really_changes] *)
Lemma wul_comparable vals us : dwf us -> comparable vals us ->
  (would_update_loop vals us = Ok true <-> really_changes vals us) /\
  (would_update_loop vals us = Ok false <-> ~ really_changes vals us).
Proof.
  intros Hwf Hc.
  assert (Hno : forall e, would_update_loop vals us <> Raise e).
  { intros e H. apply wul_raise in H as (b & k & v & o & a & -> & H1 & H2 & _).
    destruct (Hc k o v H1) as [x Hx]; [|congruence].
    apply In_dget; [exact Hwf|]. apply in_or_app. right. now left. }
  assert (Ht : would_update_loop vals us = Ok true -> really_changes vals us).
  { intro H. apply wul_true in H as (b & k & v & o & a & -> & H1 & H2 & _).
    exists k, o, v. split; [exact H1|]. split; [|exact H2].
    apply In_dget; [exact Hwf|]. apply in_or_app. right. now left. }
  assert (Hf : would_update_loop vals us = Ok false -> ~ really_changes vals us).
  { intros H (k & o & v & H1 & H2 & H3). rewrite wul_false in H.
    specialize (H k v o (dget_Some_In _ _ _ H2) H1). congruence. }
  destruct (would_update_loop vals us) as [[]|e] eqn:E.
  - split; split; auto; try discriminate. intro H. elim H. now apply Ht.
  - split; split; auto; try discriminate. intro H. now elim (Hf eq_refl).
  - now elim (Hno e).
Qed.

Lemma dmem_dget {A} k (d : dict A) : dmem k d = false <-> dget k d = None.
Proof. unfold dmem. destruct (dget k d); split; congruence. Qed.

Lemma cfg_update_get c e p f k : dwf (opt_dict e) -> dwf f ->
  dget k (c_vals (cfg_update c e p f)) =
  match dget k f with
  | Some v => Some v
  | None => match dget k (opt_dict e) with Some v => Some v | None => dget k (c_vals c) end
  end.
Proof. intros He Hf. cbn. rewrite dget_dupdate by exact Hf. now rewrite dget_dupdate by exact He. Qed.

Lemma checked_update_change c d p kw :
  dwf (opt_dict d) -> no_clash ["config_"; "E"] kw ->
  comparable (c_vals c) (dupdate (opt_dict d) kw) ->
  really_changes (c_vals c) (dupdate (opt_dict d) kw) ->
  cfg_checked_update c d p kw = Ok (cfg_update c d p kw, true).
Proof.
  intros Hd Hn Hc Hr. unfold cfg_checked_update.
  assert (H1 : dmem "config_" kw = false) by (apply dmem_dget, Hn; cbn; auto).
  assert (H2 : dmem "E" kw = false) by (apply dmem_dget, Hn; cbn; auto).
  rewrite H1, H2. unfold would_update. cbn [opt_dict]. rewrite dupdate_nil_r.
  destruct (wul_comparable (c_vals c) (dupdate (opt_dict d) kw)) as [Ht Hf]; [now apply dupdate_wf|exact Hc|].
  first [apply Ht in Hr | apply Hf in Hr]. now rewrite Hr.
Qed.

Lemma checked_update_nochange c d p kw :
  dwf (opt_dict d) -> no_clash ["config_"] kw ->
  comparable (c_vals c) (dupdate (opt_dict d) kw) ->
  ~ really_changes (c_vals c) (dupdate (opt_dict d) kw) ->
  cfg_checked_update c d p kw = Ok (c, false).
Proof.
  intros Hd Hn Hc Hr. unfold cfg_checked_update.
  assert (H1 : dmem "config_" kw = false) by (apply dmem_dget, Hn; cbn; auto).
  rewrite H1. unfold would_update. cbn [opt_dict]. rewrite dupdate_nil_r.
  destruct (wul_comparable (c_vals c) (dupdate (opt_dict d) kw)) as [Ht Hf]; [now apply dupdate_wf|exact Hc|].
  first [apply Ht in Hr | apply Hf in Hr]. now rewrite Hr.
Qed.

Lemma checked_update_inv c d p kw c' b :
  cfg_checked_update c d p kw = Ok (c', b) ->
  (b = false /\ c' = c) \/ (b = true /\ c' = cfg_update c d p kw).
Proof.
  unfold cfg_checked_update. destruct (dmem "config_" kw); [discriminate|].
  destruct (would_update c _ _) as [[]|]; try discriminate.
  - destruct (dmem "E" kw); [discriminate|]. intros [= <- <-]. now right.
  - intros [= <- <-]. now left.
Qed.

Lemma cfg_refresh_shape c content c' u :
  cfg_refresh c content = Ok (c', u) -> u = refresh_updates c content /\
  c_applied c' = c_applied c /\ c_name c' = c_name c /\ c_file c' = c_file c /\
  (dget "E" u = None -> c' = cfg_update c None false u).
Proof.
  unfold cfg_refresh. destruct (dmem "self" _ || dmem "pyfileconf_persist" _); [discriminate|].
  destruct (dget "E" (refresh_updates c content)) as [[]|] eqn:E; try discriminate;
    intros [= <- <-]; repeat split; auto; congruence.
Qed.

Lemma checked_refresh_inv c content c' b u :
  cfg_checked_refresh c content = Ok (c', b, u) ->
  (b = false /\ c' = c /\ u = [] ) \/
  (b = true /\ cfg_refresh c content = Ok (c', u)).
Proof.
  unfold cfg_checked_refresh. destruct (change_from_refresh c content) as [[|p l]|]; try discriminate.
  - intros [= <- <- <-]. now left.
  - destruct (cfg_refresh c content) as [[c1 u1]|]; [|discriminate]. intros [= <- <- <-]. now right.
Qed.

(** the record of persisted updates is exactly what the log says *)
Definition hwf (st : config * dict pyval) : Prop :=
  dwf (c_applied (fst st)) /\ dwf (snd st) /\ dwf (c_vals (fst st)).

Lemma hstep_wf st o : hwf st -> hop_wf o -> hwf (fst (hstep st o)).
Proof.
  destruct st as [c f]. intros (H1 & H2 & H3) Ho. unfold hwf in *. cbn [fst snd] in *.
  destruct o as [d p kw|content|]; cbn [hop_wf] in Ho; cbn [hstep].
  - destruct Ho as [Hd Hk]. destruct (cfg_checked_update c d p kw) as [[c' b]|] eqn:E; cbn; [|auto].
    apply checked_update_inv in E as [[-> ->]|[-> ->]]; [auto|]. cbn.
    repeat split; [destruct p; [now apply dupdate_wf|exact H1]|exact H2|now repeat apply dupdate_wf].
  - cbn. auto.
  - destruct (cfg_checked_refresh c f) as [[[c' b] u]|] eqn:E; cbn; [|auto].
    apply checked_refresh_inv in E as [(-> & -> & ->)|(-> & E)]; [auto|].
    assert (A := cfg_refresh_shape _ _ _ _ E). destruct A as (-> & A & _). rewrite A.
    repeat split; [exact H1|exact H2|].
    unfold cfg_refresh in E. destruct (dmem "self" _ || _); [discriminate|].
    destruct (dget "E" _) as [[]|]; try discriminate; injection E as <-; cbn;
      now repeat apply dupdate_wf.
Qed.

Lemma hstep_applied st o k : hwf st -> hop_wf o ->
  dget k (c_applied (fst (fst (hstep st o)))) =
  match last_persisted k [(o, snd (hstep st o))] with
  | Some v => Some v
  | None => dget k (c_applied (fst st))
  end.
Proof.
  destruct st as [c f]. intros (H1 & H2 & H3) Ho. cbn [last_persisted fst snd] in *.
  destruct o as [d p kw|content|]; cbn [hop_wf] in Ho; cbn [hstep].
  - destruct Ho as [Hd Hk]. destruct (cfg_checked_update c d p kw) as [[c' b]|] eqn:E; cbn.
    + apply checked_update_inv in E as [[-> ->]|[-> ->]]; [now destruct p|].
      destruct p; [|reflexivity]. cbn. rewrite dget_dupdate by now apply dupdate_wf.
      rewrite dget_dupdate by exact Hk. destruct (dget k kw); [reflexivity|].
      destruct d as [d|]; cbn; [destruct (dget k d)|]; reflexivity.
    + now destruct p.
  - reflexivity.
  - destruct (cfg_checked_refresh c f) as [[[c' b] u]|] eqn:E; cbn; [|reflexivity].
    apply checked_refresh_inv in E as [(-> & -> & ->)|(-> & E)]; [reflexivity|].
    apply cfg_refresh_shape in E as (_ & A & _). now rewrite A.
Qed.

Lemma last_persisted_cons k p log :
  last_persisted k (p :: log) =
  match last_persisted k log with Some v => Some v | None => last_persisted k [p] end.
Proof. destruct p as [o b]. cbn [last_persisted]. destruct (last_persisted k log); reflexivity. Qed.

Lemma hrun_applied ops : forall st k, hwf st -> Forall hop_wf ops ->
  hwf (fst (hrun st ops)) /\
  dget k (c_applied (fst (fst (hrun st ops)))) =
  match last_persisted k (snd (hrun st ops)) with
  | Some v => Some v
  | None => dget k (c_applied (fst st))
  end.
Proof.
  induction ops as [|o ops IH]; intros st k Hst Hops.
  - cbn. auto.
  - inversion Hops as [|? ? Ho Hops']; subst.
    assert (A := hstep_applied st o k Hst Ho). assert (W := hstep_wf st o Hst Ho).
    cbn [hrun]. destruct (hstep st o) as [st' b] eqn:Es. cbn [fst snd] in *.
    destruct (IH st' k W Hops') as [IW IE].
    destruct (hrun st' ops) as [st'' log] eqn:Er. cbn [fst snd] in *.
    split; [exact IW|]. rewrite IE. rewrite (last_persisted_cons k (o, b) log).
    destruct (last_persisted k log); [reflexivity|exact A].
Qed.

Lemma refresh_value c content k :
  dwf content -> dwf (c_applied c) -> no_clash ["self"; "pyfileconf_persist"; "E"] (refresh_updates c content) ->
  exists c', cfg_refresh c content = Ok (c', refresh_updates c content) /\
    c_applied c' = c_applied c /\
    dget k (c_vals c') = match dget k (c_applied c) with
                         | Some v => Some v
                         | None => match dget k content with Some v => Some v | None => dget k (c_vals c) end
                         end.
Proof.
  intros Hc Ha Hn. unfold cfg_refresh.
  assert (H1 : dmem "self" (refresh_updates c content) = false) by (apply dmem_dget, Hn; cbn; auto).
  assert (H2 : dmem "pyfileconf_persist" (refresh_updates c content) = false) by (apply dmem_dget, Hn; cbn; auto).
  assert (H3 : dget "E" (refresh_updates c content) = None) by (apply Hn; cbn; auto).
  rewrite H1, H2, H3. cbn [orb]. eexists. split; [reflexivity|]. split; [reflexivity|].
  rewrite cfg_update_get; [|apply dwf_nil|now apply dupdate_wf]. cbn [opt_dict dget].
  unfold refresh_updates. rewrite dget_dupdate by exact Ha.
  destruct (dget k (c_applied c)); [reflexivity|]. now destruct (dget k content).
Qed.

Lemma checked_refresh_decides c content :
  dwf content -> comparable (c_vals c) (refresh_updates c content) ->
  (really_changes (c_vals c) (refresh_updates c content) ->
   cfg_checked_refresh c content = match cfg_refresh c content with
                                   | Ok (c', u) => Ok (c', true, u) | Raise e => Raise e end) /\
  (~ really_changes (c_vals c) (refresh_updates c content) -> cfg_checked_refresh c content = Ok (c, false, [])).
Proof.
  intros Hf Hc. unfold cfg_checked_refresh, change_from_refresh, would_update. cbn [opt_dict].
  rewrite dupdate_nil_r.
  destruct (wul_comparable (c_vals c) (refresh_updates c content)) as [Ht Hn]; [now apply dupdate_wf|exact Hc|].
  split; intro H.
  - apply Ht in H as H'. rewrite H'. destruct (refresh_updates c content) as [|p l] eqn:E.
    + destruct H as (? & ? & ? & _ & H & _). discriminate.
    + reflexivity.
  - apply Hn in H. now rewrite H.
Qed.

