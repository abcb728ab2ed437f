(** Proofs for C29, continued: runs of one item and the loop over the cases. *)
From Verif Require Import Iterate_Model Config_Spec ConfigTree_Spec Runner_Spec Iterate_Spec SectionPath_Proofs Config_Proofs ConfigTree_Proofs ConfigOps_Proofs ConfigLoad_Proofs ConfigWf_Proofs Runner_Proofs RunnerOps_Proofs Product_Proofs Iterate_Proofs.
From Coq Require Import Lia.
Local Open Scope list_scope.
Local Open Scope monad_scope.

(* ------------------------------------------------------------------ *)
(** * Runs use the values of the config *)

Section OneItem.
  Variables (n : nat) (path : string) (r : cref) (D E : dict pyval) (X : list string).
  Let J := run_ok n path r D E X.
  Let R (s s' : rs) : Prop := J s -> J s'.
  Let Rrefl s : R s s. Proof. unfold R. auto. Qed.
  Let Rtrans a b c : R a b -> R b c -> R a c. Proof. unfold R. auto. Qed.

  (** arguments selected from the config that is read agree *)
  Definition good_args (q : string) (kw : dict pyval) : Prop := q = path -> agreeD D E kw.

  Lemma filtered_good q (c : config) l :
    (q = path -> forall k d, dget k D = Some d -> exists v e, dget k (c_vals c) = Some v /\ dget k E = Some e /\ same_value v e) ->
    good_args q (for_function c l).
  Proof.
    intros H Hq k v d Hk Hd. destruct (H Hq k d Hd) as (v' & e & A1 & A2 & A3). unfold for_function in Hk. rewrite dget_dfilter in Hk.
    destruct (mem k l); [|discriminate]. rewrite A1 in Hk. injection Hk as <-. eauto.
  Qed.

  Lemma gfc_J its q s : J s -> J (fst (get_func_and_config its q s)) /\
    forall f b kw, snd (get_func_and_config its q s) = Ok (f, b, kw) -> good_args q kw.
  Proof.
    intro Hs. destruct (get_config_J n path r D E X q s Hs) as [H1 H2]. unfold get_func_and_config, bind at 1 3.
    destruct (get_config q s) as [s1 [c|e]]; cbn [fst snd] in *; [|split; [exact H1|discriminate]].
    unfold bind, lift. destruct (get_func_or_collection its q) as [f|e]; cbn [fst snd] in *; [|split; [exact H1|discriminate]].
    destruct (snd f) as [|[]|]; cbn; (split; [exact H1|]); try discriminate; intros ? ? ? [= _ _ <-]; apply filtered_good; intro Hq; exact (H2 Hq c eq_refl).
  Qed.
  Lemma gcc_J its q s : J s -> J (fst (get_class_and_config its q s)) /\
    forall f b kw, snd (get_class_and_config its q s) = Ok (f, b, kw) -> good_args q kw.
  Proof.
    intro Hs. destruct (get_config_J n path r D E X q s Hs) as [H1 H2]. unfold get_class_and_config, bind at 1 3.
    destruct (get_config q s) as [s1 [c|e]]; cbn [fst snd] in *; [|split; [exact H1|discriminate]].
    unfold bind, lift. destruct (get_func_or_collection its q) as [f|e]; cbn [fst snd] in *; [|split; [exact H1|discriminate]].
    destruct (snd f) as [|[]|]; cbn; (split; [exact H1|]); try discriminate; intros ? ? ? [= _ _ <-]; apply filtered_good; intro Hq; exact (H2 Hq c eq_refl).
  Qed.

  Lemma set_loaded_J q o i s : J s -> good_args q (arguments o) ->
    J (RS (r_cms s) (dset q o (r_loaded s)) i (r_calls s)).
  Proof.
    intros [[Hc Hl] Hcalls] Ho. split; [split|]; [exact Hc| |exact Hcalls]. intros o' H. cbn in H.
    destruct (string_dec path q) as [->|Hne].
    - rewrite dget_dset_eq in H. injection H as <-. now apply Ho.
    - rewrite dget_dset_neq in H by exact Hne. now apply Hl.
  Qed.

  Lemma func_obj_J its q s : J s -> J (fst (get_one_func_with_config its q s)) /\
    forall o, snd (get_one_func_with_config its q s) = Ok o -> good_args q (arguments o).
  Proof.
    intro Hs. unfold get_one_func_with_config, bind, gets. destruct (dget q (r_loaded s)) as [o|] eqn:El; cbn [fst snd ret].
    - split; [exact Hs|]. intros o' [= <-] ->. destruct Hs as [[_ Hl] _]. now apply Hl.
    - destruct (gfc_J its q s Hs) as [H1 H2]. destruct (get_func_and_config its q s) as [s1 [[[f b] kw]|e]]; cbn [fst snd] in *.
      + assert (G := H2 f b kw eq_refl). split; [|intros o [= <-]; exact G].
        exact (set_loaded_J q (LPartial (r_next s1) f b kw) (S (r_next s1)) s1 H1 G).
      + split; [exact H1|discriminate].
  Qed.

  Lemma inst_obj_J its u q s : J s -> J (fst (get_one_obj_with_config its u q s)) /\
    forall o, snd (get_one_obj_with_config its u q s) = Ok o -> good_args q (arguments o).
  Proof.
    intro Hs. unfold get_one_obj_with_config, bind, gets, lift. destruct (dget q (r_loaded s)) as [o|] eqn:El; cbn [fst snd ret].
    - split; [exact Hs|]. intros o' [= <-] ->. destruct Hs as [[_ Hl] _]. now apply Hl.
    - destruct (get_func_or_collection its q); cbn [fst snd]; [|split; [exact Hs|discriminate]].
      destruct (gcc_J its q s Hs) as [H1 H2]. destruct (get_class_and_config its q s) as [s1 [[[f b] kw]|e]]; cbn [fst snd] in *.
      + assert (G := H2 f b kw eq_refl). set (args := if b then kw else relevant_config f kw).
        assert (G' : good_args q args).
        { intros Hq k v d Hk Hd. apply (G Hq k v d); [|exact Hd]. unfold args in Hk. destruct b; [exact Hk|].
          unfold relevant_config in Hk. rewrite dget_dfilter in Hk. now destruct (mem k (f_args f)). }
        destruct (u_init u f args); cbn [fst snd raise]; [split; [exact H1|discriminate]|].
        split; [|intros o [= <-]; exact G'].
        exact (set_loaded_J q (LInst (r_next s1) f [args]) (S (r_next s1)) s1 H1 G').
      + split; [exact H1|discriminate].
  Qed.

  Lemma call_J u q o s : J s -> good_args q (arguments o) -> J (fst (call_object u q o s)).
  Proof.
    intros [Hok Hcalls] Ho. split; [exact Hok|]. intros i o' Hi Hn. cbn [call_object fst r_calls] in Hn.
    destruct (Nat.lt_ge_cases i (length (r_calls s))) as [Hlt|Hge].
    - rewrite nth_error_app1 in Hn by exact Hlt. now apply (Hcalls i).
    - rewrite nth_error_app2 in Hn by exact Hge. destruct (i - length (r_calls s)) as [|j]; cbn in Hn; [|destruct j; discriminate].
      injection Hn as -> ->. now apply Ho.
  Qed.

  Lemma run_func_J its u q : keeps R (run_one_func its u q).
  Proof.
    intros s Hs. unfold run_one_func, bind at 1. destruct (gfc_J its q s Hs) as [H1 _].
    destruct (get_func_and_config its q s) as [s1 [x|e]]; cbn [fst] in *; [|exact H1].
    unfold bind. destruct (func_obj_J its q s1 H1) as [H2 H3]. destruct (get_one_func_with_config its q s1) as [s2 [o|e]]; cbn [fst snd] in *; [|exact H2].
    apply call_J; auto.
  Qed.
  Lemma run_class_J its u q : keeps R (run_one_class its u q).
  Proof.
    intros s Hs. unfold run_one_class, bind at 1. destruct (gfc_J its q s Hs) as [H1 _].
    destruct (get_func_and_config its q s) as [s1 [x|e]]; cbn [fst] in *; [|exact H1].
    unfold bind. destruct (inst_obj_J its u q s1 H1) as [H2 H3]. destruct (get_one_obj_with_config its u q s1) as [s2 [o|e]]; cbn [fst snd] in *; [|exact H2].
    apply call_J; auto.
  Qed.
  Lemma run_specific_J its u q : keeps R (run_one_specific_class its u q).
  Proof.
    intros s Hs. unfold run_one_specific_class, bind at 1. destruct (gcc_J its q s Hs) as [H1 _].
    destruct (get_class_and_config its q s) as [s1 [x|e]]; cbn [fst] in *; [|exact H1].
    unfold bind. destruct (inst_obj_J its u q s1 H1) as [H2 H3]. destruct (get_one_obj_with_config its u q s1) as [s2 [o|e]]; cbn [fst snd] in *; [|exact H2].
    apply call_J; auto.
  Qed.

  Lemma pm_run_J its u set a s : run_ok n path r D E X s -> run_ok n path r D E X (fst (pm_run its u set a s)).
  Proof.
    refine (pm_run_keeps R Rrefl Rtrans its u _ _ _ set a s); intro q; [apply run_func_J|apply run_class_J|apply run_specific_J].
  Qed.
End OneItem.

(* ------------------------------------------------------------------ *)
(** * Several managers *)

(** what holds for the section path [p] of the updates with full path [fp] *)
Definition holds_at (w : world) (fp : string) (r : cref) (D E : dict pyval) (X : list string) : Prop :=
  exists s, rs_at w fp = Some s /\ ok_rs s (inner_path fp) r D E X.

Lemma rs_at_set w name p s fp : dget name w = Some p ->
  rs_at (dset name (PMS (pm_base p) (pm_items p) (pm_setting p) s) w) fp =
  if String.eqb (manager_name fp) name then Some s else rs_at w fp.
Proof.
  intro H. unfold rs_at. destruct (String.eqb (manager_name fp) name) eqn:E.
  - apply String.eqb_eq in E. rewrite E, dget_dset_eq. reflexivity.
  - apply String.eqb_neq in E. rewrite dget_dset_neq by exact E. reflexivity.
Qed.

Lemma join_full b p : b <> ""%string -> full_path (Some b) p = (b ++ "." ++ p)%string.
Proof.
  intro H. unfold full_path. destruct (String.eqb b "") eqn:E; [apply String.eqb_eq in E; contradiction|].
  now rewrite sp_join_mk.
Qed.
Lemma append_cancel a b c : (a ++ b = a ++ c)%string -> b = c.
Proof. induction a as [|x a IH]; cbn; [auto|]. intros [= H]. auto. Qed.
Lemma full_path_inj base p q : base <> Some ""%string -> full_path base p = full_path base q -> p = q.
Proof.
  intros H E. destruct base as [b|]; [|exact E]. rewrite !join_full in E by congruence. apply append_cancel in E. now injection E.
Qed.
Lemma from_ambiguous_full p strip base : base <> Some ""%string -> from_ambiguous (LStr p) strip base = Ok (mk_sp (full_path base p)).
Proof.
  intro H. destruct base as [b|]; [|reflexivity]. rewrite join_full by congruence. cbn [from_ambiguous]. now rewrite sp_join_mk.
Qed.

(* ------------------------------------------------------------------ *)
(** * The loop over the cases *)

Definition upd (e : string -> dict pyval) (p : string) (d : dict pyval) : string -> dict pyval :=
  fun q => if String.eqb q p then d else e q.

Section Cases.
  Variable U : world -> string -> user.
  Variable base : option string.
  Variable strip : bool.
  Hypothesis Hbase : base <> Some ""%string.
  Variable P : list string.
  Variables (Dof : string -> dict pyval) (rof : string -> cref) (Xof : string -> list string).
  Hypothesis Hind : forall p q, In p P -> In q P -> p <> q ->
    manager_name (full_path base p) = manager_name (full_path base q) ->
    rof q <> rof p /\ ~ In (rof q) (map CSec ([] :: prefixes (rpath (rof p)))).

  Notation fp := (full_path base).
  Definition Inv (w : world) (e : string -> dict pyval) : Prop :=
    forall p, In p P -> holds_at w (fp p) (rof p) (Dof p) (e p) (Xof p).
  (** a complete set of values for [p] *)
  Record full_conf (p : string) (b : body) : Prop := FullConf {
    fc_wf : dwf (b_vals b);
    fc_plain : plain_dict (b_vals b);
    fc_all : forall k x, dget k (Dof p) = Some x -> exists e, dget k (b_vals b) = Some e /\ dget k (given_kwargs b) = Some e;
    fc_X : forall k x, dget k (Dof p) = Some x -> ~ In k (Xof p) -> dget k (b_vals b) = Some x }.
  Definition plain_env (e : string -> dict pyval) : Prop :=
    forall p k x v, In p P -> dget k (Dof p) = Some x -> dget k (e p) = Some v -> plain v = true.

  Lemma batch_step_ok p b w w' e : batch_step U base strip (LStr p, b) w = (w', Ok tt) -> In p P -> full_conf p b -> plain_env e ->
    Inv w e -> Inv w' (upd e p (b_vals b)).
  Proof.
    intros H Hp Hb He HI. unfold batch_step, bind, lift in H. cbn [fst snd] in H. rewrite from_ambiguous_full in H by exact Hbase.
    unfold on_manager in H. change (manager_of (mk_sp (fp p))) with (manager_name (fp p)) in H. change (relative (mk_sp (fp p))) with (inner_path (fp p)) in H.
    destruct (HI p Hp) as (s & Es & Hs). assert (Es0 := Es). unfold rs_at in Es.
    destruct (dget (manager_name (fp p)) w) as [pm|] eqn:Epm; [|discriminate]. injection Es as Es.
    unfold update_call in H. destruct (dmem "self" (b_vals b)); [discriminate|]. unfold bind, lift in H.
    destruct (given_dict b) as [d|]; [|discriminate]. rewrite Es in H.
    destruct (runner_update (U w (manager_name (fp p))) d (Some (inner_path (fp p))) (given_persist b) (given_kwargs b) s) as [s' o] eqn:Eu.
    injection H as <- ->. intros q Hq.
    assert (Wk : dwf (given_kwargs b)) by (apply dfilter_wf, Hb).
    unfold holds_at. rewrite (rs_at_set w (manager_name (fp p)) pm s' (fp q) Epm). unfold upd.
    destruct (String.eqb (manager_name (fp q)) (manager_name (fp p))) eqn:Em.
    - apply String.eqb_eq in Em. exists s'. split; [reflexivity|]. destruct (String.eqb q p) eqn:Eq.
      + apply String.eqb_eq in Eq. subst q. eapply own_ok_rs; [exact Eu|exact Wk|apply Hb| |apply Hb|apply Hb|exact Hs].
        intros k x v Hk Hv. eapply (He p); eauto.
      + apply String.eqb_neq in Eq. destruct (HI q Hq) as (s2 & Es2 & Hs2).
        assert (s2 = s) as ->. { revert Es2 Es0. unfold rs_at. rewrite Em. congruence. }
        destruct (Hind q p Hq Hp Eq Em) as [A1 A2].
        eapply other_ok_rs; [exact Eu|exact (oc_target _ _ _ _ _ _ (proj1 Hs))| |exact A1|exact A2|exact Hs2].
        intro Hin. apply A1. assert (T1 := oc_target _ _ _ _ _ _ (proj1 Hs)). assert (T2 := oc_target _ _ _ _ _ _ (proj1 Hs2)).
        rewrite Hin in T2. congruence.
    - destruct (String.eqb q p) eqn:Eq; [apply String.eqb_eq in Eq; subst q; rewrite String.eqb_refl in Em; discriminate|].
      exact (HI q Hq).
  Qed.

  Definition over (confs : case) (e : string -> dict pyval) : string -> dict pyval :=
    fun p => match dget p confs with Some b => b_vals b | None => e p end.

  Lemma Inv_ext w e e' : (forall p, In p P -> e p = e' p) -> Inv w e -> Inv w e'.
  Proof. intros H HI p Hp. rewrite <- H by exact Hp. now apply HI. Qed.

  Lemma plain_env_upd e p b : plain_env e -> full_conf p b -> plain_env (upd e p (b_vals b)).
  Proof.
    intros He Hb q k x v Hq Hk Hv. unfold upd in Hv. destruct (String.eqb q p); [|eapply He; eauto]. eapply (fc_plain p b Hb); eauto.
  Qed.

  Lemma batch_ok confs : forall w w' e, NoDup (map fst confs) -> (forall p b, In (p, b) confs -> In p P /\ full_conf p b) -> plain_env e ->
    batch_update U [] base strip (map (fun q => (LStr (fst q), snd q)) confs) w = (w', Ok tt) ->
    Inv w e -> Inv w' (over confs e).
  Proof.
    unfold batch_update. cbn [concat app]. induction confs as [|[p b] confs IH]; intros w w' e N Hb He H HI.
    - cbn in H. injection H as <-. exact HI.
    - cbn [map iterM fst snd] in H. unfold bind in H. destruct (batch_step U base strip (LStr p, b) w) as [w1 [[]|]] eqn:E1; [|discriminate].
      destruct (Hb p b (or_introl eq_refl)) as [Hp Hf]. inversion N as [|? ? Nn N']; subst.
      assert (H1 := batch_step_ok p b w w1 e E1 Hp Hf He HI).
      assert (H2 := IH w1 w' (upd e p (b_vals b)) N' (fun p b H => Hb p b (or_intror H)) (plain_env_upd e p b He Hf) H H1).
      eapply Inv_ext; [|exact H2]. intros q Hq. unfold over, upd. cbn [dget].
      destruct (String.eqb q p) eqn:Eq; [|reflexivity]. apply String.eqb_eq in Eq. subst q.
      destruct (dget p confs) as [b'|] eqn:Ed; [|reflexivity]. exfalso. apply Nn. apply dget_Some_In in Ed. now apply (in_map fst) in Ed.
  Qed.

  (** skipped confs *)
  Lemma entries_eq_In a b : entries_eq a b = Ok true -> forall k v, In (k, v) a -> exists w, dget k b = Some w /\ entry_eq v w = Ok true.
  Proof.
    induction a as [|[k v] a IH]; cbn [entries_eq]; intros H k' v' [].
    - injection H0 as -> ->. destruct (dget k' b) as [w|]; [|discriminate]. exists w. split; [reflexivity|].
      destruct (entry_eq v' w) as [[]|]; congruence.
    - destruct (dget k b) as [w|]; [|discriminate]. destruct (entry_eq v w) as [[]|]; try discriminate. now apply IH.
  Qed.
  Lemma conf_in_true p b l : conf_in (p, b) l = Ok true -> exists b', In (p, b') l /\ entries_eq (b_vals b) (b_vals b') = Ok true.
  Proof.
    induction l as [|[p' b'] l IH]; cbn [conf_in]; [discriminate|]. destruct (conf_eq (p, b) (p', b')) as [[]|] eqn:E; try discriminate.
    - intros _. unfold conf_eq in E. cbn [fst snd] in E. destruct (Nat.eqb _ _); [|discriminate].
      destruct (entries_eq (b_vals b) (b_vals b')) as [[]|] eqn:Ee; try discriminate.
      destruct (String.eqb p p') eqn:Ep; [|discriminate]. apply String.eqb_eq in Ep. subst p'. exists b'. split; [now left|exact Ee].
    - intro H. destruct (IH H) as (b2 & H1 & H2). exists b2. split; [now right|exact H2].
  Qed.

  Lemma not_in_last_spec (l last confs : case) : not_in_last l last = Ok confs -> NoDup (map fst l) ->
    NoDup (map fst confs) /\ (forall q, In q confs -> In q l) /\
    forall p b, In (p, b) l -> In (p, b) confs \/ (~ In p (map fst confs) /\ conf_in (p, b) last = Ok true).
  Proof.
    revert confs. induction l as [|[p b] l IH]; cbn [not_in_last]; intros confs H N.
    - injection H as <-. split; [constructor|]. split; [auto|intros ? ? []].
    - destruct (conf_in (p, b) last) as [bb|] eqn:Ec; [|discriminate]. destruct (not_in_last l last) as [l'|]; [|discriminate].
      injection H as <-. inversion N as [|? ? Nn N']; subst. destruct (IH l' eq_refl N') as (A1 & A2 & A3).
      assert (Np : ~ In p (map fst l')). { intro Hp. apply Nn. apply in_map_iff in Hp as (q & <- & Hq). apply in_map. now apply A2. }
      destruct bb.
      + split; [exact A1|]. split; [intros q Hq; right; now apply A2|]. intros p' b' [[= <- <-]|H']; [now right|]. now apply A3.
      + split; [cbn; constructor; assumption|]. split; [intros q [<-|Hq]; [now left|right; now apply A2]|].
        intros p' b' [[= <- <-]|H']; [left; now left|]. destruct (A3 p' b' H') as [H1|[H1 H2]]; [left; now right|].
        right. split; [|exact H2]. intros [Hp|Hp]; [|contradiction]. cbn in Hp. subst p'. apply Nn. now apply (in_map fst) in H'.
  Qed.

  (** the values of the last case *)
  Definition env (last : option case) : string -> dict pyval :=
    match last with None => Dof | Some l => over l Dof end.

  Definition good_case (l : case) : Prop :=
    NoDup (map fst l) /\ (forall p, In p P -> In p (map fst l)) /\ forall p b, In (p, b) l -> In p P /\ full_conf p b.

  Lemma In_dget_case (l : case) p b : NoDup (map fst l) -> In (p, b) l -> dget p l = Some b.
  Proof. intros N H. apply In_dget; assumption. Qed.

  Lemma plain_env_env last : (forall p, In p P -> plain_dict (Dof p)) -> (forall l, last = Some l -> good_case l) -> plain_env (env last).
  Proof.
    intros HD Hl p k x v Hp Hk Hv. destruct last as [l|]; cbn [env] in Hv; [|eapply HD; eauto].
    unfold over in Hv. destruct (dget p l) as [b|] eqn:E; [|eapply HD; eauto]. apply dget_Some_In in E.
    destruct (Hl l eq_refl) as (_ & _ & Hf). destruct (Hf p b E) as [_ Hb]. eapply (fc_plain p b Hb); eauto.
  Qed.

  Hypothesis HD : forall p, In p P -> plain_dict (Dof p).

  Lemma update_for_case_ok it l s s' : it_base it = base -> it_strip it = strip -> good_case l -> (forall l, is_last s = Some l -> good_case l) ->
    update_for_case U it l s = (s', Ok tt) -> Inv (is_world s) (env (is_last s)) ->
    Inv (is_world s') (env (Some l)) /\ is_last s' = is_last s.
  Proof.
    intros Hb1 Hb2 Hg Hl H HI. unfold update_for_case, bind in H. rewrite Hb1, Hb2 in H.
    destruct (updated_confs (is_last s) l) as [confs|] eqn:Ec; [|discriminate].
    unfold on_world in H. destruct (batch_update U [] base strip _ (is_world s)) as [w o] eqn:Eb. injection H as <- ->. cbn [is_world is_last].
    split; [|reflexivity]. assert (Pe := plain_env_env _ HD Hl). destruct Hg as (N & A & F).
    destruct (is_last s) as [last|] eqn:El; cbn [updated_confs] in Ec.
    - destruct (not_in_last_spec _ _ _ Ec N) as (N' & Sub & Cov).
      assert (H1 := batch_ok confs _ _ _ N' (fun p b H => F p b (Sub _ H)) Pe Eb HI).
      intros p Hp. destruct (H1 p Hp) as (s0 & Hs0 & Hok). exists s0. split; [exact Hs0|].
      assert (exists b, In (p, b) l) as [b Hin]. { specialize (A p Hp). apply in_map_iff in A as ([p' b] & <- & Hin). eauto. }
      cbn [env]. unfold over at 1. rewrite (In_dget_case l p b N Hin).
      unfold over in Hok at 1. destruct (Cov p b Hin) as [Hc|[Hn Hc]].
      + rewrite (In_dget_case confs p b N' Hc) in Hok. exact Hok.
      + assert (dget p confs = None) as E0. { destruct (dget p confs) as [b0|] eqn:E0; [|reflexivity]. exfalso. apply Hn. apply dget_Some_In in E0. now apply (in_map fst) in E0. }
        rewrite E0 in Hok. cbn [env] in Hok. destruct (conf_in_true _ _ _ Hc) as (b' & Hb' & He').
        destruct (Hl last eq_refl) as (Nl & _ & Fl). unfold over in Hok. rewrite (In_dget_case last p b' Nl Hb') in Hok.
        destruct (F p b Hin) as [_ Fb]. destruct (Fl p b' Hb') as [_ Fb'].
        eapply ok_rs_E; [exact Hok|]. intros k d v' Hk Hv'. destruct (fc_all _ _ Fb k d Hk) as (v & Hv & _). exists v. split; [exact Hv|].
        destruct (entries_eq_In _ _ He' k v (dget_Some_In _ _ _ Hv)) as (v2 & Hv2 & Heq). rewrite Hv' in Hv2. injection Hv2 as <-.
        symmetry. apply entry_eq_norm; [eapply (fc_plain p b Fb); eauto|eapply (fc_plain p b' Fb'); eauto|exact Heq].
    - injection Ec as <-. assert (H1 := batch_ok l _ _ _ N (fun p b H => F p b H) Pe Eb HI). exact H1.
  Qed.

  (** the run of a case *)
  Definition RunInv (n : string -> nat) (w : world) (e : string -> dict pyval) : Prop :=
    forall p, In p P -> exists s, rs_at w (fp p) = Some s /\ run_ok (n p) (inner_path (fp p)) (rof p) (Dof p) (e p) (Xof p) s.

  Lemma run_items_ok n it w e : RunInv n w e -> RunInv n (fst (run_items U it w)) e.
  Proof.
    assert (Hm : forall l w, RunInv n w e -> RunInv n (fst (mapM (fun sp => on_manager U (manager_of sp) (fun p u =>
                     pm_run (pm_items p) u (pm_setting p) (AStr (relative sp)))) l w)) e).
    { induction l as [|sp l IH]; intros w0 H; [exact H|]. cbn [mapM]. unfold bind at 1.
      match goal with |- context [on_manager U ?a ?b w0] => assert (H1 : RunInv n (fst (on_manager U a b w0)) e); [|destruct (on_manager U a b w0) as [w1 [r|]]; cbn [fst] in *; [|exact H1]] end.
      - unfold on_manager. destruct (dget (manager_of sp) w0) as [pm|] eqn:Epm; [|exact H].
        destruct (pm_run (pm_items pm) (U w0 (manager_of sp)) (pm_setting pm) (AStr (relative sp)) (pm_rs pm)) as [s' o] eqn:Er. cbn [fst].
        intros p Hp. rewrite (rs_at_set w0 _ pm s' (fp p) Epm). destruct (String.eqb (manager_name (fp p)) (manager_of sp)) eqn:Em; [|exact (H p Hp)].
        apply String.eqb_eq in Em. exists s'. split; [reflexivity|]. destruct (H p Hp) as (s & Hs & Hok).
        unfold rs_at in Hs. rewrite Em, Epm in Hs. injection Hs as <-.
        replace s' with (fst (pm_run (pm_items pm) (U w0 (manager_of sp)) (pm_setting pm) (AStr (relative sp)) (pm_rs pm))) by now rewrite Er.
        now apply pm_run_J.
      - unfold bind. specialize (IH w1 H1). destruct (mapM _ l w1) as [w2 [rr|]]; exact IH. }
    intro H. unfold run_items, bind. specialize (Hm (it_items it) w H). destruct (mapM _ (it_items it) w) as [w1 [l|]]; cbn [fst] in *; [|exact Hm].
    destruct l as [|r0 [|]]; exact Hm.
  Qed.

  Lemma RunInv_start w e : Inv w e -> RunInv (fun p => match rs_at w (fp p) with Some s => length (r_calls s) | None => 0 end) w e.
  Proof.
    intros H p Hp. destruct (H p Hp) as (s & Hs & Hok). exists s. split; [exact Hs|]. split; [exact Hok|]. rewrite Hs.
    intros i o Hi Hn. exfalso. assert (i < length (r_calls s)) by (apply nth_error_Some; congruence). lia.
  Qed.
  Lemma RunInv_Inv n w e : RunInv n w e -> Inv w e.
  Proof. intros H p Hp. destruct (H p Hp) as (s & Hs & Hok & _). now exists s. Qed.
End Cases.
