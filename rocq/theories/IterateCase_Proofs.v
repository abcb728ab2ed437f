(** Proofs for C29, continued: from the start of an iteration to any of its cases. *)
From Verif Require Import Iterate_Model Config_Spec ConfigTree_Spec Runner_Spec Iterate_Spec SectionPath_Proofs Config_Proofs ConfigTree_Proofs ConfigOps_Proofs ConfigLoad_Proofs ConfigWf_Proofs Runner_Proofs RunnerOps_Proofs Product_Proofs Iterate_Proofs IterateRun_Proofs.
From Coq Require Import Lia.
Local Open Scope list_scope.
Local Open Scope monad_scope.

(* ------------------------------------------------------------------ *)
(** * Filled cases *)

Lemma fill_case_spec it c : forall filled, fill_case it c = Ok filled ->
  map fst filled = map fst c /\
  forall p b', In (p, b') filled <-> exists b d, In (p, b) c /\ dget (full_path (it_base it) p) (it_defaults it) = Some d /\ b' = snd (fill_conf d (p, b)).
Proof.
  induction c as [|[p b] c IH]; cbn [fill_case fst]; intros filled H.
  - injection H as <-. split; [reflexivity|]. intros q b'. split; [intros []|intros (b & d & [] & _)].
  - destruct (dget (full_path (it_base it) p) (it_defaults it)) as [d|] eqn:Ed; [|discriminate].
    destruct (fill_case it c) as [l|]; [|discriminate]. injection H as <-. destruct (IH l eq_refl) as [A B].
    split; [cbn; now rewrite A|]. intros q b'. cbn [In]. split.
    + intros [H|H]; [|apply B in H as (b2 & d2 & H1 & H2); exists b2, d2; split; [now right|exact H2]].
      unfold fill_conf in H. cbn [fst snd] in H. injection H as <- <-. exists b, d. split; [now left|]. split; [exact Ed|reflexivity].
    + intros (b2 & d2 & [H|H] & H2 & ->).
      * injection H as <- <-. rewrite Ed in H2. injection H2 as <-. now left.
      * right. apply B. eauto.
Qed.

Lemma mem_In k l : mem k l = true <-> In k l.
Proof.
  unfold mem. rewrite existsb_exists. split.
  - intros (x & H & E). apply String.eqb_eq in E. now subst.
  - intro H. exists k. split; [exact H|apply String.eqb_refl].
Qed.

Lemma fill_conf_get d p b k : dwf (b_vals b) -> ordinary d ->
  dget k (b_vals (snd (fill_conf d (p, b)))) = match dget k (b_vals b) with Some v => Some v | None => dget k d end.
Proof.
  intros Wb [_ Ho]. unfold fill_conf. cbn [fst snd b_vals]. rewrite dget_dupdate by exact Wb.
  destruct (dget k (b_vals b)); [reflexivity|]. rewrite dget_dfilter. destruct (dget k d) eqn:E; [|now destruct (_ && _)%bool].
  assert (Hk : ~ In k ["d_"; "pyfileconf_persist"; "section_path_str"]%string).
  { apply Ho. apply dget_Some_In in E. now apply (in_map fst) in E. }
  replace (String.eqb k "section_path_str") with false by (symmetry; apply String.eqb_neq; intros ->; apply Hk; cbn; auto).
  replace (String.eqb k "d_") with false by (symmetry; apply String.eqb_neq; intros ->; apply Hk; cbn; auto).
  now destruct (b_d b).
Qed.

Lemma keys_set_In updates p b k : In (p, b) updates -> In k (dkeys (b_vals b)) -> In k (keys_set updates p).
Proof.
  intros H Hk. unfold keys_set. apply in_flat_map. exists (p, b). split; [exact H|]. cbn [fst snd]. now rewrite String.eqb_refl.
Qed.

Lemma filled_good updates base it (Dof : string -> dict pyval) c filled : it_base it = base ->
  In c (get_config_product updates) -> fill_case it c = Ok filled ->
  (forall p b, In (p, b) updates -> dwf (b_vals b) /\ plain_dict (b_vals b)) ->
  (forall p d, In p (first_seen (map fst updates)) -> dget (full_path base p) (it_defaults it) = Some d -> Dof p = d /\ ordinary d /\ dwf d) ->
  good_case (first_seen (map fst updates)) Dof (keys_set updates) filled.
Proof.
  intros Hb Hc Hf Hu Hd. destruct (fill_case_spec it c filled Hf) as [A B]. assert (Cp := case_paths _ _ Hc). rewrite Hb in B.
  split; [rewrite A, Cp; apply first_seen_NoDup|]. split; [now rewrite A, Cp|].
  intros p b' Hin. assert (Hp : In p (first_seen (map fst updates))). { rewrite <- Cp, <- A. now apply (in_map fst) in Hin. }
  split; [exact Hp|]. apply B in Hin as (b & d & Hin & Hdd & ->). assert (Hub := case_entries _ _ _ Hc Hin). destruct (Hu p b Hub) as [Wb Pb].
  destruct (Hd p d Hp Hdd) as (HD & Od & Wd). constructor.
  - unfold fill_conf. cbn [fst snd b_vals]. apply dupdate_wf, dfilter_wf, Wd.
  - intros k v Hk. rewrite fill_conf_get in Hk by assumption. destruct (dget k (b_vals b)) eqn:E; [injection Hk as <-; eapply Pb; eauto|].
    eapply (proj1 Od); eauto.
  - rewrite HD. intros k x Hk. destruct (dget k (b_vals (snd (fill_conf d (p, b))))) as [e|] eqn:E.
    + exists e. split; [reflexivity|]. unfold given_kwargs. rewrite dget_dfilter, E.
      destruct (mem k ["d_"; "pyfileconf_persist"; "section_path_str"]%string) eqn:Em; [|reflexivity]. exfalso.
      apply mem_In in Em. apply (proj2 Od k); [|exact Em]. apply dget_Some_In in Hk. now apply (in_map fst) in Hk.
    + exfalso. rewrite fill_conf_get in E by assumption. destruct (dget k (b_vals b)); congruence.
  - rewrite HD. intros k x Hk Hn. rewrite fill_conf_get by assumption. destruct (dget k (b_vals b)) eqn:E; [|exact Hk].
    exfalso. apply Hn. eapply keys_set_In; [exact Hub|]. apply dget_Some_In in E. now apply (in_map fst) in E.
Qed.

(* ------------------------------------------------------------------ *)
(** * The defaults *)

Section Defaults.
  Variable U : world -> string -> user.
  Variable base : option string.
  Hypothesis Hbase : base <> Some ""%string.
  Variable w0 : world.
  Variable P : list string.
  Variable Xof : string -> list string.
  Notation fp := (full_path base).
  Hypothesis Hind : independent w0 (map fp P).

  (** nothing has been read at [p] yet *)
  Definition untouched (w : world) (p : string) : Prop :=
    forall r, ref_at w0 (fp p) = Some r -> exists s, rs_at w (fp p) = Some s /\ cms_wf (r_cms s) /\
      target (r_cms s) (path_parts (inner_path (fp p))) = Some r /\
      overriding_layers (r_cms s) (rpath r) = layers_at w0 (fp p) /\
      current (r_cms s) r = config_at w0 (fp p).
  (** the default found for [p] is what the config effectively held *)
  Definition good_default (p : string) (D : dict pyval) : Prop :=
    dwf D /\ exists c, config_at w0 (fp p) = Some c /\
      forall k, dget k D = match c_vals c with [] => None | _ :: _ => first_of k (layers_at w0 (fp p) ++ [c_vals c]) end.
  (** [p] has been read *)
  Definition read_at (w : world) (p : string) (D : dict pyval) : Prop :=
    exists r s, ref_at w0 (fp p) = Some r /\ rs_at w (fp p) = Some s /\
      ok_cms (r_cms s) (path_parts (inner_path (fp p))) r D D (Xof p).

  Definition same_objects (w : world) : Prop :=
    forall f, match rs_at w0 f with
              | None => rs_at w f = None
              | Some s0 => exists s, rs_at w f = Some s /\ r_loaded s = r_loaded s0 /\ r_calls s = r_calls s0 /\
                                     (forall q, target (r_cms s) q = target (r_cms s0) q)
              end.

  Lemma default_for_path_eq q w : default_for_path U (fp q) w =
    match dget (manager_name (fp q)) w with
    | None => (w, Raise (LibExn "NoPipelineManagerForSectionPathException"))
    | Some pm => let '(st, o) := cm_get (inner_path (fp q)) (r_cms (pm_rs pm)) in
                 (dset (manager_name (fp q)) (PMS (pm_base pm) (pm_items pm) (pm_setting pm) (RS st (r_loaded (pm_rs pm)) (r_next (pm_rs pm)) (r_calls (pm_rs pm)))) w,
                  match o with Raise e => Raise e | Ok None => Ok None
                          | Ok (Some r) => match snd (deref r st) with Ok c => Ok (Some (c_vals c)) | Raise e => Raise e end end)
    end.
  Proof.
    unfold default_for_path, on_manager. change (manager_of (mk_sp (fp q))) with (manager_name (fp q)). change (relative (mk_sp (fp q))) with (inner_path (fp q)).
    destruct (dget (manager_name (fp q)) w) as [pm|]; [|reflexivity]. unfold bind, on_cms.
    destruct (cm_get (inner_path (fp q)) (r_cms (pm_rs pm))) as [st [[r|]|e]]; cbn [r_cms r_loaded r_next r_calls ret]; try reflexivity.
    unfold deref. destruct (read_cref st r); reflexivity.
  Qed.

  Lemma default_step w w' q o : In q P -> default_for_path U (fp q) w = (w', o) -> same_objects w ->
    (forall n p, dget n w = Some p -> rs_wf (pm_rs p)) ->
    same_objects w' /\ (forall n p, dget n w' = Some p -> rs_wf (pm_rs p)) /\
    (forall p, In p P -> p <> q -> untouched w p -> untouched w' p) /\
    (forall p D, In p P -> p <> q -> read_at w p D -> read_at w' p D) /\
    (untouched w q -> inherits_quietly w0 (fp q) (Xof q) -> forall D, o = Ok (Some D) -> read_at w' q D /\ good_default q D).
  Proof.
    intros Hq H So Wf. rewrite default_for_path_eq in H. destruct (dget (manager_name (fp q)) w) as [pm|] eqn:Epm.
    2:{ injection H as <- <-. split; [exact So|]. split; [exact Wf|]. split; [auto|]. split; [auto|]. discriminate. }
    destruct (cm_get (inner_path (fp q)) (r_cms (pm_rs pm))) as [st o1] eqn:Eg.
    assert (W0 := Wf _ _ Epm). unfold rs_wf in W0. assert (W1 := cm_get_wf _ (inner_path (fp q)) W0). rewrite Eg in W1. cbn [fst] in W1.
    assert (S := cm_get_spec _ _ _ _ W0 Eg). set (s' := RS st (r_loaded (pm_rs pm)) (r_next (pm_rs pm)) (r_calls (pm_rs pm))) in *.
    injection H as <- Ho.
    assert (RsAt : forall f, rs_at (dset (manager_name (fp q)) (PMS (pm_base pm) (pm_items pm) (pm_setting pm) s') w) f =
                   if String.eqb (manager_name f) (manager_name (fp q)) then Some s' else rs_at w f) by (intro f; now apply rs_at_set).
    assert (Hpm : forall f, manager_name f = manager_name (fp q) -> rs_at w f = Some (pm_rs pm)) by (intros f Hf; unfold rs_at; now rewrite Hf, Epm).
    assert (Tg : forall x, target st x = target (r_cms (pm_rs pm)) x).
    { destruct (target (r_cms (pm_rs pm)) (path_parts (inner_path (fp q)))) as [r'|]; [exact (proj1 (proj1 S))|].
      destruct S as (-> & _). reflexivity. }
    split; [|split; [|split; [|split]]].
    - intro f. rewrite RsAt. specialize (So f). destruct (String.eqb (manager_name f) (manager_name (fp q))) eqn:Em; [|exact So].
      apply String.eqb_eq in Em. rewrite (Hpm f Em) in So. destruct (rs_at w0 f) as [s0|]; [|discriminate].
      destruct So as (s & E & A1 & A2 & A3). injection E as <-. exists s'. split; [reflexivity|]. split; [exact A1|]. split; [exact A2|].
      intro x. cbn. rewrite Tg. apply A3.
    - intros n p Hn. destruct (string_dec n (manager_name (fp q))) as [->|Hne].
      + rewrite dget_dset_eq in Hn. injection Hn as <-. exact W1.
      + rewrite dget_dset_neq in Hn by exact Hne. now apply (Wf n).
    - intros p Hp Hne Hu r Hr. destruct (Hu r Hr) as (s & Es & A1 & A2 & A3 & A4). rewrite RsAt.
      destruct (String.eqb (manager_name (fp p)) (manager_name (fp q))) eqn:Em; [|now exists s].
      apply String.eqb_eq in Em. rewrite (Hpm _ Em) in Es. injection Es as <-. exists s'. split; [reflexivity|]. split; [exact W1|].
      split; [cbn; now rewrite Tg|]. cbn.
      assert (Hr' : forall r', target (r_cms (pm_rs pm)) (path_parts (inner_path (fp q))) = Some r' -> ref_at w0 (fp q) = Some r').
      { intros r' Hr'. unfold ref_at. specialize (So (fp q)). rewrite (Hpm (fp q) eq_refl) in So.
        destruct (rs_at w0 (fp q)) as [s0|]; [|discriminate]. destruct So as (s & E & _ & _ & B). injection E as <-. now rewrite <- B. }
      rewrite <- A3, <- A4. destruct (target (r_cms (pm_rs pm)) (path_parts (inner_path (fp q)))) as [r'|] eqn:Et; [|destruct S as (-> & _); auto].
      destruct (Hind (fp p) (fp q) r r') as [B1 B2]; [now apply in_map|now apply in_map|intro E; apply Hne; eapply full_path_inj; eassumption|exact Em|exact Hr|now apply Hr'|].
      split; [eapply touches_layers_other; [exact (proj1 S)| |exact B2]; now destruct (target_rpath _ _ _ Et)|].
      apply (touches_current r'); [exact (proj1 S)|congruence].
    - intros p D Hp Hne (r & s & Hr & Es & Hok). exists r. rewrite RsAt.
      destruct (String.eqb (manager_name (fp p)) (manager_name (fp q))) eqn:Em; [|exists s; auto].
      apply String.eqb_eq in Em. rewrite (Hpm _ Em) in Es. injection Es as <-. exists s'. split; [exact Hr|]. split; [reflexivity|]. cbn.
      replace st with (fst (cm_get (inner_path (fp q)) (r_cms (pm_rs pm)))) by now rewrite Eg. now apply get_ok_cms.
    - intros Hu [Hr0 Hqt] D E. rewrite E in Ho.
      destruct (target (r_cms (pm_rs pm)) (path_parts (inner_path (fp q)))) as [r|] eqn:Et; [|destruct S as (_ & e & ->); discriminate].
      assert (Hr : ref_at w0 (fp q) = Some r).
      { unfold ref_at. specialize (So (fp q)). rewrite (Hpm (fp q) eq_refl) in So.
        destruct (rs_at w0 (fp q)) as [s0|]; [|discriminate]. destruct So as (s & E0 & _ & _ & B). injection E0 as <-. now rewrite <- B. }
      destruct S as (T & _ & S). destruct (current (r_cms (pm_rs pm)) r) as [c|] eqn:Ec.
      2:{ destruct S as (-> & [->|(e & ->)]); discriminate. }
      destruct S as (-> & c' & Rd & Wc' & _ & _ & V). rewrite (deref_read _ _ _ Rd) in Ho. cbn [snd] in Ho. injection Ho as <-.
      destruct (Hu r Hr) as (s & Es & _ & _ & Lay & Cur). rewrite (Hpm (fp q) eq_refl) in Es. injection Es as <-.
      split.
      2:{ split; [apply Wc'|]. exists c. split; [congruence|]. intro k. rewrite V. unfold effective. now rewrite Lay. }
      exists r, s'. split; [exact Hr|]. split; [rewrite RsAt; now rewrite String.eqb_refl|]. cbn.
      constructor; [exact W1|rewrite Tg; exact Et|now apply Hr0|].
      exists c'. split; [now apply read_current|]. split; [intros k d Hk; exists d, d; split; [exact Hk|split; [exact Hk|reflexivity]]|].
      destruct (c_vals c) as [|kv vs] eqn:Ev.
      + left. unfold effective in V. apply all_none_nil. intro k. now rewrite V.
      + right. destruct (target_rpath _ _ _ Et) as [Hloc _]. rewrite (overriding_touches _ _ r T Hloc (Hr0 r Hr)).
        intros L k v HL Hk. assert (Hv : dget k (c_vals c') = Some v).
        { rewrite V. unfold effective. rewrite first_of_app.
          destruct (first_of k (overriding_layers (r_cms (pm_rs pm)) (rpath r))) as [v'|] eqn:Ef.
          - apply first_of_In in Ef as (L' & HL' & Hk'). rewrite Lay in HL, HL'. f_equal. now apply (Hqt L L' k v v').
          - rewrite (first_of_None _ _ Ef L HL) in Hk. discriminate. }
        split; [exact Hv|]. split; [exact Hv|]. rewrite Lay in HL. now apply (Hqt L L k v v HL HL Hk Hk).
  Qed.
End Defaults.

Section Loop.
  Variable U : world -> string -> user.
  Variable base : option string.
  Hypothesis Hbase : base <> Some ""%string.
  Variable w0 : world.
  Variable P : list string.
  Variable Xof : string -> list string.
  Notation fp := (full_path base).
  Hypothesis Hind : independent w0 (map fp P).
  Hypothesis Hqt : forall p, In p P -> inherits_quietly w0 (fp p) (Xof p).

  Lemma defaults_loop_ok ps : forall done w w' acc acc', NoDup ps -> incl ps P -> incl done P -> (forall p, In p done -> ~ In p ps) ->
    defaults_loop U (map fp ps) acc w = (w', Ok acc') -> same_objects w0 w -> (forall n p, dget n w = Some p -> rs_wf (pm_rs p)) ->
    (forall p, In p ps -> untouched base w0 w p) ->
    (forall p D, In p done -> dget (fp p) acc = Some D -> read_at base w0 Xof w p D /\ good_default base w0 p D) ->
    (forall p, In p ps -> dget (fp p) acc = None) ->
    same_objects w0 w' /\ forall p D, In p (done ++ ps) -> dget (fp p) acc' = Some D -> read_at base w0 Xof w' p D /\ good_default base w0 p D.
  Proof.
    induction ps as [|q ps IH]; intros done w w' acc acc' N Hi Hd Hdis H So Wf Hu Hr Hn.
    - cbn in H. injection H as <- <-. rewrite app_nil_r. auto.
    - cbn [map defaults_loop] in H. unfold bind in H. destruct (default_for_path U (fp q) w) as [w1 [od|e]] eqn:E1; [|discriminate].
      assert (Hq : In q P) by (apply Hi; now left). inversion N as [|? ? Nn N']; subst.
      destruct (default_step U base Hbase w0 P Xof Hind w w1 q (Ok od) Hq E1 So Wf) as (So1 & Wf1 & Hu1 & Hr1 & Hq1).
      destruct (IH (done ++ [q]) w1 w' (match od with Some d => dset (fp q) d acc | None => acc end) acc' N' (fun x Hx => Hi x (or_intror Hx))) as [R1 R2]; [| |exact H|exact So1|exact Wf1| | | |].
      + intros x Hx. apply in_app_iff in Hx as [Hx|[<-|[]]]; auto.
      + intros x Hx. apply in_app_iff in Hx as [Hx|[<-|[]]]; [|exact Nn]. intro Hx'. apply (Hdis x Hx). now right.
      + intros p Hp. apply Hu1; [apply Hi; now right|intros ->; contradiction|apply Hu; now right].
      + intros p D Hp HD. apply in_app_iff in Hp as [Hp|[<-|[]]].
        * assert (p <> q) by (intros ->; apply (Hdis q Hp); now left).
          assert (HD' : dget (fp p) acc = Some D). { destruct od; [|exact HD]. rewrite dget_dset_neq in HD; [exact HD|]. intro E. apply H0. eapply full_path_inj; eassumption. }
          destruct (Hr p D Hp HD') as [A B]. split; [|exact B]. apply Hr1; auto.
        * destruct od as [d|]; [|rewrite (Hn q (or_introl eq_refl)) in HD; discriminate]. rewrite dget_dset_eq in HD. injection HD as <-.
          apply Hq1; [apply Hu; now left|now apply Hqt|reflexivity].
      + intros p Hp. destruct od; [|apply Hn; now right]. rewrite dget_dset_neq; [apply Hn; now right|].
        intro E. apply Nn. replace q with p; [exact Hp|]. eapply full_path_inj; eassumption.
      + split; [exact R1|]. intros p D Hp. apply R2. rewrite <- app_assoc. exact Hp.
  Qed.
End Loop.

Section Iteration.
  Variable U : world -> string -> user.
  Variable should_run : case -> bool.
  Variables (w0 w1 : world) (it : iter) (updates : list conf) (paths : list sp_like) (base : option string) (strip : bool).
  Hypothesis Hnew : iter_new U [] (fun l => l) paths updates base strip w0 = (w1, Ok it).
  Hypothesis Hiso : isolated w0 it updates.
  Hypothesis Hstep : loaded_in_step w0 it updates.

  Let P := first_seen (map fst updates).
  Let Dof p := match dget (full_path base p) (it_defaults it) with Some d => d | None => [] end.
  Let rof p := match ref_at w0 (full_path base p) with Some r => r | None => CLocal end.
  Let Xof := keys_set updates.
  Notation fp := (full_path base).

  Lemma new_fields : it_base it = base /\ it_strip it = strip /\ it_cases it = get_config_product updates /\
    get_defaults U base (get_config_product updates) w0 = (w1, Ok (it_defaults it)).
  Proof.
    clear Hiso Hstep. unfold iter_new, bind, lift in Hnew. destruct (list_from_ambiguous paths base strip) as [l|]; [|discriminate].
    unfold get_cases in Hnew. cbn [app concat] in Hnew. rewrite app_nil_r in Hnew.
    destruct (get_defaults U base (get_config_product updates) w0) as [w [d|]]; [|discriminate]. cbn in Hnew. injection Hnew as <- <-. auto.
  Qed.

  Lemma iso_base' : base <> Some ""%string.
  Proof. destruct new_fields as (<- & _). apply Hiso. Qed.
  Lemma P_In p : In p P <-> In p (map fst updates). Proof. apply first_seen_In. Qed.
  Lemma ind_P : independent w0 (map fp P).
  Proof.
    assert (H := iso_indep _ _ _ Hiso). destruct new_fields as (E & _). rewrite E in H. intros f g r r' Hf Hg. apply H.
    - apply in_map_iff in Hf as (p & <- & Hp). apply P_In, in_map_iff in Hp as (c & <- & Hc). apply in_map_iff. now exists c.
    - apply in_map_iff in Hg as (p & <- & Hp). apply P_In, in_map_iff in Hp as (c & <- & Hc). apply in_map_iff. now exists c.
  Qed.

  Lemma after_defaults : same_objects w0 w1 /\ forall p D, In p P -> dget (fp p) (it_defaults it) = Some D -> read_at base w0 Xof w1 p D /\ good_default base w0 p D.
  Proof.
    destruct new_fields as (E1 & _ & _ & H). unfold get_defaults in H.
    destruct (get_config_product updates) as [|c cs] eqn:Ec; [discriminate|].
    assert (Hc : map fst c = P) by (apply case_paths; rewrite Ec; now left).
    match type of H with context [map ?f c] => assert (Hm : map f c = map fp P) by (rewrite <- Hc, map_map; reflexivity); rewrite Hm in H end.
    refine (defaults_loop_ok U base iso_base' w0 P Xof ind_P _ P [] w0 w1 [] (it_defaults it) (first_seen_NoDup _) (fun x h => h) _ _ H _ _ _ _ _).
    - intros p Hp. assert (Q := iso_quiet _ _ _ Hiso p). rewrite E1 in Q. apply Q. now apply P_In.
    - intros x [].
    - intros x [].
    - intro f. destruct (rs_at w0 f) as [s0|]; [|reflexivity]. exists s0. auto.
    - exact (iso_wf _ _ _ Hiso).
    - intros p Hp r Hr. unfold ref_at in Hr. destruct (rs_at w0 (fp p)) as [s|] eqn:Es; [|discriminate]. exists s. split; [reflexivity|].
      split; [|split; [exact Hr|]].
      + unfold rs_at in Es. destruct (dget (manager_name (fp p)) w0) as [pm|] eqn:Epm; [|discriminate]. injection Es as <-.
        exact (iso_wf _ _ _ Hiso _ _ Epm).
      + unfold layers_at, config_at, ref_at. now rewrite Es, Hr.
    - intros p D [].
    - reflexivity.
  Qed.

  Hypothesis Hall : forall p, In p P -> exists d, dget (fp p) (it_defaults it) = Some d.

  Lemma Dof_eq p d : dget (fp p) (it_defaults it) = Some d -> Dof p = d.
  Proof. unfold Dof. now intros ->. Qed.

  Lemma start_Inv : Inv base P Dof rof Xof w1 (env Dof None).
  Proof.
    destruct after_defaults as [So Rd]. intros p Hp. destruct (Hall p Hp) as [d Hd]. destruct (Rd p d Hp Hd) as [(r & s & Hr & Es & Hok) _].
    exists s. split; [exact Es|]. cbn [env]. rewrite (Dof_eq p d Hd). unfold rof. rewrite Hr. split; [exact Hok|].
    intros o Ho k v x Hk Hx. specialize (So (fp p)). unfold ref_at in Hr. destruct (rs_at w0 (fp p)) as [s0|] eqn:Es0; [|discriminate].
    destruct So as (s2 & E2 & L & _). rewrite Es in E2. injection E2 as <-. rewrite L in Ho.
    destruct new_fields as (E1 & _). assert (St := Hstep p s0 o d). rewrite E1 in St.
    specialize (St (proj1 (P_In p) Hp) Es0 Ho Hd). exists x. split; [exact Hx|]. exact (St k v x Hk Hx).
  Qed.

  Lemma ind_rof : forall p q, In p P -> In q P -> p <> q -> manager_name (fp p) = manager_name (fp q) ->
    rof q <> rof p /\ ~ In (rof q) (map CSec ([] :: prefixes (rpath (rof p)))).
  Proof.
    intros p q Hp Hq Hne Hm. destruct (Hall p Hp) as [d Hd]. destruct (Hall q Hq) as [d' Hd']. destruct after_defaults as [_ Rd].
    destruct (Rd p d Hp Hd) as [(r & s & Hr & _) _]. destruct (Rd q d' Hq Hd') as [(r' & s' & Hr' & _) _].
    unfold rof. rewrite Hr, Hr'. apply (ind_P (fp p) (fp q)); try apply in_map; auto. intro E. apply Hne. eapply full_path_inj; [apply iso_base'|exact E].
  Qed.

  Lemma D_plain : forall p, In p P -> plain_dict (Dof p).
  Proof.
    intros p Hp. destruct (Hall p Hp) as [d Hd]. rewrite (Dof_eq p d Hd). apply (iso_defaults _ _ _ Hiso _ _ Hd).
  Qed.

  Lemma case_good c filled : In c (it_cases it) -> fill_case it c = Ok filled -> good_case P Dof Xof filled.
  Proof.
    intros Hc Hf. destruct new_fields as (E1 & _ & E3 & _). rewrite E3 in Hc. refine (filled_good updates base it Dof c filled E1 Hc Hf _ _).
    - exact (iso_updates _ _ _ Hiso).
    - intros p d Hp Hd. split; [now apply Dof_eq|]. split; [apply (iso_defaults _ _ _ Hiso _ _ Hd)|].
      now apply (proj2 (after_defaults) p d).
  Qed.

  Definition good_state (s : ist) : Prop :=
    Inv base P Dof rof Xof (is_world s) (env Dof (is_last s)) /\ forall l, is_last s = Some l -> good_case P Dof Xof l.

  Lemma update_step c filled s s' : In c (it_cases it) -> fill_case it c = Ok filled -> good_state s ->
    update_for_case U it filled s = (s', Ok tt) ->
    Inv base P Dof rof Xof (is_world s') (env Dof (Some filled)) /\ is_last s' = is_last s.
  Proof.
    intros Hc Hf [HI Hl] H. destruct new_fields as (E1 & E2 & _).
    exact (update_for_case_ok U base strip iso_base' P Dof rof Xof ind_rof D_plain it filled s s' E1 E2 (case_good c filled Hc Hf) Hl H HI).
  Qed.

  Lemma run_case_step c s s' r : In c (it_cases it) -> good_state s -> run_case U it c s = (s', Ok r) -> good_state s'.
  Proof.
    intros Hc Hs H. unfold run_case, bind, lift in H. destruct (fill_case it c) as [filled|] eqn:Ef; [|discriminate].
    destruct (update_for_case U it filled s) as [s1 [[]|]] eqn:Eu; [|discriminate].
    destruct (update_step c filled s s1 Hc Ef Hs Eu) as [HI _].
    unfold on_world in H. assert (Hr := run_items_ok U base P Dof rof Xof _ it _ _ (RunInv_start base P Dof rof Xof _ _ HI)).
    destruct (run_items U it (is_world s1)) as [w2 [r'|]]; [|discriminate]. cbn [fst] in Hr. unfold modify, ret in H. injection H as <- <-.
    split; cbn [is_world is_last]; [exact (RunInv_Inv base P Dof rof Xof _ _ _ Hr)|]. intros l [= <-]. exact (case_good c filled Hc Ef).
  Qed.

  Lemma run_cases_step l : forall s s' r, incl l (it_cases it) -> good_state s -> run_cases U should_run it l s = (s', Ok r) -> good_state s'.
  Proof.
    induction l as [|c l IH]; intros s s' r Hi Hs H; cbn [run_cases] in H; [injection H as <- <-; exact Hs|].
    destruct (should_run c).
    - unfold bind in H. destruct (run_case U it c s) as [s1 [r1|]] eqn:E1; [|discriminate].
      destruct (run_cases U should_run it l s1) as [s2 [r2|]] eqn:E2; [|discriminate]. injection H as <- <-.
      apply (IH s1 s2 r2); [intros x Hx; apply Hi; now right| |exact E2]. eapply run_case_step; [|exact Hs|exact E1]. apply Hi. now left.
    - apply (IH s s' r); [intros x Hx; apply Hi; now right|exact Hs|exact H].
  Qed.
End Iteration.

(** a case can only be filled if all its configs exist *)
Lemma filled_defaults it c filled p : fill_case it c = Ok filled -> In p (map fst c) ->
  exists d, dget (full_path (it_base it) p) (it_defaults it) = Some d.
Proof.
  intros Hf Hp. destruct (fill_case_spec it c filled Hf) as [A B]. rewrite <- A in Hp. apply in_map_iff in Hp as ([q b] & <- & Hq).
  apply B in Hq as (b0 & d & _ & Hd & _). now exists d.
Qed.

(** what an iteration has done up to and including the update for a case *)
Lemma case_values U should_run w0 w1 it updates paths base strip pre c s1 rs s2 filled :
  iter_new U [] (fun l => l) paths updates base strip w0 = (w1, Ok it) ->
  isolated w0 it updates -> loaded_in_step w0 it updates ->
  incl pre (it_cases it) -> In c (it_cases it) ->
  run_cases U should_run it pre (IS w1 None) = (s1, Ok rs) ->
  fill_case it c = Ok filled -> update_for_case U it filled s1 = (s2, Ok tt) ->
  forall p b d k e, In (p, b) c -> dget (full_path base p) (it_defaults it) = Some d -> case_value d b k = Some e ->
    exists cfg v, config_at (is_world s2) (full_path base p) = Some cfg /\ dget k (c_vals cfg) = Some v /\ same_value v e.
Proof.
  intros Hnew Hiso Hst Hpre Hc Hrun Hf Hu p b d k e Hin Hd He.
  destruct (new_fields _ _ _ _ _ _ _ _ Hnew) as (E1 & _ & E3 & _).
  assert (Hcp : map fst c = first_seen (map fst updates)) by (apply case_paths; now rewrite <- E3).
  assert (Hall : forall q, In q (first_seen (map fst updates)) -> exists d, dget (full_path base q) (it_defaults it) = Some d).
  { intros q Hq. rewrite <- E1. eapply filled_defaults; [exact Hf|]. now rewrite Hcp. }
  assert (Hs : good_state w0 it updates base s1).
  { eapply run_cases_step; [exact Hnew|exact Hiso|exact Hall|exact Hpre| |exact Hrun].
    split; [exact (start_Inv _ _ _ _ _ _ _ _ Hnew Hiso Hst Hall)|discriminate]. }
  destruct (update_step _ _ _ _ _ _ _ _ Hnew Hiso Hall c filled s1 s2 Hc Hf Hs Hu) as [HI _].
  assert (Hp : In p (first_seen (map fst updates))) by (rewrite <- Hcp; now apply (in_map fst) in Hin).
  destruct (HI p Hp) as (s & Es & [[W Ht _ (cfg & Hcfg & Hv & _)] _]).
  destruct (fill_case_spec it c filled Hf) as [A B].
  assert (Hb' : In (p, snd (fill_conf d (p, b))) filled) by (apply B; exists b, d; rewrite E1; auto).
  assert (N : NoDup (map fst filled)) by (rewrite A, Hcp; apply first_seen_NoDup).
  rewrite Hd in Hv. cbn [env] in Hv. unfold over in Hv. rewrite (In_dget_case filled p _ N Hb') in Hv.
  assert (Hub : In (p, b) updates) by (eapply case_entries; [rewrite <- E3; exact Hc|exact Hin]).
  unfold case_value in He. destruct (dget k d) as [d0|] eqn:Ek; [|discriminate].
  destruct (Hv k d0 Ek) as (v & e' & H1 & H2 & H3).
  rewrite fill_conf_get in H2; [|apply (iso_updates _ _ _ Hiso p b Hub)|apply (iso_defaults _ _ _ Hiso _ _ Hd)].
  exists cfg, v. split; [|split; [exact H1|]].
  - unfold config_at, ref_at. rewrite Es, Ht. exact Hcfg.
  - rewrite Ek in H2. destruct (dget k (b_vals b)); congruence.
Qed.

(** updates call nothing *)
Definition same_calls (w w' : world) : Prop :=
  forall f s', rs_at w' f = Some s' -> exists s, rs_at w f = Some s /\ r_calls s' = r_calls s.
Lemma same_calls_refl w : same_calls w w. Proof. intros f s' H. eauto. Qed.
Lemma same_calls_trans a b c : same_calls a b -> same_calls b c -> same_calls a c.
Proof. intros H1 H2 f s' H. destruct (H2 f s' H) as (s1 & A & B). destruct (H1 f s1 A) as (s0 & C & E). exists s0. split; [exact C|congruence]. Qed.

Lemma runner_update_calls u d path persist kw s : r_calls (fst (runner_update u d (Some path) persist kw s)) = r_calls s.
Proof.
  destruct (runner_update u d (Some path) persist kw s) as [s' o] eqn:E. assert (S := runner_update_spec _ _ _ _ _ _ _ _ E). cbn zeta in S. cbn [fst].
  destruct (target (r_cms s) (path_parts path)); [|destruct S as (-> & _); reflexivity]. apply S.
Qed.

Lemma batch_step_calls U base strip q w : same_calls w (fst (batch_step U base strip q w)).
Proof.
  unfold batch_step, bind, lift. destruct (from_ambiguous (fst q) strip base) as [sp|]; [|apply same_calls_refl].
  unfold on_manager. destruct (dget (manager_of sp) w) as [pm|] eqn:Epm; [|apply same_calls_refl].
  destruct (update_call (U w (manager_of sp)) (relative sp) (snd q) (pm_rs pm)) as [s' o] eqn:Eu. cbn [fst]. intros f s2 H.
  rewrite (rs_at_set w _ pm s' f Epm) in H. destruct (String.eqb (manager_name f) (manager_of sp)) eqn:Em; [|eauto].
  injection H as <-. apply String.eqb_eq in Em. exists (pm_rs pm). split; [unfold rs_at; now rewrite Em, Epm|].
  replace s' with (fst (update_call (U w (manager_of sp)) (relative sp) (snd q) (pm_rs pm))) by now rewrite Eu.
  unfold update_call. destruct (dmem "self" (b_vals (snd q))); [reflexivity|]. unfold bind, lift.
  destruct (given_dict (snd q)) as [d|]; [apply runner_update_calls|reflexivity].
Qed.

Lemma iterM_calls U base strip l : forall w, same_calls w (fst (iterM (batch_step U base strip) l w)).
Proof.
  induction l as [|q l IH]; intro w; [apply same_calls_refl|]. cbn [iterM]. unfold bind. assert (H := batch_step_calls U base strip q w).
  destruct (batch_step U base strip q w) as [w1 [[]|]]; cbn [fst] in *; [|exact H]. eapply same_calls_trans; [exact H|apply IH].
Qed.

Lemma update_for_case_calls U it l s : same_calls (is_world s) (is_world (fst (update_for_case U it l s))).
Proof.
  unfold update_for_case, bind. destruct (updated_confs (is_last s) l) as [confs|]; [|apply same_calls_refl].
  unfold on_world, batch_update. cbn [concat app]. assert (H := iterM_calls U (it_base it) (it_strip it) (map (fun q => (LStr (fst q), snd q)) confs) (is_world s)).
  destruct (iterM _ _ (is_world s)) as [w o]. exact H.
Qed.

(** every call made during a case gets that case's values *)
Lemma case_calls U should_run w0 w1 it updates paths base strip pre c s1 rs s2 o :
  iter_new U [] (fun l => l) paths updates base strip w0 = (w1, Ok it) ->
  isolated w0 it updates -> loaded_in_step w0 it updates ->
  incl pre (it_cases it) -> In c (it_cases it) ->
  run_cases U should_run it pre (IS w1 None) = (s1, Ok rs) -> run_case U it c s1 = (s2, o) ->
  forall p b d s s' i ob, In (p, b) c -> dget (full_path base p) (it_defaults it) = Some d ->
    rs_at (is_world s1) (full_path base p) = Some s -> rs_at (is_world s2) (full_path base p) = Some s' ->
    length (r_calls s) <= i -> nth_error (r_calls s') i = Some (inner_path (full_path base p), ob) ->
    agree (arguments ob) (case_value d b).
Proof.
  intros Hnew Hiso Hst Hpre Hc Hrun Hcase p b d s s' i ob Hin Hd Hs Hs' Hi Hn.
  destruct (new_fields _ _ _ _ _ _ _ _ Hnew) as (E1 & _ & E3 & _).
  assert (Hcp : map fst c = first_seen (map fst updates)) by (apply case_paths; now rewrite <- E3).
  assert (NoCalls : forall w, same_calls (is_world s1) w -> rs_at w (full_path base p) = Some s' -> False).
  { intros w H Hw. destruct (H _ _ Hw) as (s0 & A & B). rewrite Hs in A. injection A as <-. rewrite B in Hn.
    assert (i < length (r_calls s)) by (apply nth_error_Some; congruence). lia. }
  unfold run_case, bind, lift in Hcase. destruct (fill_case it c) as [filled|] eqn:Hf.
  2:{ injection Hcase as <- <-. exfalso. apply (NoCalls _ (same_calls_refl _) Hs'). }
  assert (Hsc := update_for_case_calls U it filled s1).
  destruct (update_for_case U it filled s1) as [s1' [[]|]] eqn:Hu; cbn [fst] in Hsc.
  2:{ injection Hcase as <- <-. exfalso. apply (NoCalls _ Hsc Hs'). }
  assert (Hall : forall q, In q (first_seen (map fst updates)) -> exists d, dget (full_path base q) (it_defaults it) = Some d).
  { intros q Hq. rewrite <- E1. eapply filled_defaults; [exact Hf|]. now rewrite Hcp. }
  assert (Hg : good_state w0 it updates base s1).
  { eapply run_cases_step; [exact Hnew|exact Hiso|exact Hall|exact Hpre| |exact Hrun].
    split; [exact (start_Inv _ _ _ _ _ _ _ _ Hnew Hiso Hst Hall)|discriminate]. }
  destruct (update_step _ _ _ _ _ _ _ _ Hnew Hiso Hall c filled s1 s1' Hc Hf Hg Hu) as [HI _].
  assert (Hp : In p (first_seen (map fst updates))) by (rewrite <- Hcp; now apply (in_map fst) in Hin).
  assert (Hw : is_world s2 = fst (run_items U it (is_world s1'))).
  { unfold on_world in Hcase. destruct (run_items U it (is_world s1')) as [w2 [r'|]]; unfold modify, ret in Hcase; injection Hcase as <- <-; reflexivity. }
  assert (HR := run_items_ok U base _ _ _ _ _ it _ _ (RunInv_start base _ _ _ _ _ _ HI)).
  rewrite <- Hw in HR. destruct (HR p Hp) as (s3 & Hs3 & [_ Hcalls]). rewrite Hs' in Hs3. injection Hs3 as <-.
  assert (L : match rs_at (is_world s1') (full_path base p) with Some s => length (r_calls s) | None => 0 end <= i).
  { destruct (rs_at (is_world s1') (full_path base p)) as [sx|] eqn:Ex; [|lia]. destruct (Hsc _ _ Ex) as (sy & A & B). rewrite Hs in A. injection A as <-. now rewrite B. }
  specialize (Hcalls i ob L Hn).
  destruct (fill_case_spec it c filled Hf) as [A B].
  assert (Hb' : In (p, snd (fill_conf d (p, b))) filled) by (apply B; exists b, d; rewrite E1; auto).
  assert (N : NoDup (map fst filled)) by (rewrite A, Hcp; apply first_seen_NoDup).
  rewrite Hd in Hcalls. cbn [env] in Hcalls. unfold over in Hcalls. rewrite (In_dget_case filled p _ N Hb') in Hcalls.
  assert (Hub : In (p, b) updates) by (eapply case_entries; [rewrite <- E3; exact Hc|exact Hin]).
  intros k v e Hk He. unfold case_value in He. destruct (dget k d) as [d0|] eqn:Ek; [|discriminate].
  destruct (Hcalls k v d0 Hk Ek) as (e' & H2 & H3).
  rewrite fill_conf_get in H2; [|apply (iso_updates _ _ _ Hiso p b Hub)|apply (iso_defaults _ _ _ Hiso _ _ Hd)].
  rewrite Ek in H2. destruct (dget k (b_vals b)); congruence.
Qed.
