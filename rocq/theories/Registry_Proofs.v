From Verif Require Import Registry_Model Registry_Spec SectionPath_Proofs.

Lemma reg_run_snoc ops o : reg_run (ops ++ [o]) = reg_step (reg_run ops) o.
Proof. unfold reg_run. now rewrite fold_left_app. Qed.

Lemma reg_run_wf ops : dwf (reg_run ops).
Proof.
  induction ops as [|o ops IH] using rev_ind; [apply dwf_nil|].
  rewrite reg_run_snoc. destruct o as [a f m|m|]; cbn.
  - unfold register. destruct (a && f); cbn; [exact IH|now apply dset_wf].
  - unfold finalise. destruct (dget (m_name m) (reg_run ops)); [|exact IH].
    destruct (Nat.eqb _ _); [now apply ddel_wf|exact IH].
  - apply dwf_nil.
Qed.

Lemma reg_run_name ops name m : dget name (reg_run ops) = Some m -> m_name m = name.
Proof.
  revert name m; induction ops as [|o ops IH] using rev_ind; intros name m; [discriminate|].
  rewrite reg_run_snoc. destruct o as [a f m'|m'|]; cbn.
  - unfold register. destruct (a && f); cbn; [apply IH|].
    rewrite dget_dset. destruct (String.eqb name (m_name m')) eqn:E; [|apply IH].
    apply eqb_eq_s in E. now intros [= <-].
  - unfold finalise. destruct (dget (m_name m') (reg_run ops)); [|apply IH].
    destruct (Nat.eqb _ _); [|apply IH]. intro H.
    destruct (String.eqb name (m_name m')) eqn:E.
    + apply eqb_eq_s in E; subst. rewrite dget_ddel_eq in H by apply reg_run_wf. discriminate.
    + apply eqb_neq_s in E. rewrite dget_ddel_neq in H by exact E. now apply IH.
  - discriminate.
Qed.

Lemma snoc_inv {A} (l : list A) x b y a :
  l ++ [x] = b ++ y :: a -> (a = [] /\ l = b /\ x = y) \/ exists a', a = a' ++ [x] /\ l = b ++ y :: a'.
Proof.
  intro H. destruct a as [|z a] using rev_ind.
  - left. apply app_inj_tail in H as [-> ->]. now repeat split.
  - right. exists a. rewrite app_comm_cons, app_assoc in H. apply app_inj_tail in H as [-> ->].
    now split.
Qed.

Lemma newest_live_snoc ops o name m :
  newest_live (ops ++ [o]) name m <->
  (exists a f, o = OpNew a f m /\ m_name m = name /\ a && f = false) \/
  (newest_live ops name m /\
   match o with
   | OpNew a f m' => m_name m' = name -> a && f = true
   | OpDel m' => m_id m' <> m_id m
   | OpReset => False
   end).
Proof.
  unfold newest_live. split.
  - intros (b & af & a & f & E & Hn & Hv & H1 & H2 & H3).
    apply snoc_inv in E as [(-> & -> & ->)|(af' & -> & ->)].
    + left. now exists a, f.
    + right. split.
      * exists b, af', a, f. repeat split; try assumption.
        -- intros a' f' m' Hin. apply (H1 a' f' m'). apply in_or_app; now left.
        -- intros m' Hin. apply H2. apply in_or_app; now left.
        -- intro Hin. apply H3. apply in_or_app; now left.
      * destruct o as [a' f' m'|m'|].
        -- apply (H1 a' f' m'). apply in_or_app; right; now left.
        -- apply H2. apply in_or_app; right; now left.
        -- apply H3. apply in_or_app; right; now left.
  - intros [(a & f & -> & Hn & Hv)|[(b & af & a & f & -> & Hn & Hv & H1 & H2 & H3) Ho]].
    + exists ops, [], a, f. repeat split; try assumption; try easy.
    + exists b, (af ++ [o]), a, f. repeat split; try assumption.
      * now rewrite <- app_assoc.
      * intros a' f' m' Hin. apply in_app_or in Hin as [Hin|[Hin|[]]]; [now apply (H1 a' f' m')|].
        subst o. exact Ho.
      * intros m' Hin. apply in_app_or in Hin as [Hin|[Hin|[]]]; [now apply H2|]. subst o. exact Ho.
      * intro Hin. apply in_app_or in Hin as [Hin|[Hin|[]]]; [now apply H3|]. subst o. exact Ho.
Qed.

Lemma newest_live_created ops name m :
  newest_live ops name m -> exists a f, In (OpNew a f m) ops.
Proof.
  intros (b & af & a & f & -> & _). exists a, f. apply in_or_app. right. now left.
Qed.

Lemma ids_consistent_snoc ops o : ids_consistent (ops ++ [o]) -> ids_consistent ops.
Proof.
  intros H m m' H1 H2. apply H.
  - destruct H1 as [(a & f & H1)|H1]; [left; exists a, f|right]; apply in_or_app; now left.
  - destruct H2 as [(a & f & H2)|H2]; [left; exists a, f|right]; apply in_or_app; now left.
Qed.

Lemma registry_refines ops : ids_consistent ops ->
  forall name m, dget name (reg_run ops) = Some m <-> newest_live ops name m.
Proof.
  induction ops as [|o ops IH] using rev_ind; intros Hid name m.
  - cbn. split; [discriminate|]. intros (b & af & a & f & E & _). now destruct b.
  - rewrite reg_run_snoc, newest_live_snoc. specialize (IH (ids_consistent_snoc _ _ Hid)).
    destruct o as [a f m'|m'|]; cbn.
    + unfold register. destruct (a && f) eqn:Eaf; cbn.
      * rewrite IH. split.
        -- intro H. right. split; [exact H|reflexivity].
        -- intros [(a' & f' & [= <- <- <-] & _ & H)|[H _]]; [congruence|exact H].
      * rewrite dget_dset. destruct (String.eqb name (m_name m')) eqn:E.
        -- apply eqb_eq_s in E. split.
           ++ intros [= <-]. left. exists a, f. now repeat split.
           ++ intros [(a' & f' & [= <- <- <-] & _)|[_ H]]; [reflexivity|].
              symmetry in E. now specialize (H E).
        -- apply eqb_neq_s in E. rewrite IH. split.
           ++ intro H. right. split; [exact H|]. intro H1. congruence.
           ++ intros [(a' & f' & [= <- <- <-] & H & _)|[H _]]; [congruence|exact H].
    + assert (Hdel : In (OpDel m') (ops ++ [OpDel m'])) by (apply in_or_app; right; now left).
      assert (Hsame : forall n x, newest_live ops n x -> m_id m' = m_id x -> m' = x).
      { intros n x Hx Hi. apply Hid; [now right| |exact Hi].
        left. apply newest_live_created in Hx as (a & f & Hx). exists a, f.
        apply in_or_app; now left. }
      unfold finalise. destruct (dget (m_name m') (reg_run ops)) as [cur|] eqn:Ec.
      * assert (Hcur := proj1 (IH _ _) Ec).
        destruct (Nat.eqb (m_id cur) (m_id m')) eqn:Eid.
        -- apply Nat.eqb_eq in Eid.
           assert (m' = cur) as -> by (eapply Hsame; [exact Hcur|now symmetry]).
           destruct (String.eqb name (m_name cur)) eqn:E.
           ++ apply eqb_eq_s in E; subst name. rewrite dget_ddel_eq by apply reg_run_wf.
              split; [discriminate|]. intros [(a & f & H & _)|[H Hne]]; [discriminate|].
              apply IH in H. rewrite Ec in H. injection H as <-. now elim Hne.
           ++ apply eqb_neq_s in E. rewrite dget_ddel_neq by exact E. rewrite IH. split.
              ** intro H. right. split; [exact H|]. intro Hi.
                 assert (cur = m) by (eapply Hsame; eassumption). subst.
                 apply E. destruct H as (? & ? & ? & ? & _ & H & _). now symmetry.
              ** intros [(a & f & H & _)|[H Hne]]; [discriminate|exact H].
        -- apply Nat.eqb_neq in Eid. rewrite IH. split.
           ++ intro H. right. split; [exact H|]. intro Hi.
              assert (m' = m) by (eapply Hsame; eassumption). subst m'.
              assert (Hn : m_name m = name) by (destruct H as (? & ? & ? & ? & _ & H & _); exact H).
              rewrite Hn in Ec. apply IH in H. congruence.
           ++ intros [(a & f & H & _)|[H Hne]]; [discriminate|exact H].
      * rewrite IH. split.
        -- intro H. right. split; [exact H|]. intro Hi.
           assert (m' = m) by (eapply Hsame; eassumption). subst m'.
           assert (Hn : m_name m = name) by (destruct H as (? & ? & ? & ? & _ & H & _); exact H).
           rewrite Hn in Ec. apply IH in H. congruence.
        -- intros [(a & f & H & _)|[H Hne]]; [discriminate|exact H].
    + split; [discriminate|]. intros [(a & f & H & _)|[_ []]]. discriminate.
Qed.

Lemma by_section_path r s m :
  get_manager_by_section_path_str r s = Ok m <->
  exists name, hd_error (sections (mk_sp s)) = Some name /\ dget name r = Some m.
Proof.
  unfold get_manager_by_section_path_str. destruct (sections (mk_sp s)) as [|n l]; cbn.
  - split; [discriminate|intros (x & H & _); discriminate].
  - destruct (dget n r) eqn:E; split.
    + intros [= <-]. exists n. now split.
    + intros (x & [= <-] & H). congruence.
    + discriminate.
    + intros (x & [= <-] & H). congruence.
Qed.

(* ------------------------------------------------------------------ *)
(** paths *)

Lemma abspath_form cwd p : isabs cwd = true ->
  exists k comps, (k = 1 \/ k = 2) /\ Forall kept comps /\
    abspath cwd p = (repeat_str k sslash ++ join sslash comps)%string.
Proof.
  intro H. unfold abspath. change (if isabs p then p else path_join cwd p) with (absin cwd p).
  assert (Ha := absin_abs cwd p H). rewrite (normpath_abs _ Ha).
  eexists _, _. split; [|split; [|reflexivity]].
  - assert (G := initial_slashes_pos _ Ha). lia.
  - apply norm_comps_kept, split_parts_no_sep.
Qed.

Lemma join_kept_app l1 l2 : l1 <> [] -> l2 <> [] ->
  join sslash (l1 ++ l2) = (join sslash l1 ++ sslash ++ join sslash l2)%string.
Proof. apply join_app. Qed.

(** [a] component list whose join followed by a slash is a prefix of another join *)
Lemma join_prefix_comps c1 c2 r :
  c1 <> [] -> Forall kept c1 -> Forall kept c2 ->
  join sslash c2 = (join sslash c1 ++ sslash ++ r)%string ->
  exists rest, rest <> [] /\ Forall kept rest /\ c2 = c1 ++ rest /\ r = join sslash rest.
Proof.
  intros Hne H1 H2 E.
  assert (Hsf : forall l, Forall kept l -> Forall (fun x => has_char slash x = false) l).
  { intros l. apply Forall_impl. now intros a [_ Ha]. }
  destruct c2 as [|x c2].
  { cbn in E. destruct c1 as [|y c1]; [easy|]. inversion H1 as [|? ? [Hy _] _]; subst.
    destruct c1; [|rewrite join_cons in E]; destruct y; try easy; discriminate. }
  assert (E2 : split slash (join sslash (x :: c2)) = x :: c2).
  { apply split_join; [discriminate|now apply Hsf]. }
  rewrite E in E2. change (sslash ++ r)%string with (String slash r) in E2.
  rewrite split_app in E2.
  assert (E1 : split slash (join sslash c1) = c1) by (apply split_join; [exact Hne|now apply Hsf]).
  rewrite E1 in E2.
  assert (Hr : Forall kept (split slash r)).
  { rewrite <- E2 in H2. now apply Forall_app in H2 as [_ H2]. }
  exists (split slash r). repeat split.
  - apply split_nonempty.
  - exact Hr.
  - now rewrite E2.
  - unfold sslash. symmetry. apply join_split.
Qed.

Lemma kept_not_slash_start l : Forall kept l -> startswith (join sslash l) sslash = false.
Proof.
  intros H. destruct H as [|x l [Hx Hs] Hl]; [reflexivity|]. destruct l.
  - now apply startswith_slash_free.
  - rewrite join_cons. now apply startswith_slash_free_app.
Qed.

Lemma startswith_inside cwd folder file :
  isabs cwd = true ->
  abspath cwd folder <> "/"%string -> abspath cwd folder <> "//"%string ->
  (startswith (abspath cwd file) (abspath cwd folder ++ sslash) = true <->
   strictly_inside (abspath cwd folder) (abspath cwd file)).
Proof.
  intros Hc Hr1 Hr2. rewrite startswith_iff.
  destruct (abspath_form cwd folder Hc) as (k1 & c1 & Hk1 & Hc1 & E1).
  destruct (abspath_form cwd file Hc) as (k2 & c2 & Hk2 & Hc2 & E2).
  rewrite E1 in *. rewrite E2.
  assert (Hne : c1 <> []).
  { intros ->. cbn in *. destruct Hk1 as [-> | ->]; cbn in *; [now elim Hr1|now elim Hr2]. }
  split.
  - intros [r H]. rewrite !app_assoc_s in H.
    assert (k1 = k2 /\ join sslash c2 = (join sslash c1 ++ sslash ++ r)%string) as [<- Hj].
    { assert (Hs1 : forall t, startswith (join sslash c1 ++ t) sslash = false).
      { intro t. destruct Hc1 as [|x l [Hx Hs] Hl]; [easy|]. destruct l.
        - now apply startswith_slash_free_app.
        - rewrite join_cons, app_assoc_s. now apply startswith_slash_free_app. }
      assert (Hs2 := kept_not_slash_start _ Hc2).
      assert (R1 : forall t, (repeat_str 1 sslash ++ t)%string = String slash t) by reflexivity.
      assert (R2 : forall t, (repeat_str 2 sslash ++ t)%string = String slash (String slash t)) by reflexivity.
      specialize (Hs1 (sslash ++ r)%string). change (sslash ++ r)%string with (String slash r) in *.
      destruct Hk1 as [-> | ->], Hk2 as [-> | ->]; rewrite ?R1, ?R2 in H; injection H as H.
      - now split.
      - rewrite <- H in Hs1. discriminate.
      - rewrite H in Hs2. discriminate.
      - now split. }
    destruct (join_prefix_comps _ _ _ Hne Hc1 Hc2 Hj) as (rest & Hrn & Hrk & -> & ->).
    exists rest. split; [exact Hrn|split].
    + apply Forall_forall. exact Hrk.
    + rewrite join_kept_app by assumption. now rewrite !app_assoc_s.
  - intros (names & Hn & Hk & H). exists (join sslash names).
    rewrite H. unfold sslash. now rewrite !app_assoc_s.
Qed.

Lemma find_first {A} (p : A -> bool) l m :
  find p l = Some m <->
  exists before after, l = before ++ m :: after /\ p m = true /\ Forall (fun x => p x = false) before.
Proof.
  induction l as [|x l IH]; cbn.
  - split; [discriminate|]. intros (b & a & H & _). now destruct b.
  - destruct (p x) eqn:E.
    + split.
      * intros [= <-]. exists [], l. now repeat split.
      * intros (b & a & H & Hp & Hb). destruct b as [|y b]; cbn in H; injection H as -> ->; [reflexivity|].
        inversion Hb; subst. congruence.
    + rewrite IH. split.
      * intros (b & a & -> & Hp & Hb). exists (x :: b), a. repeat split; [exact Hp|]. now constructor.
      * intros (b & a & H & Hp & Hb). destruct b as [|y b]; cbn in H; injection H as -> ->; [congruence|].
        inversion Hb; subst. now exists b, a.
Qed.

Lemma by_filepath cwd r file m :
  isabs cwd = true ->
  (forall x, In x (dvals r) -> abspath cwd (m_folder x) <> "/"%string /\ abspath cwd (m_folder x) <> "//"%string) ->
  (get_manager_by_filepath cwd r file = Ok m <->
   exists before after, dvals r = before ++ m :: after /\
     strictly_inside (abspath cwd (m_folder m)) (abspath cwd file) /\
     Forall (fun x => ~ strictly_inside (abspath cwd (m_folder x)) (abspath cwd file)) before).
Proof.
  intros Hc Hroot. unfold get_manager_by_filepath.
  set (p := fun m0 => startswith (abspath cwd file) (abspath cwd (m_folder m0) ++ sslash)).
  assert (Hp : forall x, In x (dvals r) -> (p x = true <-> strictly_inside (abspath cwd (m_folder x)) (abspath cwd file))).
  { intros x Hx. destruct (Hroot x Hx). now apply startswith_inside. }
  transitivity (find p (dvals r) = Some m).
  { destruct (find p (dvals r)); split; congruence. }
  rewrite find_first. split; intros (b & a & E & H1 & H2); exists b, a; (split; [exact E|]).
  - split; [apply Hp; [rewrite E; apply in_or_app; right; now left|exact H1]|].
    apply Forall_forall. intros x Hx Hin. rewrite Forall_forall in H2. specialize (H2 x Hx).
    apply Hp in Hin; [congruence|]. rewrite E. apply in_or_app; now left.
  - split; [apply Hp; [rewrite E; apply in_or_app; right; now left|exact H1]|].
    apply Forall_forall. intros x Hx. rewrite Forall_forall in H2. specialize (H2 x Hx).
    destruct (p x) eqn:Ep; [|reflexivity]. exfalso. apply H2. apply Hp; [|exact Ep].
    rewrite E. apply in_or_app; now left.
Qed.

Lemma by_filepath_none cwd r file :
  isabs cwd = true ->
  (forall x, In x (dvals r) -> abspath cwd (m_folder x) <> "/"%string /\ abspath cwd (m_folder x) <> "//"%string) ->
  (forall x, In x (dvals r) -> ~ strictly_inside (abspath cwd (m_folder x)) (abspath cwd file)) ->
  get_manager_by_filepath cwd r file = Raise (LibExn "NoPipelineManagerForFilepathException").
Proof.
  intros Hc Hroot Hno. unfold get_manager_by_filepath.
  destruct (find _ (dvals r)) as [m|] eqn:E; [|reflexivity]. exfalso.
  apply find_some in E as [Hin Hp]. destruct (Hroot m Hin). apply startswith_inside in Hp; try assumption.
  now apply (Hno m Hin).
Qed.

Lemma root_folder_claims_nothing cwd m file :
  isabs cwd = true -> abspath cwd (m_folder m) = "/"%string ->
  initial_slashes (absin cwd file) = 1 ->
  startswith (abspath cwd file) (abspath cwd (m_folder m) ++ sslash) = false.
Proof.
  intros Hc Hroot Hk. rewrite Hroot. unfold abspath.
  change (if isabs file then file else path_join cwd file) with (absin cwd file).
  rewrite (normpath_abs _ (absin_abs cwd file Hc)), Hk. cbn [repeat_str]. unfold sslash at 1 3. cbn [append].
  cbn [startswith]. cbn [Ascii.eqb Bool.eqb andb].
  apply kept_not_slash_start, norm_comps_kept, split_parts_no_sep.
Qed.
