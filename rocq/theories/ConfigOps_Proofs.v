From Verif Require Import ConfigTree_Model ConfigTree_Spec Config_Proofs ConfigTree_Proofs.
Local Open Scope list_scope.
Local Open Scope monad_scope.

Lemma cfg_update_name c e p f : c_name (cfg_update c e p f) = c_name c.
Proof. reflexivity. Qed.

Lemma deref_read st r c : read_cref st r = Some c -> deref r st = (st, Ok c).
Proof. intro H. unfold deref. now rewrite H. Qed.

Lemma read_current st r c : read_cref st r = Some c -> current st r = Some c.
Proof.
  rewrite read_cref_see. destruct r as [|p|p]; cbn [current]; [easy| |];
    destruct (see st p) as [[]|]; try discriminate; auto.
Qed.

Lemma touches_emit' r e st st1 : touches r st st1 -> touches r st (CMS (cs_root st1) (cs_local st1) (cs_disk st1) (cs_trace st1 ++ [e])).
Proof. intro H. eapply touches_trans; [exact H|]. apply touches_emit. Qed.

Definition path_target (st : cms) (path : option string) : option cref :=
  match path with Some p => target st (path_parts p) | None => Some CLocal end.

Lemma stored_spec st path st' o : stored_config path st = (st', o) ->
  match o with
  | Raise _ => st' = st
  | Ok None => st' = st /\ exists p n, path = Some p /\ see st (path_parts p) = Some (SSec n None)
  | Ok (Some r) =>
      path_target st path = Some r /\ touches r st st' /\ cs_local st' = cs_local st /\ cs_trace st' = cs_trace st /\
      (exists c, current st r = Some c /\ read_cref st' r = Some c)
  end.
Proof.
  destruct path as [p|]; cbn [stored_config path_target].
  - intro H. apply gf_spec in H. destruct o as [[r|]|e].
    + destruct H as (H1 & H2 & H3 & H4 & _ & H5). auto.
    + destruct H as (H1 & n & H2). split; [exact H1|]. eauto.
    + exact H.
  - intros [= <- <-]. split; [reflexivity|]. split; [apply touches_refl|]. repeat split.
    exists (cs_local st). auto.
Qed.

Lemma target_none_current st p : target st p = None <-> see st p = None.
Proof. unfold target. destruct (see st p) as [[]|]; split; congruence. Qed.

(** addressing fails exactly when there is no current config *)
Lemma stored_current st path r c : path_target st path = Some r -> current st r = Some c ->
  exists st', stored_config path st = (st', Ok (Some r)).
Proof.
  intros Ht Hc. destruct path as [p|]; cbn [path_target stored_config] in *.
  - unfold target in Ht. destruct (see st (path_parts p)) as [[c1|ref n|n own|c1]|] eqn:E; try discriminate;
      injection Ht as <-; cbn [current] in Hc.
    + destruct (gf_conf st _ c1 E) as (s1 & E1 & _). eauto.
    + rewrite E in Hc. destruct (read_file (cs_disk st) ref) as [d|] eqn:Ef; [|discriminate].
      destruct (gf_file st _ ref n d E Ef) as (s1 & E1 & _). eauto.
    + rewrite E in Hc. subst own. exists st. now rewrite (gf_sec st _ n _ E : get_func_or_section_configs _ _ = _).
    + destruct (gf_self st _ c1 E) as (s1 & E1 & _). eauto.
  - injection Ht as <-. exists st. reflexivity.
Qed.

Lemma stored_no_current st path r : path_target st path = Some r -> current st r = None ->
  exists o, stored_config path st = (st, o) /\ (o = Ok None \/ exists e, o = Raise e).
Proof.
  intros Ht Hc. destruct (stored_config path st) as [st' o] eqn:E. exists o.
  assert (S := stored_spec _ _ _ _ E). destruct o as [[r'|]|e].
  - destruct S as (S1 & _ & _ & _ & c & S2 & _). rewrite Ht in S1. injection S1 as <-. congruence.
  - destruct S as [-> _]. auto.
  - subst. eauto.
Qed.

Lemma stored_no_target st p : target st (path_parts p) = None ->
  exists e, stored_config (Some p) st = (st, Raise e).
Proof. intro H. apply target_none_current in H. exact (gf_none st _ H). Qed.

(* ------------------------------------------------------------------ *)
(** * update *)

Lemma cm_update_spec st d path persist kw st' o :
  cm_update d path persist kw st = (st', o) ->
  match path_target st path with
  | None => st' = st /\ exists e, o = Raise e
  | Some r =>
      touches r st st' /\
      match current st r with
      | None => st' = st /\ exists e, o = Raise e
      | Some c =>
          match cfg_checked_update c d persist kw with
          | Ok (c', b) => o = Ok (r, b) /\ read_cref st' r = Some c' /\
              cs_trace st' = cs_trace st ++
                match path with Some p => if b then [EvPre p (dupdate (opt_dict d) kw)] else [] | None => [] end
          | Raise e => o = Raise e /\ read_cref st' r = Some c
          end
      end
  end.
Proof.
  intro H. unfold cm_update, bind in H. destruct (path_target st path) as [r|] eqn:Et.
  - destruct (current st r) as [c|] eqn:Ec.
    + destruct (stored_current st path r c Et Ec) as [s1 Es]. rewrite Es in H.
      destruct (stored_spec _ _ _ _ Es) as (_ & T1 & L1 & Tr1 & c' & C1 & C2). rewrite Ec in C1. injection C1 as <-.
      rewrite (deref_read _ _ _ C2) in H. unfold cfg_checked_update.
      destruct (dmem "config_" kw) eqn:Ek.
      * injection H as <- <-. auto.
      * unfold lift in H. destruct (would_update c (Some (dupdate (opt_dict d) kw)) []) as [[]|e] eqn:Ew.
        -- assert (He : exists s2, (match path with Some p => emit (EvPre p (dupdate (opt_dict d) kw)) | None => ret tt end s1) = (s2, Ok tt)
              /\ touches r s1 s2 /\ read_cref s2 r = Some c /\
              cs_trace s2 = cs_trace s1 ++ match path with Some p => [EvPre p (dupdate (opt_dict d) kw)] | None => [] end).
           { destruct path as [p|].
             - eexists. split; [reflexivity|]. split; [apply touches_emit|]. split; [|reflexivity].
               rewrite <- C2. destruct r; reflexivity.
             - exists s1. split; [reflexivity|]. split; [apply touches_refl|]. split; [exact C2|]. now rewrite app_nil_r. }
           destruct He as (s2 & E2 & T2 & R2 & Tr2). rewrite E2 in H.
           destruct (dmem "E" kw) eqn:EE.
           ++ injection H as <- <-. split; [eapply touches_trans; eassumption|auto].
           ++ destruct (write_spec s2 r (cfg_update c d persist kw) c R2 eq_refl) as (s3 & E3 & T3 & R3 & Tr3).
              rewrite E3 in H. injection H as <- <-.
              split; [eapply touches_trans; [eassumption|eapply touches_trans; eassumption]|].
              split; [reflexivity|]. split; [exact R3|]. rewrite Tr3, Tr2, Tr1. now destruct path.
        -- injection H as <- <-. split; [exact T1|]. split; [reflexivity|]. split; [exact C2|].
           rewrite Tr1. destruct path; now rewrite app_nil_r.
        -- injection H as <- <-. auto.
    + destruct (stored_no_current st path r Et Ec) as (o' & E & [-> |[e ->]]); rewrite E in H.
      * injection H as <- <-. split; [apply touches_refl|eauto].
      * injection H as <- <-. split; [apply touches_refl|eauto].
  - destruct path as [p|]; [|discriminate]. destruct (stored_no_target st p Et) as [e E]. rewrite E in H.
    injection H as <- <-. eauto.
Qed.

(* ------------------------------------------------------------------ *)
(** * refresh *)

Lemma cm_refresh_spec st p st' o :
  cm_refresh p st = (st', o) ->
  match target st (path_parts p) with
  | None => st' = st /\ exists e, o = Raise e
  | Some r =>
      touches r st st' /\
      match current st r with
      | None => st' = st /\ exists e, o = Raise e
      | Some c =>
          match c_file c with
          | None => o = Raise AttributeError /\ read_cref st' r = Some c
          | Some ref =>
              match read_file (cs_disk st) ref with
              | Raise e => o = Raise e /\ read_cref st' r = Some c
              | Ok content =>
                  match cfg_checked_refresh c content with
                  | Ok (c', b, u) => o = Ok (r, b, u) /\ read_cref st' r = Some c' /\
                      cs_trace st' = cs_trace st ++ if b then [EvPre p u] else []
                  | Raise e => o = Raise e /\ read_cref st' r = Some c
                  end
              end
          end
      end
  end.
Proof.
  intro H. unfold cm_refresh, bind in H. destruct (target st (path_parts p)) as [r|] eqn:Et.
  - change (target st (path_parts p)) with (path_target st (Some p)) in Et. destruct (current st r) as [c|] eqn:Ec.
    + destruct (stored_current st (Some p) r c Et Ec) as [s1 Es]. rewrite Es in H.
      destruct (stored_spec _ _ _ _ Es) as (_ & T1 & L1 & Tr1 & c' & C1 & C2). rewrite Ec in C1. injection C1 as <-.
      rewrite (deref_read _ _ _ C2) in H. unfold reread in H.
      destruct (c_file c) as [ref|]; [|injection H as <- <-; auto].
      assert (D1 : cs_disk s1 = cs_disk st) by apply T1. rewrite D1 in H.
      destruct (read_file (cs_disk st) ref) as [content|e]; [|injection H as <- <-; auto].
      unfold lift in H. unfold cfg_checked_refresh.
      destruct (change_from_refresh c content) as [[|u us]|e] eqn:Ech.
      * injection H as <- <-. split; [exact T1|]. split; [reflexivity|]. split; [exact C2|]. now rewrite Tr1, app_nil_r.
      * cbn [emit modify] in H. unfold emit, modify in H.
        set (s2 := CMS (cs_root s1) (cs_local s1) (cs_disk s1) (cs_trace s1 ++ [EvPre p (u :: us)])) in *.
        assert (T2 : touches r st s2) by (apply touches_emit'; exact T1).
        assert (R2 : read_cref s2 r = Some c) by (rewrite <- C2; destruct r; reflexivity).
        destruct (cfg_refresh c content) as [[c1 u1]|e] eqn:Er.
        -- destruct (cfg_refresh_shape _ _ _ _ Er) as (Hu & _ & Hn & _).
           destruct (write_spec s2 r c1 c R2 Hn) as (s3 & E3 & T3 & R3 & Tr3). cbn [fst snd] in H.
           rewrite E3 in H. injection H as <- <-. split; [eapply touches_trans; eassumption|].
           split; [reflexivity|]. split; [exact R3|]. rewrite Tr3. cbn. rewrite Tr1.
           unfold change_from_refresh in Ech. destruct (would_update c _ _) as [[]|]; try discriminate.
           injection Ech as Ech. now rewrite <- Ech, Hu.
        -- injection H as <- <-. auto.
      * injection H as <- <-. auto.
    + destruct (stored_no_current st (Some p) r Et Ec) as (o' & E & [-> |[e ->]]); rewrite E in H;
        injection H as <- <-; (split; [apply touches_refl|eauto]).
  - destruct (stored_no_target st p Et) as [e E]. rewrite E in H. injection H as <- <-. eauto.
Qed.

(* ------------------------------------------------------------------ *)
(** * get *)

Lemma cref_neq_read st st' r r' : touches r st st' -> r' <> r -> read_cref st' r' = read_cref st r'.
Proof. intros. eapply touches_read; eassumption. Qed.

(** what [config.update(source)] sees, given the target [r] currently is [c] *)
Definition source_vals (s : cms) (r : cref) (c : config) (src : option cref) : option (dict pyval) :=
  match src with
  | None => None
  | Some r' => if cref_eq_dec r' r then Some (c_vals c)
               else match read_cref s r' with Some c' => Some (c_vals c') | None => None end
  end.

Definition merge_from (s : cms) (r : cref) (c : config) (src : option cref) : config :=
  cfg_update c (source_vals s r c src) true [].

Lemma update_from_spec s r src c : read_cref s r = Some c ->
  exists s', update_from r src s = (s', Ok tt) /\ touches r s s' /\ cs_trace s' = cs_trace s /\
    read_cref s' r = Some (merge_from s r c src).
Proof.
  intro H. unfold update_from. rewrite H.
  match goal with |- exists s', write_cref r ?c' s = _ /\ _ => set (cc := c') end.
  destruct (write_spec s r cc c H eq_refl) as (s' & E & T & R & Tr). exists s'. split; [exact E|].
  split; [exact T|]. split; [exact Tr|]. rewrite R. unfold cc, merge_from, source_vals.
  destruct src as [r'|]; [|reflexivity]. destruct (cref_eq_dec r' r) as [->|Hne]; [|reflexivity]. now rewrite H.
Qed.

Lemma merge_from_ext s s' r c src : touches r s s' -> merge_from s' r c src = merge_from s r c src.
Proof.
  intro T. unfold merge_from, source_vals. destruct src as [r'|]; [|reflexivity].
  destruct (cref_eq_dec r' r) as [|Hne]; [reflexivity|]. now rewrite (touches_read _ _ _ _ T Hne).
Qed.

Lemma chain_spec s r chain c : read_cref s r = Some c ->
  exists s', iterM (update_from r) chain s = (s', Ok tt) /\ touches r s s' /\ cs_trace s' = cs_trace s /\
    read_cref s' r = Some (fold_left (merge_from s r) chain c).
Proof.
  revert s c. induction chain as [|src chain IH]; intros s c H.
  - exists s. repeat split; auto.
  - destruct (update_from_spec s r src c H) as (s1 & E1 & T1 & Tr1 & R1).
    destruct (IH s1 _ R1) as (s2 & E2 & T2 & Tr2 & R2).
    exists s2. cbn [iterM]. unfold bind. rewrite E1, E2. split; [reflexivity|].
    split; [eapply touches_trans; eassumption|]. split; [congruence|].
    rewrite R2. cbn [fold_left]. f_equal. clear -T1. generalize (merge_from s r c src).
    induction chain as [|x chain IH]; intro c'; [reflexivity|]. cbn. rewrite IH. now rewrite (merge_from_ext s s1 r c' x T1).
Qed.

(** the layer a source contributes; updating from itself contributes nothing *)
Definition layer (s : cms) (r : cref) (src : option cref) : dict pyval :=
  match src with
  | None => []
  | Some r' => if cref_eq_dec r' r then []
               else match read_cref s r' with Some c' => c_vals c' | None => [] end
  end.

Lemma first_of_app k a b : first_of k (a ++ b) = match first_of k a with Some v => Some v | None => first_of k b end.
Proof. induction a as [|d a IH]; cbn; [reflexivity|]. destruct (dget k d); auto. Qed.

Lemma merge_from_get s r c src k :
  (forall r' c', src = Some r' -> r' <> r -> read_cref s r' = Some c' -> dwf (c_vals c')) -> dwf (c_vals c) ->
  dget k (c_vals (merge_from s r c src)) = match dget k (layer s r src) with Some v => Some v | None => dget k (c_vals c) end
  /\ dwf (c_vals (merge_from s r c src)).
Proof.
  intros Hs Hc. split; [|apply dupdate_wf, dupdate_wf; exact Hc].
  unfold merge_from, cfg_update. cbn [c_vals]. unfold layer, source_vals. destruct src as [r'|]; [|reflexivity].
  destruct (cref_eq_dec r' r) as [->|Hne].
  - cbn [opt_dict]. rewrite dupdate_nil_r, dget_dupdate by exact Hc. cbn [dget]. now destruct (dget k (c_vals c)).
  - destruct (read_cref s r') as [c'|] eqn:E; [|reflexivity]. cbn [opt_dict]. rewrite dupdate_nil_r.
    apply dget_dupdate. eapply Hs; eauto.
Qed.

Lemma chain_get s r chain c k :
  (forall r' c', read_cref s r' = Some c' -> dwf (c_vals c')) -> dwf (c_vals c) ->
  dget k (c_vals (fold_left (merge_from s r) chain c)) = first_of k (rev (map (layer s r) chain) ++ [c_vals c])
  /\ dwf (c_vals (fold_left (merge_from s r) chain c)).
Proof.
  intro Hs. revert c. induction chain as [|src chain IH]; intros c Hc.
  - cbn. split; [|exact Hc]. now destruct (dget k (c_vals c)).
  - cbn [fold_left map rev]. destruct (merge_from_get s r c src k ltac:(eauto) Hc) as [G W].
    destruct (IH _ W) as [G' W']. split; [|exact W']. rewrite G'. rewrite !first_of_app. cbn [first_of].
    destruct (first_of k (rev (map (layer s r) chain))); [reflexivity|]. rewrite G.
    destruct (dget k (layer s r src)); [reflexivity|]. now destruct (dget k (c_vals c)).
Qed.

Lemma merge_from_wf s r c src : cfg_wf c -> cfg_wf (merge_from s r c src).
Proof. intros [A B]. split; cbn; repeat apply dupdate_wf; assumption. Qed.
Lemma chain_wf s r chain c : cfg_wf c -> cfg_wf (fold_left (merge_from s r) chain c).
Proof. revert c. induction chain; cbn; intros c H; [exact H|]. apply IHchain. now apply merge_from_wf. Qed.
Lemma chain_name s r chain c : c_name (fold_left (merge_from s r) chain c) = c_name c /\ c_file (fold_left (merge_from s r) chain c) = c_file c.
Proof. revert c. induction chain; cbn; intros c; [auto|]. destruct (IHchain (merge_from s r c a)) as [-> ->]. auto. Qed.

(** a path is never empty *)
Lemma path_parts_nonempty p : path_parts p <> [].
Proof. apply split_nonempty. Qed.

Lemma prefixes_in p q : In q (prefixes p) -> q <> [] /\ exists t, t <> [] /\ p = q ++ t.
Proof.
  revert q. induction p as [|x p IH]; intros q H; [destruct H|]. destruct p as [|y p]; [destruct H|].
  change (prefixes (x :: y :: p)) with ([x] :: map (cons x) (prefixes (y :: p))) in H. destruct H as [<-|H].
  - split; [discriminate|]. exists (y :: p). split; [discriminate|reflexivity].
  - apply in_map_iff in H as (q' & <- & H). destruct (IH _ H) as (_ & t & Ht & E). split; [discriminate|].
    exists t. split; [exact Ht|]. rewrite E. reflexivity.
Qed.

Lemma prefixes_snoc p x : p <> [] -> prefixes (p ++ [x]) = prefixes p ++ [p].
Proof.
  induction p as [|y p IH]; [easy|]. intros _. destruct p as [|z p]; [reflexivity|].
  change (prefixes ((y :: z :: p) ++ [x])) with ([y] :: map (cons y) (prefixes ((z :: p) ++ [x]))).
  rewrite IH by discriminate. rewrite map_app. reflexivity.
Qed.

Lemma prefix_is_section st p q v : see st p = Some v -> (exists t, t <> [] /\ p = q ++ t) ->
  exists n own, see st q = Some (SSec n own).
Proof.
  intros H (t & Ht & ->). rewrite see_eq in H. unfold lookup_at in H.
  destruct (get_nested mgr_reserved (cs_root st) (q ++ t)) as [l|] eqn:E; [|discriminate].
  destruct (get_nested_prefix _ _ _ _ _ Ht E) as [s0 E0]; [destruct l; discriminate|].
  rewrite see_eq. unfold lookup_at. rewrite E0. cbn. eauto.
Qed.

Definition sec_ref (s : cms) (q : list string) : option cref :=
  match see s q with Some (SSec _ (Some _)) => Some (CSec q) | _ => None end.

Lemma gf_prefixes s l : (forall q, In q l -> exists n own, see s q = Some (SSec n own)) ->
  mapM get_func_or_section_configs l s = (s, Ok (map (sec_ref s) l)).
Proof.
  induction l as [|q l IH]; intro H; [reflexivity|]. cbn [mapM]. unfold bind at 1.
  destruct (H q (or_introl eq_refl)) as (n & own & E). rewrite (gf_sec s q n own E : get_func_or_section_configs q s = _).
  unfold bind. rewrite IH by (intros; apply H; now right). cbn [map]. unfold sec_ref at 2. rewrite E.
  destruct own; reflexivity.
Qed.

Lemma project_ref_sec s : project_ref s = sec_ref s [].
Proof. unfold project_ref, sec_ref. cbn. now destruct (s_cfg (cs_root s)). Qed.

Definition rpath (r : cref) : list string := match r with CLocal => [] | CItem p | CSec p => p end.

Lemma section_values_read s q : section_values s q = match read_cref s (CSec q) with Some c => c_vals c | None => [] end.
Proof. rewrite read_cref_see. unfold section_values. destruct (see s q) as [[]|]; reflexivity. Qed.

Lemma layer_sec_ref s r q : layer s r (sec_ref s q) = if cref_eq_dec (CSec q) r then [] else section_values s q.
Proof.
  unfold layer, sec_ref, section_values. destruct (see s q) as [[c|ref n|n [c|]|c]|] eqn:E.
  - now destruct (cref_eq_dec (CSec q) r).
  - now destruct (cref_eq_dec (CSec q) r).
  - destruct (cref_eq_dec (CSec q) r); [reflexivity|]. now rewrite read_cref_see, E.
  - now destruct (cref_eq_dec (CSec q) r).
  - now destruct (cref_eq_dec (CSec q) r).
  - now destruct (cref_eq_dec (CSec q) r).
Qed.

Lemma first_of_nils k l : (forall d, In d l -> d = []) -> first_of k l = None.
Proof.
  induction l as [|d l IH]; intro H; [reflexivity|]. cbn. rewrite (H d) by now left. cbn. apply IH. intros; apply H; now right.
Qed.

Lemma chain_layers s r extra c k :
  r <> CLocal -> read_cref s r = Some c -> (forall x, In x extra -> layer s r x = []) ->
  first_of k (rev (map (layer s r) (sec_ref s [] :: map (sec_ref s) (prefixes (rpath r)) ++ extra)) ++ [c_vals c]) =
  first_of k (map (section_values s) (rev (prefixes (rpath r))) ++ [section_values s []] ++ [c_vals c]).
Proof.
  intros Hr Hc Hx.
  assert (P : map (layer s r) (map (sec_ref s) (prefixes (rpath r))) = map (section_values s) (prefixes (rpath r))).
  { rewrite map_map. apply map_ext_in. intros q Hq. rewrite layer_sec_ref.
    destruct (cref_eq_dec (CSec q) r) as [E|]; [|reflexivity]. exfalso. subst r. cbn in Hq.
    apply prefixes_in in Hq as (_ & t & Ht & E). symmetry in E. revert E. now apply app_neq_strict. }
  cbn [map]. rewrite map_app. cbn [rev]. rewrite rev_app_distr, P, map_rev, !first_of_app.
  rewrite (first_of_nils k (rev (map (layer s r) extra))).
  2:{ intros d Hd. apply in_rev in Hd. apply in_map_iff in Hd as (x & <- & Hd). now apply Hx. }
  destruct (first_of k (rev (map (section_values s) (prefixes (rpath r))))); [reflexivity|].
  rewrite layer_sec_ref. destruct (cref_eq_dec (CSec []) r) as [E|]; [|reflexivity].
  subst r. rewrite section_values_read, Hc. cbn. now destruct (dget k (c_vals c)).
Qed.

Lemma overriding_touches st st' r : touches r st st' -> r <> CLocal -> rpath r <> [] ->
  overriding_layers st' (rpath r) = overriding_layers st (rpath r).
Proof.
  intros T Hl Hr. unfold overriding_layers. f_equal; [f_equal; now apply T|]. f_equal.
  - apply map_ext_in. intros q Hq. apply in_rev in Hq. rewrite !section_values_read.
    rewrite (touches_read _ _ _ (CSec q) T); [reflexivity|]. intros <-. cbn in Hq.
    apply prefixes_in in Hq as (_ & t & Ht & E). symmetry in E. revert E. now apply app_neq_strict.
  - f_equal. rewrite !section_values_read. rewrite (touches_read _ _ _ (CSec []) T); [reflexivity|].
    intros <-. now apply Hr.
Qed.

(** the values of the config object [r] after a get *)
Definition merged (st : cms) (r : cref) (own : dict pyval) (k : string) : option pyval := effective st (rpath r) own k.

(** the part of get after the addressed config has been found *)
Definition get_tail (parts : list string) (config : option cref) : M cms (option cref) :=
  project <- gets project_ref ;;
  section_configs <- mapM get_func_or_section_configs (prefixes parts) ;;
  own <- (fun st => match lookup_at st parts with
                    | Raise e => (st, Raise e)
                    | Ok LOther => (st, Raise ValueError)
                    | Ok (LSec _) => (r <- get_func_or_section_configs parts ;; ret [r]) st
                    | Ok _ => (st, Ok [])
                    end) ;;
  match config with
  | None => ret None
  | Some r =>
      c <- deref r ;;
      match c_vals c with
      | [] => ret (Some r)
      | _ :: _ => iterM (update_from r) (project :: section_configs ++ own) ;;; update_from r (Some CLocal) ;;; ret (Some r)
      end
  end.

Lemma cm_get_tail path : cm_get path = (config <- get_func_or_section_configs (path_parts path) ;; get_tail (path_parts path) config).
Proof. reflexivity. Qed.

Lemma get_tail_chain s parts v cfg : see s parts = Some v ->
  exists own, get_tail parts cfg s =
    (match cfg with
     | None => ret None
     | Some r => c <- deref r ;;
        match c_vals c with
        | [] => ret (Some r)
        | _ :: _ => iterM (update_from r) (sec_ref s [] :: map (sec_ref s) (prefixes parts) ++ own) ;;; update_from r (Some CLocal) ;;; ret (Some r)
        end
     end) s /\ own = match v with SSec _ _ => [sec_ref s parts] | _ => [] end.
Proof.
  intro H. eexists. split; [|reflexivity]. unfold get_tail. unfold bind at 1, gets. unfold bind at 1.
  rewrite gf_prefixes.
  2:{ intros q Hq. apply prefixes_in in Hq as (_ & Hq). eapply prefix_is_section; eassumption. }
  rewrite project_ref_sec. unfold bind at 1. assert (H' := H). rewrite see_eq in H.
  destruct (lookup_at s parts) as [[c|c|ref n|s0|]|] eqn:El; try discriminate; injection H as <-; try reflexivity.
  unfold bind at 1. rewrite (gf_sec s parts _ _ H' : get_func_or_section_configs parts s = _).
  assert (S : sec_ref s parts = match s_cfg s0 with Some _ => Some (CSec parts) | None => None end)
    by (unfold sec_ref; now rewrite H').
  rewrite S. destruct (s_cfg s0); reflexivity.
Qed.

Lemma target_rpath st p r : target st p = Some r -> r <> CLocal /\
  (rpath r = p \/ (rpath r = removelast p /\ exists c, see st p = Some (SSelf c))).
Proof.
  unfold target. destruct (see st p) as [[]|] eqn:E; intros [= <-]; (split; [discriminate|]); cbn; eauto.
Qed.

Lemma prefixes_removelast p : p <> [] -> removelast p <> [] -> prefixes p = prefixes (removelast p) ++ [removelast p].
Proof.
  intros H H'. rewrite (app_removelast_last "" H) at 1. now apply prefixes_snoc.
Qed.

Lemma cm_get_spec st path st' o : cms_wf st -> cm_get path st = (st', o) ->
  match target st (path_parts path) with
  | None => st' = st /\ exists e, o = Raise e
  | Some r =>
      touches r st st' /\ cs_trace st' = cs_trace st /\
      match current st r with
      | None => st' = st /\ (o = Ok None \/ exists e, o = Raise e)
      | Some c =>
          o = Ok (Some r) /\
          exists c', read_cref st' r = Some c' /\ cfg_wf c' /\ c_name c' = c_name c /\ c_file c' = c_file c /\
            (forall k, dget k (c_vals c') = effective st (rpath r) (c_vals c) k)
      end
  end.
Proof.
  intros W H. rewrite cm_get_tail in H. set (p := path_parts path) in *. assert (Hp : p <> []) by apply path_parts_nonempty.
  unfold bind at 1 in H. destruct (get_func_or_section_configs p st) as [s1 o1] eqn:E1.
  assert (G := gf_spec st p s1 o1 E1). destruct o1 as [[r|]|e].
  - destruct G as (Ht & T1 & L1 & Tr1 & Hl & c & Hc & Hr1). rewrite Ht.
    assert (Wc : cfg_wf c) by (eapply W; exact Hc).
    rewrite Hc.
    destruct (see s1 p) as [v|] eqn:Ev.
    2:{ exfalso. apply target_none_current in Ev. destruct T1 as (T1 & _). rewrite T1 in Ev. congruence. }
    destruct (get_tail_chain s1 p v (Some r) Ev) as (own & Et & Hown). rewrite Et in H.
    unfold bind at 1 in H. rewrite (deref_read _ _ _ Hr1) in H.
    destruct (c_vals c) as [|kv vs] eqn:Evals.
    + injection H as <- <-. split; [exact T1|]. split; [exact Tr1|]. split; [reflexivity|]. exists c.
      split; [exact Hr1|]. split; [exact Wc|]. split; [reflexivity|]. split; [reflexivity|]. intro k. now rewrite Evals.
    + set (chain := sec_ref s1 [] :: map (sec_ref s1) (prefixes p) ++ own) in *.
      destruct (chain_spec s1 r chain c Hr1) as (s2 & E2 & T2 & Tr2 & R2). unfold bind at 1 in H. rewrite E2 in H.
      destruct (update_from_spec s2 r (Some CLocal) _ R2) as (s3 & E3 & T3 & Tr3 & R3). unfold bind at 1 in H. rewrite E3 in H.
      injection H as <- <-.
      assert (T12 : touches r st s2) by (eapply touches_trans; eassumption).
      split; [eapply touches_trans; eassumption|]. split; [congruence|]. split; [reflexivity|].
      set (cm := fold_left (merge_from s1 r) chain c) in *. exists (merge_from s2 r cm (Some CLocal)).
      split; [exact R3|]. split; [apply merge_from_wf, chain_wf, Wc|].
      destruct (chain_name s1 r chain c) as [N1 N2]. split; [exact N1|]. split; [exact N2|]. intro k.
      assert (Ws1 : forall r' c', read_cref s1 r' = Some c' -> dwf (c_vals c')).
      { intros r' c' Hc'. destruct (cref_eq_dec r' r) as [->|Hne].
        - rewrite Hr1 in Hc'. injection Hc' as <-. apply Wc.
        - rewrite (touches_read _ _ _ _ T1 Hne) in Hc'. apply read_current in Hc'. apply (proj2 W) in Hc'. apply Hc'. }
      destruct (chain_get s1 r chain c k Ws1 (proj1 Wc)) as [G1 W1].
      destruct (merge_from_get s2 r cm (Some CLocal) k) as [G2 _].
      { intros r' c' [= <-] Hne Hrd. cbn in Hrd. injection Hrd as <-.
        destruct T12 as (_ & _ & T12 & _). rewrite (T12 Hl). apply (proj2 W CLocal). reflexivity. }
      { exact W1. }
      rewrite G2. unfold layer. destruct (cref_eq_dec CLocal r) as [E|_]; [congruence|].
      cbn [read_cref]. assert (L2 : cs_local s2 = cs_local st) by (now apply T12). rewrite L2.
      unfold effective, overriding_layers. rewrite <- Evals. destruct (c_vals c) as [|kv0 vs0] eqn:Evals'; [discriminate|].
      cbn [first_of app]. destruct (dget k (c_vals (cs_local st))); [reflexivity|].
      unfold cm. rewrite G1, <- Evals'.
      (* the chain in terms of the addressed object *)
      assert (Hchain : exists extra, chain = sec_ref s1 [] :: map (sec_ref s1) (prefixes (rpath r)) ++ extra /\
                         (forall x, In x extra -> layer s1 r x = [])).
      { destruct (target_rpath _ _ _ Ht) as (_ & [Hrp|[Hrp [cs Hs]]]).
        - exists own. split; [unfold chain; now rewrite Hrp|]. intros x Hx. subst own.
          destruct v as [| | |]; try (now destruct Hx). destruct Hx as [<-|[]].
          rewrite layer_sec_ref. destruct (cref_eq_dec (CSec p) r) as [|Hne]; [reflexivity|].
          exfalso. destruct T1 as (T1 & _). specialize (T1 p). unfold target at 1 in T1. rewrite Ev, Ht in T1. congruence.
        - assert (Hv : exists c0, v = SSelf c0).
          { assert (T1' := T1). destruct T1 as (T1 & _). specialize (T1 p).
            destruct (gf_self st p cs Hs) as (sx & Ex & _ & Es).
            rewrite (Ex : get_func_or_section_configs p st = _) in E1. injection E1 as <- _.
            rewrite Es, Hs in Ev. injection Ev as <-. eauto. }
          destruct Hv as [c0 ->]. subst own.
          assert (Hrr : r = CSec (removelast p)) by (unfold target in Ht; rewrite Hs in Ht; congruence).
          destruct (removelast p) as [|y q] eqn:Erl.
          + exists []. split; [|easy]. unfold chain. rewrite Hrp.
            rewrite (app_removelast_last "" Hp), Erl. reflexivity.
          + exists [sec_ref s1 (removelast p)]. split.
            * unfold chain. rewrite Hrp, (prefixes_removelast p Hp) by (rewrite Erl; discriminate).
              rewrite map_app, app_nil_r, Erl. reflexivity.
            * intros x [<-|[]]. rewrite layer_sec_ref, Erl. destruct (cref_eq_dec (CSec (y :: q)) r); congruence. }
      destruct Hchain as (extra & -> & Hx). rewrite (chain_layers s1 r extra c k Hl Hr1 Hx).
      assert (Sv : forall q, CSec q <> r -> section_values s1 q = section_values st q).
      { intros q Hq. rewrite !section_values_read. now rewrite (touches_read _ _ _ _ T1 Hq). }
      rewrite <- app_assoc. rewrite !first_of_app.
      replace (map (section_values s1) (rev (prefixes (rpath r)))) with (map (section_values st) (rev (prefixes (rpath r)))).
      2:{ apply map_ext_in. intros q Hq. symmetry. apply Sv. intros <-. apply in_rev in Hq. cbn in Hq.
          apply prefixes_in in Hq as (_ & t & Htt & E). symmetry in E. revert E. now apply app_neq_strict. }
      destruct (first_of k (map (section_values st) (rev (prefixes (rpath r))))); [reflexivity|].
      destruct (cref_eq_dec (CSec []) r) as [<-|Hne]; [|now rewrite (Sv [] Hne)].
      rewrite !section_values_read, Hr1. unfold current in Hc. rewrite read_cref_see. now rewrite Hc.
  - destruct G as (-> & n & Hs). unfold target. rewrite Hs. cbn [current]. rewrite Hs.
    destruct (get_tail_chain st p _ None Hs) as (own & Et & _). rewrite Et in H. injection H as <- <-.
    split; [apply touches_refl|]. auto.
  - subst s1. injection H as <- <-. destruct (target st p) as [r|] eqn:Et; [|eauto].
    split; [apply touches_refl|]. split; [reflexivity|]. destruct (current st r) as [c|] eqn:Ec; [|eauto].
    destruct (stored_current st (Some path) r c Et Ec) as [sx Ex]. cbn [stored_config] in Ex. fold p in Ex. congruence.
Qed.

(* ------------------------------------------------------------------ *)
(** * reset *)

Definition item_default (p : list string) (content : dict pyval) : config :=
  loaded_config (last p "") (item_file p) content.

Lemma set_item_seen st p c v : see st p = Some v -> (forall n own, v <> SSec n own) -> 
  exists st', set_item p (NConf c) st = (st', Ok tt) /\ same_env st st' /\
    see st' p = Some (SConf c) /\ (forall q, q <> p -> see st' q = see st q).
Proof.
  intros H Hv. assert (H' := H). rewrite see_eq in H. destruct (lookup_at st p) as [l|] eqn:E; [|discriminate].
  apply (set_item_conf st p c l E).
  - intros ->. discriminate.
  - intros s ->. cbn in H. injection H as <-. now apply (Hv (s_name s) (s_cfg s)).
  - intros ->. cbn in H'. injection H' as <-. now apply (Hv (s_name (cs_root st)) (s_cfg (cs_root st))).
Qed.

Lemma touches_item st st' p v c :
  see st p = Some v -> target st p = Some (CItem p) -> see st' p = Some (SConf c) ->
  (forall q, q <> p -> see st' q = see st q) -> cs_local st' = cs_local st -> cs_disk st' = cs_disk st ->
  touches (CItem p) st st'.
Proof.
  intros Hv Ht Hs Ho Hl Hd. split; [|split; [|auto]].
  - intro q. destruct (list_eq_dec string_dec q p) as [->|Hq].
    + rewrite Ht. unfold target. now rewrite Hs.
    + unfold target. now rewrite Ho.
  - intros q Hq. apply Ho. intros ->. now apply Hq.
Qed.

Lemma cm_reset_item st base path st' o :
  let p := path_parts path in
  target st p = Some (CItem p) ->
  cm_reset base (Some path) false st = (st', o) ->
  touches (CItem p) st st' /\
  match read_file (cs_disk st) (item_file p) with
  | Raise e => st' = st /\ o = Raise e
  | Ok content =>
      match current st (CItem p) with
      | None => True
      | Some c =>
          match value_as_kwargs content with
          | Raise e => o = Raise e /\ read_cref st' (CItem p) = Some c /\ cs_trace st' = cs_trace st
          | Ok u =>
              match would_update c (Some u) [] with
              | Raise e => o = Raise e /\ read_cref st' (CItem p) = Some c /\ cs_trace st' = cs_trace st
              | Ok true => o = Ok (DConf (item_default p content), true) /\
                           read_cref st' (CItem p) = Some (item_default p content) /\
                           cs_trace st' = cs_trace st ++ [EvPre path u]
              | Ok false => o = Ok (DConf (item_default p content), false) /\ read_cref st' (CItem p) = Some c /\
                            cs_trace st' = cs_trace st
              end
          end
      end
  end.
Proof.
  intros p Ht H. unfold cm_reset, bind at 1 in H. fold p in H. unfold default_for in H.
  assert (Hl : match lookup_at st p with Ok (LConf _) | Ok (LFile _ _) => True | _ => False end).
  { unfold target, see in Ht. destruct (lookup_at st p) as [[]|]; try discriminate; exact I. }
  assert (Hd : default_for base st p false =
               match read_file (cs_disk st) (item_file p) with
               | Ok content => Ok (DConf (item_default p content)) | Raise e => Raise e end).
  { unfold default_for, item_default. destruct (lookup_at st p) as [[]|]; try destruct Hl; reflexivity. }
  unfold default_for in Hd. rewrite Hd in H.
  destruct (read_file (cs_disk st) (item_file p)) as [content|e]; [|injection H as <- <-; split; [apply touches_refl|auto]].
  unfold bind at 1, cm_set in H. fold p in H.
  destruct (get_func_or_section_configs p st) as [s1 o1] eqn:E1. assert (G := gf_spec st p s1 o1 E1).
  assert (Hsee : exists v, see st p = Some v /\ forall n own, v <> SSec n own).
  { unfold target in Ht. destruct (see st p) as [[]|]; try discriminate; (eexists; split; [reflexivity|]; intros; discriminate). }
  destruct Hsee as (v & Hv & Hvs). set (def := item_default p content) in *.
  assert (HKE : s1 = st -> forall s2 o2, (set_func_or_section_config p (DConf def) false ;;; ret true) s1 = (s2, o2) -> touches (CItem p) st s2).
  { intros -> s2 o2 Hb. unfold bind, set_func_or_section_config in Hb. cbn [default_node] in Hb.
    destruct (set_item_seen st p def v Hv Hvs) as (s3 & E3 & (L3 & D3 & _) & S3 & O3). rewrite E3 in Hb.
    injection Hb as <- <-. eapply touches_item; eassumption. }
  assert (Hcur : forall c, current st (CItem p) = Some c -> o1 = Ok (Some (CItem p))).
  { intros c Hc. destruct (stored_current st (Some path) (CItem p) c Ht Hc) as [sx Ex]. cbn [stored_config] in Ex.
    fold p in Ex. congruence. }
  destruct o1 as [[r|]|e].
  - destruct G as (Gt & T1 & L1 & Tr1 & _ & c & Gc & R1). rewrite Ht in Gt. injection Gt as <-. rewrite Gc.
    unfold bind at 1 in H. rewrite (deref_read _ _ _ R1) in H. unfold bind at 1, lift in H.
    destruct (value_as_kwargs content) as [u|e] eqn:Eu.
    2:{ change (c_vals def) with content in H. rewrite Eu in H. injection H as <- <-. auto. }
    change (c_vals def) with content in H. rewrite Eu in H. unfold bind at 1 in H.
    destruct (would_update c (Some u) []) as [[]|e].
    + unfold bind at 1, emit, modify in H.
      set (s2 := CMS (cs_root s1) (cs_local s1) (cs_disk s1) (cs_trace s1 ++ [EvPre path u])) in *.
      assert (T2 : touches (CItem p) st s2) by (apply touches_emit'; exact T1).
      assert (S2 : exists c2, see s2 p = Some (SConf c2)).
      { exists c. change (see s2 p) with (see s1 p). rewrite read_cref_see in R1. destruct (see s1 p) as [[]|]; congruence. }
      destruct S2 as [c2 S2].
      destruct (set_item_seen s2 p def (SConf c2) S2 ltac:(intros; discriminate)) as (s3 & E3 & (L3 & D3 & Tr3) & S3 & O3).
      unfold bind, set_func_or_section_config in H. cbn [default_node] in H. rewrite E3 in H. injection H as <- <-.
      split.
      * eapply touches_trans; [exact T2|]. eapply touches_item; try eassumption. unfold target. now rewrite S2.
      * split; [reflexivity|]. split; [now rewrite read_cref_see, S3|]. rewrite Tr3. cbn. now rewrite Tr1.
    + injection H as <- <-. auto.
    + injection H as <- <-. auto.
  - destruct G as (-> & n & Gs). exfalso. rewrite Hv in Gs. injection Gs as ->. now apply (Hvs n None).
  - assert (X : touches (CItem p) st st').
    { destruct e; try (injection H as <- <-; subst s1; apply touches_refl).
      destruct ((set_func_or_section_config p (DConf def) false ;;; ret true) s1) as [s2 o2] eqn:Es.
      specialize (HKE G s2 o2 eq_refl). destruct o2; injection H as <- <-; exact HKE. }
    split; [exact X|]. destruct (current st (CItem p)) as [c|] eqn:Ec; [|exact I].
    specialize (Hcur c eq_refl). discriminate.
Qed.

(** resetting a section: it raises if the section has a config of its own, otherwise the whole section is
    read again from its folder *)
Lemma cm_reset_section st base path st' o n own :
  let p := path_parts path in
  see st p = Some (SSec n own) ->
  cm_reset base (Some path) false st = (st', o) ->
  match own with
  | Some _ => st' = st /\ o = Raise (match from_files_at base (cs_disk st) p with Ok _ => TypeError | Raise e => e end)
  | None => match from_files_at base (cs_disk st) p with
            | Raise e => st' = st /\ o = Raise e
            | Ok s => o = Ok (DSec s, true) /\ same_env st st' /\
                (forall q, (forall t, q <> p ++ t) -> see st' q = see st q) /\
                (forall t, see st' (p ++ t) = see_l (get_nested sec_reserved s t))
            end
  end.
Proof.
  intros p Hs H. unfold cm_reset, bind at 1 in H. fold p in H.
  assert (Hl : exists s0, lookup_at st p = Ok (LSec s0) /\ s_cfg s0 = own).
  { unfold see in Hs. destruct (lookup_at st p) as [[]|]; try discriminate. injection Hs as _ <-. eauto. }
  destruct Hl as (s0 & Hl & Hown). unfold default_for in H. rewrite Hl in H.
  assert (Hg := gf_sec st p n own Hs). unfold gf in Hg.
  destruct (from_files_at base (cs_disk st) p) as [s|e].
  - unfold bind at 1, cm_set in H. fold p in H. rewrite Hg in H. destruct own as [c|].
    + injection H as <- <-. eauto.
    + unfold bind, set_func_or_section_config in H. cbn [default_node] in H. unfold set_item in H.
      assert (Hr : real (LSec s0)) by discriminate.
      destruct (set_nested_ok _ _ _ (NSec s) _ Hl Hr (path_parts_nonempty path)) as [root' Er]. fold p in Er.
      rewrite Er in H. injection H as <- <-. split; [reflexivity|]. split; [repeat split|]. split.
      * intros q Hq. rewrite !see_eq. unfold lookup_at. cbn. eapply set_nested_other; eassumption.
      * intro t. rewrite see_eq. unfold lookup_at. cbn [cs_root with_root].
        destruct (set_nested_at _ _ _ _ _ _ t Er Hl Hr) as (sp & _ & G). rewrite G. reflexivity.
  - injection H as <- <-. destruct own; eauto.
Qed.

(** resetting the path that stands for a section's own config *)
Lemma cm_reset_self st base path st' o c :
  let p := path_parts path in
  see st p = Some (SSelf c) ->
  cm_reset base (Some path) false st = (st', o) ->
  cs_local st' = cs_local st /\ cs_disk st' = cs_disk st /\
  (forall q, q <> p -> see st' q = see st q) /\
  (see st' p = Some (SSelf c) \/
   exists content, read_file (cs_disk st) (item_file p) = Ok content /\ see st' p = Some (SConf (item_default p content))).
Proof.
  intros p Hs H. unfold cm_reset, bind at 1 in H. fold p in H. unfold default_for in H.
  assert (Hl : lookup_at st p = Ok (LSelf c)).
  { unfold see in Hs. destruct (lookup_at st p) as [[]|]; try discriminate. now injection Hs as ->. }
  rewrite Hl in H. destruct (read_file (cs_disk st) (item_file p)) as [content|e]; [|injection H as <- <-; auto].
  fold (item_default p content) in H. set (def := item_default p content) in *.
  unfold bind at 1, cm_set in H. fold p in H.
  destruct (gf_self st p c Hs) as (s1 & E1 & (L1 & D1 & Tr1) & S1). unfold gf in E1. rewrite E1 in H.
  assert (Base : cs_local s1 = cs_local st /\ cs_disk s1 = cs_disk st /\
                 (forall q, q <> p -> see s1 q = see st q) /\ (see s1 p = Some (SSelf c) \/
   exists content0, Ok content = Ok content0 /\ see s1 p = Some (SConf (item_default p content0)))).
  { rewrite S1. repeat split; auto. }
  unfold bind at 1 in H. unfold deref in H.
  destruct (read_cref s1 (CSec (removelast p))) as [cs|]; [|injection H as <- <-; exact Base].
  unfold bind at 1, lift in H. destruct (value_as_kwargs (c_vals def)) as [u|]; [|injection H as <- <-; exact Base].
  unfold bind at 1 in H. destruct (would_update cs (Some u) []) as [[]|]; [|injection H as <- <-; exact Base|injection H as <- <-; exact Base].
  unfold bind at 1, emit, modify in H.
  set (s2 := CMS (cs_root s1) (cs_local s1) (cs_disk s1) (cs_trace s1 ++ [EvPre path u])) in *.
  assert (S2 : see s2 p = Some (SSelf c)) by (change (see s1 p = Some (SSelf c)); now rewrite S1).
  destruct (set_item_seen s2 p def (SSelf c) S2 ltac:(intros; discriminate)) as (s3 & E3 & (L3 & D3 & Tr3) & S3 & O3).
  unfold bind, set_func_or_section_config in H. cbn [default_node] in H. rewrite E3 in H. injection H as <- <-.
  split; [now rewrite L3|]. split; [now rewrite D3|]. split.
  - intros q Hq. rewrite O3 by exact Hq. change (see s2 q) with (see s1 q). apply S1.
  - right. exists content. auto.
Qed.

Lemma cm_reset_none st base path b st' o :
  see st (path_parts path) = None -> b = false ->
  cm_reset base (Some path) b st = (st', o) -> st' = st /\ exists e, o = Raise e.
Proof.
  intros Hs -> H. unfold cm_reset, bind at 1, default_for in H. apply see_none_iff in Hs as [[e Hs]|Hs]; rewrite Hs in H.
  - destruct e; injection H as <- <-; eauto.
  - injection H as <- <-. eauto.
Qed.
