(** What get, update, refresh and reset do to the loaded objects, the stored configs and the hook trace. *)
From Verif Require Import Runner_Model Config_Spec ConfigTree_Spec Runner_Spec Config_Proofs ConfigTree_Proofs ConfigOps_Proofs ConfigLoad_Proofs ConfigWf_Proofs Runner_Proofs.
From Coq Require Import Lia.
Local Open Scope list_scope.
Local Open Scope monad_scope.

Lemma deref_fails st r : read_cref st r = None -> deref r st = (st, Raise AttributeError).
Proof. intro H. unfold deref. now rewrite H. Qed.

Lemma wul_decides vals us : dwf us -> comparable vals us ->
  (would_update_loop vals us = Ok true /\ really_changes vals us) \/ (would_update_loop vals us = Ok false /\ ~ really_changes vals us).
Proof.
  intros Hw Hc. destruct (wul_comparable vals us Hw Hc) as [[A1 A2] [B1 B2]].
  destruct (would_update_loop vals us) as [[]|e] eqn:E; auto.
  exfalso. assert (X : ~ really_changes vals us) by (intro X; apply A2 in X; discriminate). apply B2 in X. discriminate.
Qed.

(** what an update of the config does to a loaded object *)
Definition applied_to (u : user) (o : lobj) (cfg : dict pyval) : res lobj :=
  match o with
  | LPartial id f b kw => Ok (LPartial id f b (apply_config_to_partial kw cfg))
  | LInst id k calls => match u_init u k (relevant_config k cfg) with
                        | Some e => Raise e
                        | None => Ok (LInst id k (calls ++ [relevant_config k cfg]))
                        end
  end.

Lemma apply_config_eq u path o cfg s : apply_config u path o cfg s =
  match applied_to u o cfg with
  | Raise e => (s, Raise e)
  | Ok o' => (RS (r_cms s) (dset path o' (r_loaded s)) (r_next s) (r_calls s), Ok tt)
  end.
Proof. destruct o; cbn [apply_config applied_to]; [reflexivity|]. now destruct (u_init u k (relevant_config k cfg)). Qed.

Lemma apply_partial_get cfg : forall kw k, dwf cfg ->
  dget k (apply_config_to_partial kw cfg) =
  match dget k kw with None => None | Some old => match dget k cfg with Some v => Some v | None => Some old end end.
Proof.
  induction cfg as [|[x v] cfg IH]; intros kw k W; cbn [apply_config_to_partial].
  - now destruct (dget k kw).
  - inversion W; subst. rewrite IH by assumption. cbn [dget].
    destruct (String.eqb k x) eqn:E.
    + apply String.eqb_eq in E. subst x. assert (N : dget k cfg = None) by (now apply dget_None). rewrite N.
      destruct (dmem k kw) eqn:Em.
      * rewrite dget_dset_eq. apply dmem_In, In_dkeys_dget in Em as [w ->]. reflexivity.
      * apply dmem_dget in Em. now rewrite Em.
    + apply String.eqb_neq in E. destruct (dmem x kw); [|reflexivity]. now rewrite dget_dset_neq.
Qed.

Lemma get_config_spec s path own : cms_wf (r_cms s) -> own_values (r_cms s) (path_parts path) = Some own ->
  exists c' s', get_config path s = (s', Ok c') /\ same_run s s' /\ cs_trace (r_cms s') = cs_trace (r_cms s) /\
    touches (CItem (path_parts path)) (r_cms s) (r_cms s') /\ see (r_cms s') (path_parts path) = Some (SConf c') /\
    cms_wf (r_cms s') /\ cfg_wf c' /\
    (forall k, dget k (c_vals c') = effective (r_cms s) (path_parts path) own k).
Proof.
  intros W H. unfold get_config, bind, on_cms. assert (W' := cm_get_wf _ path W). destruct (cm_get path (r_cms s)) as [st' o] eqn:E.
  cbn [fst] in W'.
  assert (S := cm_get_spec _ _ _ _ W E). set (p := path_parts path) in *. rewrite own_values_current in H.
  destruct (current (r_cms s) (CItem p)) as [c|] eqn:Ec; [|discriminate]. injection H as <-.
  assert (Ht : target (r_cms s) p = Some (CItem p)).
  { unfold target. cbn [current] in Ec. destruct (see (r_cms s) p) as [[]|]; try discriminate; reflexivity. }
  rewrite Ht, Ec in S. destruct S as (T & Tr & -> & c' & R & Wc & _ & _ & V). cbn [r_cms r_loaded r_next r_calls].
  rewrite (deref_read _ _ _ R). exists c'. eexists. split; [reflexivity|].
  split; [split; [reflexivity|split; [reflexivity|split; [reflexivity|intro Wt; cbn [r_cms]; generalize (cm_get_keeps path _ Wt); now rewrite E]]]|].
  split; [exact Tr|]. split; [exact T|]. split; [|split; [exact W'|split; [exact Wc|exact V]]].
  cbn [r_cms]. rewrite read_cref_see in R. destruct (see st' p) as [[]|]; try discriminate. now injection R as ->.
Qed.

(** first access to a function *)
Lemma first_access_func its s path own f : cms_wf (r_cms s) -> own_values (r_cms s) (path_parts path) = Some own ->
  is_func its path f -> dget path (r_loaded s) = None ->
  exists s' kw, get_one_func_with_config its path s = (s', Ok (LPartial (r_next s) f false kw)) /\
    r_loaded s' = dset path (LPartial (r_next s) f false kw) (r_loaded s) /\ r_calls s' = r_calls s /\
    touches (CItem (path_parts path)) (r_cms s) (r_cms s') /\ dwf kw /\
    forall k, dget k kw = if mem k (f_args f) then effective (r_cms s) (path_parts path) own k else None.
Proof.
  intros W Ho (b & Hf) Hn. destruct (get_config_spec s path own W Ho) as (c & s1 & E & (R1 & R2 & R3 & _) & Tr & T & Sc & W1 & Wc & V).
  unfold get_one_func_with_config, bind at 1, gets. rewrite Hn. unfold get_func_and_config, bind. rewrite E. unfold lift. rewrite Hf.
  cbn [snd ret]. exists (RS (r_cms s1) (dset path (LPartial (r_next s) f false (for_function c (f_args f))) (r_loaded s)) (S (r_next s)) (r_calls s)).
  exists (for_function c (f_args f)).
  split; [|split; [reflexivity|split; [reflexivity|split; [exact T|split]]]].
  - unfold fresh, set_loaded, modify, ret. cbn [r_cms r_loaded r_next r_calls]. rewrite R1, R2, R3. reflexivity.
  - apply dfilter_wf, Wc.
  - intro k. unfold for_function. rewrite dget_dfilter. destruct (mem k (f_args f)); [apply V|reflexivity].
Qed.

Lemma first_access_class its u s path own k : cms_wf (r_cms s) -> own_values (r_cms s) (path_parts path) = Some own ->
  is_class its path k -> dget path (r_loaded s) = None ->
  exists s' args, get_one_obj_with_config its u path s =
      (s', match u_init u k args with Some e => Raise e | None => Ok (LInst (r_next s) k [args]) end) /\
    r_loaded s' = match u_init u k args with Some _ => r_loaded s | None => dset path (LInst (r_next s) k [args]) (r_loaded s) end /\
    r_calls s' = r_calls s /\ touches (CItem (path_parts path)) (r_cms s) (r_cms s') /\ dwf args /\
    forall x, dget x args = if mem x (class_args k) then effective (r_cms s) (path_parts path) own x else None.
Proof.
  intros W Ho (b & Hf) Hn. destruct (get_config_spec s path own W Ho) as (c & s1 & E & (R1 & R2 & R3 & _) & Tr & T & Sc & W1 & Wc & V).
  unfold get_one_obj_with_config, bind at 1, gets. rewrite Hn. unfold bind at 1, lift at 1. rewrite Hf.
  unfold get_class_and_config, bind. rewrite E. unfold lift. rewrite Hf. cbn [snd ret].
  set (args := for_function c (class_args k)).
  exists (match u_init u k args with Some _ => s1 | None =>
    RS (r_cms s1) (dset path (LInst (r_next s) k [args]) (r_loaded s)) (S (r_next s)) (r_calls s) end). exists args.
  destruct (u_init u k args).
  - split; [reflexivity|]. split; [exact R1|]. split; [exact R3|]. split; [exact T|]. split; [apply dfilter_wf, Wc|].
    intro x. unfold args, for_function. rewrite dget_dfilter. destruct (mem x (class_args k)); [apply V|reflexivity].
  - unfold fresh, set_loaded, modify, ret. cbn [r_cms r_loaded r_next r_calls]. rewrite R1, R2, R3.
    split; [reflexivity|]. split; [reflexivity|]. split; [reflexivity|]. split; [exact T|]. split; [apply dfilter_wf, Wc|].
    intro x. unfold args, for_function. rewrite dget_dfilter. destruct (mem x (class_args k)); [apply V|reflexivity].
Qed.

Lemma loaded_func its path s o : dget path (r_loaded s) = Some o -> get_one_func_with_config its path s = (s, Ok o).
Proof. intro H. unfold get_one_func_with_config, bind at 1, gets. now rewrite H. Qed.
Lemma loaded_obj its u path s o : dget path (r_loaded s) = Some o -> get_one_obj_with_config its u path s = (s, Ok o).
Proof. intro H. unfold get_one_obj_with_config, bind at 1, gets. now rewrite H. Qed.

(** running a loaded function *)
Lemma run_loaded_func its u s path own f o : cms_wf (r_cms s) -> own_values (r_cms s) (path_parts path) = Some own ->
  is_func its path f -> dget path (r_loaded s) = Some o ->
  exists s', run_one_func its u path s = (s', match u_call u (r_calls s) path o with Ok v => Ok (RVal v) | Raise e => Raise e end) /\
    r_loaded s' = r_loaded s /\ r_calls s' = r_calls s ++ [(path, o)] /\
    touches (CItem (path_parts path)) (r_cms s) (r_cms s').
Proof.
  intros W Ho (b & Hf) Hl. destruct (get_config_spec s path own W Ho) as (c & s1 & E & (R1 & R2 & R3 & _) & Tr & T & Sc & W1 & Wc & V).
  unfold run_one_func, bind at 1. unfold get_func_and_config, bind at 1. rewrite E. unfold bind at 1, lift. rewrite Hf. cbn [snd ret].
  unfold bind. rewrite (loaded_func its path s1 o) by (now rewrite R1). unfold call_object. rewrite R3.
  eexists. split; [reflexivity|]. cbn. rewrite R1. auto.
Qed.


(** the effect of [Runner.update] *)
Lemma runner_update_spec u d path persist kw s s' o :
  runner_update u d (Some path) persist kw s = (s', o) ->
  let all := dupdate (opt_dict d) kw in
  match target (r_cms s) (path_parts path) with
  | None => s' = s /\ exists e, o = Raise e
  | Some r =>
      touches r (r_cms s) (r_cms s') /\ r_calls s' = r_calls s /\ r_next s' = r_next s /\
      match current (r_cms s) r with
      | None => s' = s /\ exists e, o = Raise e
      | Some c =>
          match cfg_checked_update c d persist kw with
          | Raise e => o = Raise e /\ r_loaded s' = r_loaded s /\ current (r_cms s') r = Some c
          | Ok (c', b) =>
              current (r_cms s') r = Some c' /\
              match (if b then dget path (r_loaded s) else None) with
              | None => o = Ok tt /\ r_loaded s' = r_loaded s /\
                        cs_trace (r_cms s') = cs_trace (r_cms s) ++ if b then [EvPre path all] else []
              | Some ob =>
                  match applied_to u ob (c_vals c') with
                  | Raise e => o = Raise e /\ r_loaded s' = r_loaded s /\
                               cs_trace (r_cms s') = cs_trace (r_cms s) ++ [EvPre path all]
                  | Ok ob' => r_loaded s' = dset path ob' (r_loaded s) /\
                      if dmem "d" kw then o = Raise TypeError /\ cs_trace (r_cms s') = cs_trace (r_cms s) ++ [EvPre path all]
                      else o = Ok tt /\ cs_trace (r_cms s') = cs_trace (r_cms s) ++ [EvPre path all; EvPost path all]
                  end
              end
          end
      end
  end.
Proof.
  intros H all. unfold runner_update, bind at 1, on_cms in H.
  destruct (cm_update d (Some path) persist kw (r_cms s)) as [st o1] eqn:E. assert (S := cm_update_spec _ _ _ _ _ _ _ E).
  cbn [path_target] in S. destruct (target (r_cms s) (path_parts path)) as [r|] eqn:Et.
  2:{ destruct S as (-> & e & ->). injection H as <- <-. destruct s; cbn; eauto. }
  destruct S as (T & S). destruct (current (r_cms s) r) as [c|] eqn:Ec.
  2:{ destruct S as (-> & e & ->). injection H as <- <-. destruct s; cbn. eauto 8. }
  destruct (cfg_checked_update c d persist kw) as [[c' b]|e] eqn:Ek.
  2:{ destruct S as (-> & R). injection H as <- <-. cbn. apply read_current in R. auto 8. }
  destruct S as (-> & R & Tr). apply read_current in R as R'. unfold bind at 1, loaded_at, gets in H. cbn [r_loaded] in H.
  destruct (dget path (r_loaded s)) as [ob|] eqn:El.
  2:{ injection H as <- <-. cbn. destruct b; auto 8. }
  destruct b.
  2:{ injection H as <- <-. cbn. auto 8. }
  unfold bind at 1, on_cms in H. cbn [r_cms] in H. rewrite (deref_read _ _ _ R) in H. cbn [r_cms r_loaded r_next r_calls] in H.
  unfold bind at 1 in H. rewrite apply_config_eq in H. cbn [r_cms r_loaded r_next r_calls opt_path] in H.
  destruct (applied_to u ob (c_vals c')) as [ob'|e].
  2:{ injection H as <- <-. cbn. auto 8. }
  destruct (dmem "d" kw).
  - injection H as <- <-. cbn. auto 9.
  - unfold on_cms, emit, modify in H. cbn in H. injection H as <- <-. cbn.
    split; [now apply touches_emit'|]. split; [reflexivity|]. split; [reflexivity|].
    split; [now destruct r|]. split; [reflexivity|]. split; [reflexivity|]. rewrite Tr, <- app_assoc. reflexivity.
Qed.

(** the effect of [Runner.refresh] *)
Lemma runner_refresh_spec u path s s' o own c ref content : cms_wf (r_cms s) ->
  runner_refresh u path s = (s', o) ->
  own_values (r_cms s) (path_parts path) = Some own ->
  current (r_cms s) (CItem (path_parts path)) = Some c -> c_file c = Some ref -> read_file (cs_disk (r_cms s)) ref = Ok content ->
  touches (CItem (path_parts path)) (r_cms s) (r_cms s') /\ r_calls s' = r_calls s /\ r_next s' = r_next s /\
  match cfg_checked_refresh c content with
  | Raise e => o = Raise e /\ r_loaded s' = r_loaded s
  | Ok (c', b, ups) =>
      match (if b then dget path (r_loaded s) else None) with
      | None => o = Ok tt /\ r_loaded s' = r_loaded s /\ current (r_cms s') (CItem (path_parts path)) = Some c' /\
                cs_trace (r_cms s') = cs_trace (r_cms s) ++ if b then [EvPre path ups] else []
      | Some ob =>
          exists cfg, current (r_cms s') (CItem (path_parts path)) = Some cfg /\ cfg_wf cfg /\
            (forall k, dget k (c_vals cfg) = effective (r_cms s) (path_parts path) (c_vals c') k) /\
          match applied_to u ob (c_vals cfg) with
          | Raise e => o = Raise e /\ r_loaded s' = r_loaded s /\ cs_trace (r_cms s') = cs_trace (r_cms s) ++ [EvPre path ups]
          | Ok ob' => r_loaded s' = dset path ob' (r_loaded s) /\ o = Ok tt /\
                      cs_trace (r_cms s') = cs_trace (r_cms s) ++ [EvPre path ups; EvPost path ups]
          end
      end
  end.
Proof.
  intros W H Ho Hc Hr Hf. unfold runner_refresh, bind at 1, on_cms in H. set (p := path_parts path) in *.
  assert (W1 := cm_refresh_wf (r_cms s) path W).
  destruct (cm_refresh path (r_cms s)) as [st o1] eqn:E. assert (S := cm_refresh_spec _ _ _ _ E). fold p in S. cbn [fst] in W1.
  assert (Ht : target (r_cms s) p = Some (CItem p)).
  { unfold target. cbn [current] in Hc. destruct (see (r_cms s) p) as [[]|]; try discriminate; reflexivity. }
  rewrite Ht, Hc, Hr, Hf in S. destruct S as (T & S). destruct (cfg_checked_refresh c content) as [[[c' b] ups]|e].
  2:{ destruct S as (-> & R). injection H as <- <-. cbn. auto 8. }
  destruct S as (-> & R & Tr). apply read_current in R as R'. unfold bind at 1, loaded_at, gets in H. cbn [r_loaded] in H.
  destruct (dget path (r_loaded s)) as [ob|] eqn:El.
  2:{ injection H as <- <-. cbn [r_cms r_loaded r_next r_calls]. destruct b; auto 9. }
  destruct b.
  2:{ injection H as <- <-. cbn [r_cms r_loaded r_next r_calls]. auto 9. }
  set (s1 := RS st (r_loaded s) (r_next s) (r_calls s)) in *.
  assert (Ho1 : own_values (r_cms s1) p = Some (c_vals c')).
  { rewrite own_values_current. cbn [r_cms s1]. now rewrite R'. }
  destruct (get_config_spec s1 path (c_vals c') W1 Ho1) as (cfg & s2 & E2 & (R1 & R2 & R3 & _) & Tr2 & T2 & Sc & W2 & Wc & V).
  unfold bind at 1 in H. rewrite E2 in H. unfold bind at 1 in H. rewrite apply_config_eq in H.
  assert (Hcur : current (r_cms s2) (CItem p) = Some cfg) by (cbn [current]; fold p in Sc; now rewrite Sc).
  assert (V' : forall k, dget k (c_vals cfg) = effective (r_cms s) p (c_vals c') k).
  { intro k. rewrite V. unfold effective. destruct (c_vals c'); [reflexivity|]. f_equal. f_equal.
    change p with (rpath (CItem p)). apply (overriding_touches (r_cms s) st (CItem p)); [exact T|discriminate|].
    apply path_parts_nonempty. }
  assert (TT : touches (CItem p) (r_cms s) (r_cms s2)) by (eapply touches_trans; [exact T|exact T2]).
  destruct (applied_to u ob (c_vals cfg)) as [ob'|e] eqn:Ea.
  - unfold on_cms, emit, modify in H. cbn in H. injection H as <- <-. cbn [r_cms r_loaded r_next r_calls].
    split; [now apply touches_emit'|]. split; [exact R3|]. split; [exact R2|]. exists cfg.
    split; [exact Hcur|]. split; [exact Wc|]. split; [exact V'|]. rewrite Ea. split; [now rewrite R1|]. split; [reflexivity|].
    cbn [cs_trace]. rewrite Tr2. cbn [r_cms s1]. rewrite Tr, <- app_assoc. reflexivity.
  - injection H as <- <-. split; [exact TT|]. split; [exact R3|]. split; [exact R2|]. exists cfg.
    split; [exact Hcur|]. split; [exact Wc|]. split; [exact V'|]. rewrite Ea. split; [reflexivity|]. split; [exact R1|].
    rewrite Tr2. exact Tr.
Qed.

(** the effect of [Runner.reset] on an item *)
Lemma runner_reset_spec base u path s s' o c content :
  runner_reset base u (Some path) false s = (s', o) ->
  target (r_cms s) (path_parts path) = Some (CItem (path_parts path)) ->
  current (r_cms s) (CItem (path_parts path)) = Some c ->
  read_file (cs_disk (r_cms s)) (item_file (path_parts path)) = Ok content ->
  touches (CItem (path_parts path)) (r_cms s) (r_cms s') /\ r_calls s' = r_calls s /\ r_next s' = r_next s /\
  match value_as_kwargs content with
  | Raise e => o = Raise e /\ r_loaded s' = r_loaded s /\ cs_trace (r_cms s') = cs_trace (r_cms s)
  | Ok ups =>
      match would_update c (Some ups) [] with
      | Raise e => o = Raise e /\ r_loaded s' = r_loaded s /\ cs_trace (r_cms s') = cs_trace (r_cms s)
      | Ok false => o = Ok tt /\ r_loaded s' = r_loaded s /\ cs_trace (r_cms s') = cs_trace (r_cms s)
      | Ok true =>
          match dget path (r_loaded s) with
          | None => o = Ok tt /\ r_loaded s' = r_loaded s /\ cs_trace (r_cms s') = cs_trace (r_cms s) ++ [EvPre path ups]
          | Some ob =>
              match applied_to u ob content with
              | Raise e => o = Raise e /\ r_loaded s' = r_loaded s /\ cs_trace (r_cms s') = cs_trace (r_cms s) ++ [EvPre path ups]
              | Ok ob' => r_loaded s' = dset path ob' (r_loaded s) /\
                  match post_reset_updates content with
                  | Ok ups' => o = Ok tt /\ cs_trace (r_cms s') = cs_trace (r_cms s) ++ [EvPre path ups; EvPost path ups']
                  | Raise e => o = Raise e /\ cs_trace (r_cms s') = cs_trace (r_cms s) ++ [EvPre path ups]
                  end
              end
          end
      end
  end.
Proof.
  intros H Ht Hc Hf. unfold runner_reset, bind at 1, on_cms in H.
  destruct (cm_reset base (Some path) false (r_cms s)) as [st o1] eqn:E.
  destruct (cm_reset_item _ _ _ _ _ Ht E) as (T & S). set (p := path_parts path) in *. rewrite Hf, Hc in S.
  destruct (value_as_kwargs content) as [ups|e].
  2:{ destruct S as (-> & R & Tr). injection H as <- <-. cbn [r_cms r_loaded r_next r_calls]. auto 8. }
  destruct (would_update c (Some ups) []) as [[]|e].
  3:{ destruct S as (-> & R & Tr). injection H as <- <-. cbn [r_cms r_loaded r_next r_calls]. auto 8. }
  2:{ destruct S as (-> & R & Tr). unfold bind, loaded_at, gets in H. cbn [r_loaded] in H.
      destruct (dget path (r_loaded s)); injection H as <- <-; cbn [r_cms r_loaded r_next r_calls]; auto 8. }
  destruct S as (-> & R & Tr). unfold bind at 1, loaded_at, gets in H. cbn [r_loaded] in H.
  destruct (dget path (r_loaded s)) as [ob|] eqn:El.
  2:{ injection H as <- <-. cbn [r_cms r_loaded r_next r_calls]. auto 8. }
  unfold bind at 1 in H. cbn [opt_path item_default loaded_config c_vals] in H. rewrite apply_config_eq in H.
  cbn [r_cms r_loaded r_next r_calls] in H. destruct (applied_to u ob content) as [ob'|e] eqn:Ea.
  2:{ injection H as <- <-. cbn [r_cms r_loaded r_next r_calls]. auto 8. }
  unfold bind at 1, lift in H. destruct (post_reset_updates content) as [ups'|e].
  - unfold on_cms, emit, modify in H. cbn [r_cms r_loaded r_next r_calls opt_path] in H. injection H as <- <-.
    cbn [r_cms r_loaded r_next r_calls cs_trace].
    split; [now apply touches_emit'|]. split; [reflexivity|]. split; [reflexivity|]. split; [reflexivity|]. split; [reflexivity|].
    rewrite Tr, <- app_assoc. reflexivity.
  - injection H as <- <-. cbn [r_cms r_loaded r_next r_calls]. auto 9.
Qed.
