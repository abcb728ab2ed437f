(** Proofs about the log of a run. *)
From Verif Require Import Runner_Model View_Model View_Spec View_Proofs View_Props Selector_Proofs Selector_Props GetAttr_Proofs Report_Model Report_Spec Runner_Spec Runner_Proofs.
Local Open Scope string_scope.
Local Open Scope list_scope.

Lemma dset_self n (m : vmgr) w : dget n w = Some m -> dset n m w = w.
Proof. apply dset_same. Qed.
Lemma smgrs_set w n m m1 : dget n w = Some m -> v_items m1 = v_items m -> smgrs (dset n m1 w) = smgrs w.
Proof.
  intros Hn Hi. unfold smgrs. induction w as [|[k m'] w IH]; [discriminate|].
  cbn [dget] in Hn. cbn [dset]. destruct (String.eqb n k) eqn:E.
  - injection Hn as ->. cbn [map fst snd]. apply String.eqb_eq in E. subst k. unfold as_smgr. now rewrite Hi.
  - cbn [map fst snd]. f_equal. now apply IH.
Qed.
Lemma klasses_set w n m m1 : dget n w = Some m -> v_klasses m1 = v_klasses m ->
  flat_map (fun nm => map snd (v_klasses (snd nm))) (dset n m1 w) = flat_map (fun nm => map snd (v_klasses (snd nm))) w.
Proof.
  intros Hn Hi. induction w as [|[k m'] w IH]; [discriminate|].
  cbn [dget] in Hn. cbn [dset]. destruct (String.eqb n k) eqn:E.
  - injection Hn as ->. cbn [flat_map snd]. now rewrite Hi.
  - cbn [flat_map snd]. f_equal. now apply IH.
Qed.
Lemma make_selector_set w n m r : dget n w = Some m -> make_selector (with_rs n m r w) = make_selector w.
Proof. intros Hn. unfold make_selector, with_rs. rewrite (smgrs_set w n m), (klasses_set w n m) by (auto; reflexivity). reflexivity. Qed.

Lemma on_runner_eq {A} n (f : M rs A) m w r o : dget n w = Some m -> f (g_rs (v_gs m)) = (r, o) -> on_runner n f w = (with_rs n m r w, o).
Proof. intros Hn Hf. unfold on_runner, with_rs. now rewrite Hn, Hf. Qed.
Lemma dget_with_rs n m r w : dget n (with_rs n m r w) = Some (VMgr (v_items m) (v_klasses m) (GS (g_full (v_gs m)) r)).
Proof. apply dget_dset_eq. Qed.
Lemma with_rs_with_rs n m r r' w : with_rs n (VMgr (v_items m) (v_klasses m) (GS (g_full (v_gs m)) r)) r' (with_rs n m r w) = with_rs n m r' w.
Proof. unfold with_rs. cbn [v_items v_klasses v_gs g_full]. apply dset_dset. Qed.

Section Txt.
  Variable u : user.
  Variable ua : lobj -> string -> uattr.
  Variable sel : vsel.
  Variable txt : pyval -> res string.
  Lemma value_text_prints v t w : prints txt v t -> value_text u ua sel txt v w = (w, Ok t).
  Proof. destruct v; cbn [prints value_text]; intros H; try contradiction; try (now rewrite H); now subst. Qed.
  Lemma kwarg_lines_prints d lines w : prints_all txt d lines -> kwarg_lines u ua sel txt d w = (w, Ok lines).
  Proof.
    intros H. induction H as [|[k v] l d lines (t & Hp & ->) H IH]; cbn [kwarg_lines]; [reflexivity|]. cbn [fst snd] in *. rewrite (value_text_prints v t w Hp), IH. reflexivity.
  Qed.
  Lemma kwarg_str_prints d lines w : prints_all txt d lines -> kwarg_str u ua sel txt d w = (w, Ok (nl ++ tab ++ join ("," ++ nl ++ tab) lines ++ nl)%string).
  Proof. intros H. unfold kwarg_str. now rewrite (kwarg_lines_prints d lines w H). Qed.
  Lemma kwarg_lines_view d1 l1 k v d2 l2 w w1 o : prints_all txt d1 l1 -> prints_all txt d2 l2 -> value_text u ua sel txt v w = (w1, o) ->
    kwarg_lines u ua sel txt (d1 ++ (k, v) :: d2) w = (w1, match o with Ok t => Ok (l1 ++ (k ++ " = " ++ t)%string :: l2) | Raise e => Raise e end).
  Proof.
    intros H1 H2 Hv. induction H1 as [|[k' v'] l d lines (t & Hp & ->) H IH]; cbn [app kwarg_lines].
    - rewrite Hv. destruct o as [t|e]; [|reflexivity]. now rewrite (kwarg_lines_prints d2 l2 w1 H2).
    - cbn [fst snd] in *. rewrite (value_text_prints v' t w Hp), IH. now destruct o.
  Qed.
  Lemma kwarg_lines_fails d1 l1 k v d2 w w1 e : prints_all txt d1 l1 -> value_text u ua sel txt v w = (w1, Raise e) ->
    kwarg_lines u ua sel txt (d1 ++ (k, v) :: d2) w = (w1, Raise e).
  Proof.
    intros H1 Hv. induction H1 as [|[k' v'] l d lines (t & Hp & ->) H IH]; cbn [app kwarg_lines].
    - now rewrite Hv.
    - cbn [fst snd] in *. now rewrite (value_text_prints v' t w Hp), IH.
  Qed.
End Txt.

(** what get_func_and_config and loading give in a run *)
Lemma run_one_func_split its u path s s1 f b d : get_func_and_config its path s = (s1, Ok (f, b, d)) ->
  run_one_func its u path s = bind (get_one_func_with_config its path) (fun o => call_object u path o) s1.
Proof. intros H. unfold run_one_func, bind at 1. now rewrite H. Qed.

Lemma in_collection_det m g c parts g' c' parts' xs : NoDup (map reg_name (i_specific (v_items m))) ->
  in_collection (as_smgr m) g c parts xs -> in_collection (as_smgr m) g' c' parts' xs -> c = c' /\ parts = parts'.
Proof.
  intros Hm Hc Hc3. destruct Hc as [i r rest Hi Hr Hne|i y rest Hi Hy]; cbn in Hi; injection Hi as <-.
  - remember (reg_name r :: rest) as zs eqn:Ez. destruct Hc3 as [i r' rest' Hi' Hr' Hne'|i y rest' Hi' Hy']; cbn in Hi'; injection Hi' as <-.
    + injection Ez as Ez ->. pose proof (find_registrar_In _ _ Hm Hr) as F1. pose proof (find_registrar_In _ _ Hm Hr') as F2. rewrite Ez in F2. assert (r' = r) by congruence. subst r'. auto.
    + injection Ez as -> ->. exfalso. apply Hy'. cbn. now apply in_map.
  - remember (y :: rest) as zs eqn:Ez. destruct Hc3 as [i r' rest' Hi' Hr' Hne'|i z rest' Hi' Hy']; cbn in Hi'; injection Hi' as <-.
    + injection Ez as <- ->. exfalso. apply Hy. cbn. now apply in_map.
    + auto.
Qed.
Lemma coll_get_below_item c parts n t x : leads c parts (EItem n t) -> coll_get c (parts ++ [x]) = Raise AttributeError.
Proof.
  remember (EItem n t) as e eqn:E. intros H. induction H as [c y e Hr He|c y c2 rest e Hr He Hl IH]; subst.
  - cbn [app coll_get]. unfold coll_getattr. apply mem_false in Hr. rewrite Hr. apply last_entry_iff in He. now rewrite He.
  - cbn [app coll_get]. unfold coll_getattr. apply mem_false in Hr. rewrite Hr. apply last_entry_iff in He. rewrite He. apply (IH eq_refl).
Qed.
Lemma below_item_not_standing m xs t x : mgr_ok (as_smgr m) -> item_of m xs t -> forall b, ~ stands_for (as_smgr m) (xs ++ [x]) b.
Proof.
  intros Hm (g & c & parts & nm & Hc & Hl & _) b H. assert (Nd := mgr_nodup m Hm). assert (G := coll_get_below_item c parts nm t x Hl).
  assert (Ne : xs <> []) by (intros ->; inversion Hc).
  assert (K : forall g2 c2 parts2, in_collection (as_smgr m) g2 c2 parts2 (xs ++ [x]) -> coll_get c2 parts2 = Raise AttributeError).
  { intros g2 c2 parts2 H2. destruct (in_collection_det m _ _ _ _ _ _ _ Nd H2 (in_collection_app _ _ _ _ _ [x] Hc)) as [-> ->]. exact G. }
  remember (xs ++ [x]) as ys eqn:Ey. destruct H as [|z Hz'|g2 c2 parts2 ys c3 Hc2 Hl2|g2 c2 parts2 ys n2 t2 Hc2 Hl2|g2 c2 parts2 ys y Hc2 Ho Hk].
  - destruct xs; discriminate.
  - destruct xs as [|s [|s2 xs]]; [congruence|discriminate|discriminate].
  - specialize (K _ _ _ Hc2). assert (Hne : parts2 <> []) by (intros ->; inversion Hl2). rewrite (proj2 (coll_get_coll c2 parts2 c3 Hne) Hl2) in K. discriminate.
  - specialize (K _ _ _ Hc2). rewrite (proj2 (coll_get_thing c2 parts2 t2) (ex_intro _ n2 Hl2)) in K. discriminate.
  - specialize (K _ _ _ Hc2). assert (coll_get c2 parts2 = Ok FOther) by (apply coll_get_other; now rewrite (own_last _ _ _ Ho)). congruence.
Qed.

(** reading an attribute through the view of an item reads it from the loaded object *)
Lemma view_getattr_item u ua w sel path n below m t x : world_ok w -> make_selector w = Ok sel -> path_parts path = n :: below -> dget n w = Some m -> quiet m -> usable below -> item_of m below t ->
  (forall e, t <> TBroken e) -> accessible x ->
  view_getattr u ua sel path x w = (dset n (after_get u m (join sdot below)) w,
    match snd (runner_get (v_items m) u (join sdot below) (g_rs (v_gs m))) with
    | Raise e => Raise (lookup_error e)
    | Ok (GObj o) => match ua o x with UMissing => Raise AttributeError | _ => Ok (RAttr o x) end
    | Ok _ => Ok ROther
    end).
Proof.
  intros Hw Hs Hp Hn Hq Hu Hi Ht [Hx Hxi]. assert (Hm := world_mgr w n m Hw Hn).
  unfold make_selector in Hs. destruct (new_selector (smgrs w)) as [st|] eqn:Es; [|discriminate]. injection Hs as <-.
  unfold view_getattr, iv_getattr. cbn [vs_struct]. change iv_attrs with view_names. rewrite Hxi.
  assert (Sm : dget n (smgrs w) = Some (as_smgr m)) by (rewrite dget_smgrs, Hn; reflexivity).
  rewrite (proj2 (C54_contains (smgrs w) st (path ++ "." ++ x)%string n (below ++ [x]) (as_smgr m) true Hw Es (parts_snoc path x _ Hp Hx) Sm)) by (now apply below_item_not_standing with t).
  rewrite (real_item_of u w path n below m t Hw Hp Hn Hq Hu Hi Ht). destruct (snd (runner_get (v_items m) u (join sdot below) (g_rs (v_gs m)))) as [[o|gl|gd]|e]; reflexivity.
Qed.

(** raw strings *)
Lemma raw_body_read s rest : raw_body s -> read_raw false (s ++ String "'" rest) = Some (s, rest).
Proof.
  intros H. induction H as [|c s H1 H2 H3 H IH|c s H IH]; [reflexivity| |].
  - cbn [append read_raw]. apply Ascii.eqb_neq in H1. apply Ascii.eqb_neq in H3. rewrite H3, H1. cbn [andb]. apply Ascii.eqb_neq in H2. rewrite H2. cbn [negb andb]. now rewrite IH.
  - cbn [append read_raw negb andb]. change (Ascii.eqb "\" (Ascii.ascii_of_nat 10)) with false. change (Ascii.eqb "\" "'") with false. change (Ascii.eqb "\" "\") with true. cbn [andb negb].
    rewrite !andb_false_r. cbn [negb andb]. now rewrite IH.
Qed.
Lemma read_raw_body_n n : forall s, (String.length s <= n)%nat -> forall rest, read_raw false (s ++ String "'" rest) = Some (s, rest) -> raw_body s.
Proof.
  induction n as [|n IH]; intros s Hn rest H.
  - destruct s; [constructor|cbn in Hn; inversion Hn].
  - destruct s as [|c s]; [constructor|]. cbn [append read_raw negb] in H. rewrite !andb_true_r in H. destruct (Ascii.eqb c (Ascii.ascii_of_nat 10)) eqn:E1; [discriminate|].
    destruct (Ascii.eqb c "'") eqn:E2; [discriminate|]. cbn [andb] in H. destruct (Ascii.eqb c "\") eqn:E3.
    + apply Ascii.eqb_eq in E3. subst c. destruct s as [|c s].
      * cbn [append read_raw negb] in H. rewrite !andb_false_r in H. cbn [andb] in H. exfalso. destruct (read_raw false rest) as [[a b]|]; [|discriminate]. injection H as H _. discriminate.
      * cbn [append read_raw negb] in H. rewrite !andb_false_r in H. cbn [andb] in H.
        apply raw_pair. apply (IH s) with rest; [cbn in Hn; lia|].
        destruct (read_raw false (s ++ String "'" rest)) as [[a b]|]; [|discriminate]. injection H as -> ->. reflexivity.
    + apply Ascii.eqb_neq in E1. apply Ascii.eqb_neq in E2. apply Ascii.eqb_neq in E3. apply raw_char; auto.
      apply (IH s) with rest; [cbn in Hn; lia|]. destruct (read_raw false (s ++ String "'" rest)) as [[a b]|]; [|discriminate]. injection H as -> ->. reflexivity.
Qed.

From Verif Require Import Run_Proofs ConfigTree_Spec ConfigTree_Proofs RunnerOps_Proofs Run_Spec.
Lemma one_func_calls its path s s2 o : get_one_func_with_config its path s = (s2, o) -> r_calls s2 = r_calls s.
Proof.
  unfold get_one_func_with_config, bind at 1, gets. destruct (dget path (r_loaded s)) as [ob|]; [now intros [= <- _]|]. unfold bind at 1. assert (G := gfc_sr its path s).
  destruct (get_func_and_config its path s) as [s1 [[[f b] kw]|e]]; cbn [fst] in G; destruct G as (_ & _ & G & _); [|now intros [= <- _]]. cbn. now intros [= <- _].
Qed.
Lemma ready_calls its path s d s2 o : ready its path s d s2 o -> r_calls s2 = r_calls s.
Proof.
  intros (s1 & f & b & H1 & H2). apply one_func_calls in H2. rewrite H2. assert (G := gfc_sr its path s). rewrite H1 in G. cbn [fst] in G. apply G.
Qed.
Lemma ready_func its s path f : cms_wf (r_cms s) -> own_values (r_cms s) (path_parts path) <> None -> is_func its path f ->
  exists d s2 o, ready its path s d s2 o /\ dget path (r_loaded s2) = Some o.
Proof.
  intros W Ho Hf. destruct (own_values (r_cms s) (path_parts path)) as [own|] eqn:Eo; [|congruence]. assert (G := gfc_sr its path s). assert (G' := gfc_grows its path s).
  destruct (get_config_spec s path own W Eo) as (c & s1 & E & _). destruct (Hf) as (b & Hf').
  assert (Egfc : get_func_and_config its path s = (s1, Ok (f, false, for_function c (f_args f)))).
  { unfold get_func_and_config, bind. rewrite E. unfold lift. now rewrite Hf'. }
  rewrite Egfc in G, G'. cbn [fst] in G, G'. destruct G as (R1 & R2 & R3 & _). destruct (proj2 G' W) as (W1 & C1).
  destruct (dget path (r_loaded s)) as [ob|] eqn:El.
  - exists (for_function c (f_args f)), s1, ob. split; [|now rewrite R1]. exists s1, f, false. split; [exact Egfc|]. unfold get_one_func_with_config, bind, gets. now rewrite R1, El.
  - assert (Eo1 : own_values (r_cms s1) (path_parts path) <> None) by (apply C1; congruence).
    destruct (own_values (r_cms s1) (path_parts path)) as [own1|] eqn:Eo1'; [|congruence]. assert (El1 : dget path (r_loaded s1) = None) by now rewrite R1.
    destruct (first_access_func its s1 path own1 f W1 Eo1' Hf El1) as (s2 & kw & E2 & L2 & C2 & _).
    eexists _, s2, _. split; [exists s1, f, false; split; [exact Egfc|exact E2]|]. rewrite L2. apply dget_dset_eq.
Qed.

(** a run that is ready, up to the text *)
Lemma reported_ready u ua sel txt n m w path d s2 o w3 t : dget n w = Some m -> ready (v_items m) path (g_rs (v_gs m)) d s2 o ->
  kwarg_str u ua sel txt d (with_rs n m s2 w) = (w3, t) ->
  reported_run_func u ua sel txt n path w =
  match t with
  | Raise e => (w3, [], Raise e)
  | Ok t => let line := ("Running function " ++ path ++ "(" ++ t ++ ")")%string in
            match on_runner n (call_object u path o) w3 with
            | (w4, Raise e) => (w4, [line], Raise e)
            | (w4, Ok r) => match r with
                            | RVal v => match txt v with Ok t' => (w4, [line; ("Result:" ++ nl ++ t' ++ nl)%string], Ok r) | Raise e => (w4, [line], Raise e) end
                            | RList _ => (w4, [line], Ok r)
                            end
            end
  end.
Proof.
  intros Hn (s1 & f & b & H1 & H2) Hk. unfold reported_run_func. rewrite Hn, (on_runner_eq n _ m w s1 _ Hn H1).
  rewrite (on_runner_eq n _ _ _ s2 (Ok o) (dget_with_rs n m s1 w)) by exact H2. rewrite with_rs_with_rs, Hk. now destruct t.
Qed.
Lemma str_assoc a b c : ((a ++ b) ++ c)%string = (a ++ (b ++ c))%string.
Proof. induction a; cbn; [reflexivity|now f_equal]. Qed.
