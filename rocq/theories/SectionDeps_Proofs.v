(** Proofs for the configs of sections as dependents. *)
From Verif Require Import ConfigTree_Proofs ConfigOps_Proofs ConfigLoad_Proofs SectionDeps_Spec.
Local Open Scope string_scope.
Local Open Scope list_scope.
Local Open Scope monad_scope.

Lemma dir_ok_sub d x d' : dir_ok d -> dget x (dir_subs d) = Some d' -> dir_ok d'.
Proof. intros [files subs Wf Ws H] E. cbn [dir_subs] in E. apply dget_Some_In in E. exact (H x d' E). Qed.

Lemma last_any {A} (l : list A) a b : l <> [] -> last l a = last l b.
Proof. induction l as [|x [|y l] IH]; intros N; [contradiction|reflexivity|]. apply IH. discriminate. Qed.

(** sections of a tree made from files are made from folders *)
Lemma nested_from_files p : forall reserved name rel d s s', dir_ok d -> from_files name rel d = Ok s -> get_nested reserved s p = Ok (LSec s') ->
  exists d', find_dir d p = Some d' /\ dir_ok d' /\ from_files (last p name) (rel ++ p) d' = Ok s'.
Proof.
  induction p as [|x p IH]; intros reserved name rel d s s' Hd F G; cbn [get_nested] in G.
  - injection G as <-. exists d. rewrite app_nil_r. auto.
  - destruct (from_files_inv _ _ _ _ F) as (secs & Hs & E). inversion Hd as [files subs Wf Ws Hsub E0]; subst d; cbn [dir_subs dir_files] in *.
    assert (X : exists d1 s1, dget x subs = Some d1 /\ from_files x (rel ++ [x]) d1 = Ok s1 /\ get_nested sec_reserved s1 p = Ok (LSec s')).
    { assert (L : forall l parts, leaf_getattrs l parts = Ok (LSec s') -> (forall z, l <> LSec z) -> False).
      { intros l parts H N. apply leaf_getattrs_real in H as [_ H]; [|discriminate]. now destruct (N s'). }
      destruct (sec_getattr reserved s x) as [l|e] eqn:A; [|discriminate]. destruct l; try (exfalso; eapply L; [exact G|discriminate]).
      subst s. unfold sec_getattr in A. destruct (mem x reserved); [discriminate|]. cbn [s_attrs dget] in A. unfold own_config_named in A. cbn [s_cfg] in A.
      assert (B : (match last_named x (s_items (Sec name (folder_config name rel (Dir files subs)) [] (file_nodes rel files ++ secs))) with
                   | Some n => Ok (node_lookup (folder_config name rel (Dir files subs)) n) | None => Raise KeyError end) = Ok (LSec s0)).
      { destruct (folder_config name rel (Dir files subs)) as [c|]; [|exact A]. match type of A with match (if ?b then _ else _) with _ => _ end = _ => destruct b end; [discriminate|exact A]. }
      clear A. cbn [s_items] in B. rewrite last_named_app in B. pose proof (sub_sections_named rel subs secs x Ws Hs) as N.
      destruct (if hidden x then None else dget x subs) as [d1|] eqn:E1.
      - destruct N as (s1 & F1 & E2). rewrite E2 in B. cbn [node_lookup] in B. injection B as <-. exists d1, s1. split; [destruct (hidden x); [discriminate|exact E1]|]. now split.
      - rewrite N, file_nodes_named in B. destruct (String.eqb x "section"); [discriminate|]. destruct (dmem (x ++ ".py") files); discriminate. }
    destruct X as (d1 & s1 & E1 & F1 & G1). destruct (IH sec_reserved x (rel ++ [x]) d1 s1 s') as (d' & A & B & C); [exact (Hsub x d1 (dget_Some_In _ _ _ E1))|exact F1|exact G1|].
    exists d'. cbn [find_dir dir_subs]. rewrite E1. split; [exact A|]. split; [exact B|]. rewrite <- app_assoc in C. destruct p as [|y p]; [exact C|]. change (last (x :: y :: p) name) with (last (y :: p) name). now rewrite (last_any (y :: p) name x) by discriminate.
Qed.

Lemma section_child name rel d s : dir_ok d -> from_files name rel d = Ok s ->
  sec_getattr sec_reserved s "section" =
  match (if String.eqb name "section" then s_cfg s else None) with
  | Some c => Ok (LSelf c)
  | None => match dget "section" (dir_subs d) with
            | Some d' => match from_files "section" (rel ++ ["section"]) d' with Ok s' => Ok (LSec s') | Raise e => Raise e end
            | None => Raise KeyError
            end
  end.
Proof.
  intros Hd F. destruct (from_files_inv _ _ _ _ F) as (secs & Hs & ->). destruct Hd as [files subs Wf Ws Hsub]. cbn [dir_subs dir_files] in *.
  unfold sec_getattr. change (mem "section" sec_reserved) with false. cbv iota. cbn [s_attrs s_cfg s_items dget]. unfold own_config_named. cbn [s_cfg].
  pose proof (sub_sections_named rel subs secs "section" Ws Hs) as N. change (hidden "section") with false in N. cbv iota in N.
  assert (B : match last_named "section" (file_nodes rel files ++ secs) with
              | Some n => Ok (node_lookup (folder_config name rel (Dir files subs)) n) | None => Raise KeyError end =
              match dget "section" subs with
              | Some d' => match from_files "section" (rel ++ ["section"]) d' with Ok s' => Ok (LSec s') | Raise e => Raise e end
              | None => Raise KeyError
              end).
  { rewrite last_named_app. destruct (dget "section" subs) as [d'|].
    - destruct N as (s' & F1 & E2). now rewrite E2, F1.
    - rewrite N, file_nodes_named. reflexivity. }
  destruct (folder_config name rel (Dir files subs)) as [c|] eqn:Ec; [|destruct (String.eqb name "section"); exact B].
  rewrite (folder_config_name _ _ _ _ Ec). rewrite (String.eqb_sym name). destruct (String.eqb "section" name); [reflexivity|exact B].
Qed.

Lemma field_other st p x : p <> [] -> x <> "config" -> field_ref st (p ++ [x]) = None.
Proof.
  intros N Nx. assert (C : config_field st (p ++ [x]) = None). { unfold config_field. rewrite last_last. apply String.eqb_neq in Nx. now rewrite Nx. }
  unfold field_ref. destruct p as [|y [|z p]]; [contradiction|exact C|exact C].
Qed.

Lemma refreshes_fail U files forced order n : forall l w w' e, iterM (refresh_path U files forced order n) l w = (w', Raise e) ->
  e = RecursionError \/ exists full w1, on_mgr U files (manager_of (mk_sp full)) (fun p u => runner_refresh_at u (relative (mk_sp full))) w1 = (w', Raise e).
Proof.
  induction n as [|n IHn]; induction l as [|x l IH]; intros w w' e H; cbn [iterM] in H; try discriminate; unfold bind in H.
  - cbn [refresh_path] in H. injection H as _ <-. now left.
  - destruct (refresh_path U files forced order (S n) x w) as [w1 [[]|e1]] eqn:R; [exact (IH w1 w' e H)|]. injection H as -> ->.
    cbn [refresh_path] in R. unfold bind in R. destruct (on_mgr U files _ _ w) as [w2 [b|e2]] eqn:O.
    + destruct b; [|discriminate]. exact (IHn _ _ _ _ R).
    + injection R as -> ->. right. eauto.
Qed.
