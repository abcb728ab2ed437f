(** Two histories side by side (C92). *)
From Verif Require Import Isolation_Spec Config_Proofs ConfigTree_Proofs ConfigOps_Proofs ConfigLoad_Proofs ConfigWf_Proofs Runner_Proofs Run_Proofs SectionPath_Proofs RunnerOps_Proofs Isolation_Proofs.
From Coq Require Import Lia.
Local Open Scope string_scope.
Local Open Scope list_scope.
Local Open Scope monad_scope.

Section Twin.
Variables (base : string) (its : items) (u : user) (path : string).
Let p := path_parts path.

(** the two states do not differ in what matters for the item *)
Definition agree (a b : cms) : Prop :=
  cs_disk a = cs_disk b /\ target a p = Some (CItem p) /\ target b p = Some (CItem p) /\ see a p = see b p /\
  (forall r, near p r -> read_cref a r = read_cref b r).

Lemma agree_frame a b a' b' : agree a b -> cframe p a a' -> cframe p b b' -> agree a' b'.
Proof.
  intros (A1 & A2 & A3 & A4 & A5) (B1 & B2 & B3 & B4) (C1 & C2 & C3 & C4). split; [congruence|]. split; [congruence|]. split; [congruence|].
  split; [congruence|]. intros r N. rewrite B4, C4 by exact N. now apply A5.
Qed.

Lemma agree_touch r a b a' b' : agree a b -> touches r a a' -> touches r b b' ->
  (r = CItem p -> see a' p = see b' p) -> read_cref a' r = read_cref b' r -> agree a' b'.
Proof.
  intros (A1 & A2 & A3 & A4 & A5) Ta Tb Hs Hr. assert (Ta' := Ta). assert (Tb' := Tb).
  destruct Ta' as (B1 & B2 & _ & B4). destruct Tb' as (C1 & C2 & _ & C4). split; [congruence|].
  split; [now rewrite B1|]. split; [now rewrite C1|]. split.
  - destruct (cref_eq_dec r (CItem p)) as [E|N]; [now apply Hs|]. rewrite B2, C2 by congruence. exact A4.
  - intros r' N. destruct (cref_eq_dec r' r) as [->|Ne]; [exact Hr|].
    rewrite (touches_read _ _ _ _ Ta Ne), (touches_read _ _ _ _ Tb Ne). now apply A5.
Qed.

Definition tw {A} (m : M cms A) (a b : cms) : Prop := agree (fst (m a)) (fst (m b)) /\ snd (m a) = snd (m b).

Lemma tw_ret {A} (x : A) a b : agree a b -> tw (ret x) a b. Proof. intro H. now split. Qed.
Lemma tw_raise {A} e a b : agree a b -> tw (raise e : M cms A) a b. Proof. intro H. now split. Qed.
Lemma tw_lift {A} (r : res A) a b : agree a b -> tw (lift r) a b. Proof. intro H. now split. Qed.
Lemma tw_emit e a b : agree a b -> tw (emit e) a b.
Proof. intro H. split; [exact H|reflexivity]. Qed.
Lemma tw_bind {A B} (m : M cms A) (f : A -> M cms B) a b : tw m a b ->
  (forall x a' b', m a = (a', Ok x) -> m b = (b', Ok x) -> agree a' b' -> tw (f x) a' b') -> tw (bind m f) a b.
Proof.
  intros (H1 & H2) K. unfold tw, bind. destruct (m a) as [a' o] eqn:Ea, (m b) as [b' o'] eqn:Eb. cbn [fst snd] in *. subst o'.
  destruct o as [x|e]; [|now split]. exact (K x a' b' eq_refl eq_refl H1).
Qed.
Lemma tw_deref r a b : near p r -> agree a b -> tw (deref r) a b.
Proof.
  intros N H. unfold tw, deref. destruct H as (A1 & A2 & A3 & A4 & A5). rewrite (A5 r N).
  destruct (read_cref b r); split; try reflexivity; repeat (split; [assumption|]); assumption.
Qed.
Lemma deref_Ok r a a' c : deref r a = (a', Ok c) -> a' = a /\ read_cref a r = Some c.
Proof. unfold deref. destruct (read_cref a r); [|discriminate]. intros [= <- <-]. auto. Qed.

Lemma tw_write r c old a b : near p r -> agree a b -> read_cref a r = Some old -> c_name c = c_name old -> tw (write_cref r c) a b.
Proof.
  intros N H Ra Hn. assert (Rb : read_cref b r = Some old) by (rewrite <- Ra; symmetry; now apply H).
  destruct (write_spec a r c old Ra Hn) as (a' & Ea & Ta & Ra' & _). destruct (write_spec b r c old Rb Hn) as (b' & Eb & Tb & Rb' & _).
  unfold tw. rewrite Ea, Eb. cbn [fst snd]. split; [|reflexivity]. apply (agree_touch r a b); auto; [|congruence].
  intros ->. rewrite read_cref_see in Ra', Rb'. destruct (see a' p) as [[]|], (see b' p) as [[]|]; congruence.
Qed.

Lemma agree_current a b r : near p r -> agree a b -> current a r = current b r.
Proof.
  intros N (A1 & A2 & A3 & A4 & A5). assert (A := A5 r N). rewrite !read_cref_see in A. destruct r as [|q|q]; cbn [current near] in *; [exact A| |exact A].
  subst q. rewrite A4, A1. reflexivity.
Qed.

Lemma strict_section a q t : target a p = Some (CItem p) -> t <> [] -> p = q ++ t -> exists n own, see a q = Some (SSec n own).
Proof.
  intros T Nt E. unfold target in T. destruct (see a p) as [v|] eqn:S; [|discriminate]. exact (prefix_is_section a p q v S (ex_intro _ t (conj Nt E))).
Qed.

(** addressing the item or a section around it *)
Lemma tw_gf q t a b : p = q ++ t -> agree a b -> tw (gf q) a b /\ (forall a' r, gf q a = (a', Ok (Some r)) -> near p r).
Proof.
  intros E H. assert (H' := H). destruct H' as (A1 & A2 & A3 & A4 & A5). destruct t as [|x t].
  - rewrite app_nil_r in E. subst q. split.
    2:{ intros a' r G. apply gf_spec in G as (G & _). rewrite A2 in G. injection G as <-. reflexivity. }
    assert (A2' := A2). unfold target in A2'. destruct (see a p) as [[c|ref n|n own|c]|] eqn:Sa; try discriminate.
    + symmetry in A4. destruct (gf_conf a p c Sa) as (a' & Ea & (La & Da & _) & Sa'), (gf_conf b p c A4) as (b' & Eb & (Lb & Db & _) & Sb').
      unfold tw. rewrite Ea, Eb. cbn [fst snd]. split; [|reflexivity]. split; [congruence|].
      split; [unfold target; now rewrite Sa', Sa|]. split; [unfold target; now rewrite Sb', A4|]. split; [now rewrite Sa', Sb', Sa|].
      intros r N. assert (R := A5 r N). rewrite !read_cref_see in *. destruct r as [|q|q]; [congruence| |]; now rewrite Sa', Sb'.
    + symmetry in A4. destruct (read_file (cs_disk a) ref) as [content|e] eqn:F.
      * assert (F' : read_file (cs_disk b) ref = Ok content) by (now rewrite <- A1).
        destruct (gf_file a p ref n content Sa F) as (a' & Ea & (La & Da & _) & Sa' & Oa), (gf_file b p ref n content A4 F') as (b' & Eb & (Lb & Db & _) & Sb' & Ob).
        unfold tw. rewrite Ea, Eb. cbn [fst snd]. split; [|reflexivity]. split; [congruence|].
        split; [unfold target; now rewrite Sa'|]. split; [unfold target; now rewrite Sb'|]. split; [now rewrite Sa', Sb'|].
        intros r N. assert (R := A5 r N). rewrite !read_cref_see in *. destruct r as [|q|q]; [congruence| |].
        -- cbn [near] in N. subst q. now rewrite Sa', Sb'.
        -- destruct N as (t & Nt & N). assert (q <> p). { intros ->. symmetry in N. revert N. now apply app_neq_strict. }
           now rewrite Oa, Ob by assumption.
      * assert (F' : read_file (cs_disk b) ref = Raise e) by (now rewrite <- A1).
        unfold tw. rewrite (gf_file_err a p ref n e Sa F), (gf_file_err b p ref n e A4 F'). now split.
  - assert (Nt : x :: t <> []) by discriminate. destruct (strict_section a q _ A2 Nt E) as (n & own & Sa). destruct (strict_section b q _ A3 Nt E) as (n' & own' & Sb).
    assert (N : near p (CSec q)) by (exists (x :: t); auto). assert (R := A5 _ N). rewrite !read_cref_see, Sa, Sb in R. subst own'.
    split.
    + unfold tw. rewrite (gf_sec a q n own Sa), (gf_sec b q n' own Sb). now split.
    + intros a' r G. rewrite (gf_sec a q n own Sa) in G. destruct own; [|discriminate]. injection G as _ <-. exact N.
Qed.

Definition around_opt (q : option string) : Prop := match q with Some q => around path q | None => True end.
Lemma tw_stored q a b : around_opt q -> agree a b -> tw (stored_config q) a b /\ (forall a' r, stored_config q a = (a', Ok (Some r)) -> near p r).
Proof.
  intros A H. destruct q as [q|]; cbn [stored_config around_opt] in *.
  - destruct A as (t & E). exact (tw_gf _ t a b E H).
  - split; [now apply tw_ret|]. intros a' r [= _ <-]. exact I.
Qed.

Lemma tw_update d q persist kw a b : around_opt q -> agree a b ->
  tw (cm_update d q persist kw) a b /\ (forall a' r x, cm_update d q persist kw a = (a', Ok (r, x)) -> near p r).
Proof.
  intros A H. destruct (tw_stored q a b A H) as (S & N). split.
  - unfold cm_update. apply tw_bind; [exact S|]. intros [r|] a1 b1 E1 E1' H1; [|now apply tw_raise]. specialize (N _ _ E1).
    apply tw_bind; [now apply tw_deref|]. intros c a2 b2 E2 E2' _. apply deref_Ok in E2 as (-> & R), E2' as (-> & _).
    destruct (dmem "config_" kw); [now apply tw_raise|]. cbn zeta. apply tw_bind; [now apply tw_lift|].
    intros w a3 b3 E3 E3' _. injection E3 as <- E3. injection E3' as <- _. destruct w; [|now apply tw_ret].
    apply tw_bind; [destruct q; [now apply tw_emit|now apply tw_ret]|]. intros ? a4 b4 E4 E4' H4.
    assert (R4 : read_cref a4 r = Some c) by (destruct q; injection E4 as <-; exact R).
    destruct (dmem "E" kw); [now apply tw_raise|]. apply tw_bind; [eapply tw_write; [exact N|exact H4|exact R4|reflexivity]|].
    intros. now apply tw_ret.
  - intros a' r x E. unfold cm_update, bind at 1 in E. destruct (stored_config q a) as [a1 [[r1|]|e]] eqn:E1; try discriminate.
    specialize (N _ _ eq_refl). unfold bind at 1 in E. destruct (deref r1 a1) as [a2 [c|]]; [|discriminate].
    destruct (dmem "config_" kw); [discriminate|]. cbn zeta in E. unfold bind at 1, lift in E.
    destruct (would_update c _ []) as [[]|]; [| |discriminate].
    2:{ injection E as _ <- _. exact N. }
    unfold bind at 1 in E. destruct (match q with Some p0 => emit _ | None => _ end a2) as [a3 [[]|]]; [|discriminate].
    destruct (dmem "E" kw); [discriminate|]. unfold bind at 1 in E. destruct (write_cref r1 _ a3) as [a4 [[]|]]; [|discriminate].
    injection E as _ <- _. exact N.
Qed.

Lemma tw_refresh q a b : around path q -> agree a b -> tw (cm_refresh q) a b.
Proof.
  intros A H. destruct (tw_stored (Some q) a b A H) as (S & N). unfold cm_refresh. apply tw_bind; [exact S|].
  intros [r|] a1 b1 E1 E1' H1; [|now apply tw_raise]. specialize (N _ _ E1).
  apply tw_bind; [now apply tw_deref|]. intros c a2 b2 E2 E2' _. apply deref_Ok in E2 as (-> & R), E2' as (-> & _).
  apply tw_bind.
  { unfold tw, reread. destruct (c_file c) as [ref|]; [|now split]. cbn [fst snd]. split; [exact H1|]. now rewrite (proj1 H1). }
  intros content a2 b2 E2 E2' H2. assert (a2 = a1) by (unfold reread in E2; destruct (c_file c); congruence).
  assert (b2 = b1) by (unfold reread in E2'; destruct (c_file c); congruence). subst a2 b2.
  apply tw_bind; [now apply tw_lift|]. intros ch a2 b2 E3 E3' _. injection E3 as <- _. injection E3' as <- _.
  destruct ch; [now apply tw_ret|]. apply tw_bind; [now apply tw_emit|]. intros ? a4 b4 E4 E4' H4.
  assert (R4 : read_cref a4 r = Some c) by (injection E4 as <-; exact R).
  apply tw_bind; [now apply tw_lift|]. intros [c' us] a5 b5 E5 E5' _. injection E5 as <- E5. injection E5' as <- _. cbn [fst snd].
  destruct (cfg_refresh_shape _ _ _ _ E5) as (_ & _ & Hn & _).
  apply tw_bind; [eapply tw_write; [exact N|exact H4|exact R4|exact Hn]|]. intros. now apply tw_ret.
Qed.

Lemma tw_update_from src a b : (forall r, src = Some r -> near p r) -> agree a b -> tw (update_from (CItem p) src) a b.
Proof.
  intros N H. assert (Nr : near p (CItem p)) by reflexivity. unfold tw, update_from.
  assert (R := proj2 (proj2 (proj2 (proj2 H))) _ Nr). rewrite <- R. destruct (read_cref a (CItem p)) as [c|] eqn:Ra; [|now split].
  assert (X : match src with None => None | Some r => match read_cref b r with Some c' => Some (c_vals c') | None => None end end =
              match src with None => None | Some r => match read_cref a r with Some c' => Some (c_vals c') | None => None end end).
  { destruct src as [r|]; [|reflexivity]. assert (R' := proj2 (proj2 (proj2 (proj2 H))) r (N r eq_refl)). now rewrite R'. }
  rewrite X. apply (tw_write _ _ c a b Nr H Ra). reflexivity.
Qed.
Lemma tw_chain l : forall a b, (forall r, In (Some r) l -> near p r) -> agree a b -> tw (iterM (update_from (CItem p)) l) a b.
Proof.
  induction l as [|s l IH]; intros a b N H; cbn [iterM]; [now apply tw_ret|]. apply tw_bind.
  - apply tw_update_from; [|exact H]. intros r ->. apply N. now left.
  - intros y a' b' _ _ H'. apply IH; [|exact H']. intros r Hr. apply N. now right.
Qed.

Lemma sec_ref_agree a b q t : agree a b -> t <> [] -> p = q ++ t -> sec_ref a q = sec_ref b q.
Proof.
  intros H Nt E. destruct H as (A1 & A2 & A3 & A4 & A5). assert (N : near p (CSec q)) by (exists t; auto). assert (R := A5 _ N). rewrite !read_cref_see in R.
  destruct (strict_section a q _ A2 Nt E) as (n & own & Sa). destruct (strict_section b q _ A3 Nt E) as (n' & own' & Sb).
  unfold sec_ref. rewrite Sa, Sb in *. now subst own'.
Qed.
Lemma sec_ref_near s q t r : t <> [] -> p = q ++ t -> sec_ref s q = Some r -> near p r.
Proof. intros Nt E R. unfold sec_ref in R. destruct (see s q) as [[c|ref n|n [c|]|c]|]; try discriminate. injection R as <-. exists t. auto. Qed.

Lemma tw_get a b : agree a b -> tw (cm_get path) a b /\ (forall a' r, cm_get path a = (a', Ok (Some r)) -> r = CItem p).
Proof.
  intro H. destruct (tw_gf p [] a b ltac:(symmetry; apply app_nil_r) H) as (S & _). rewrite cm_get_tail. fold p.
  assert (Np : p <> []) by apply path_parts_nonempty.
  assert (Pr : forall s, target s p = Some (CItem p) -> exists v, see s p = Some v /\ forall n o, v <> SSec n o).
  { intros s T. unfold target in T. destruct (see s p) as [[]|]; try discriminate; (eexists; split; [reflexivity|discriminate]). }
  assert (Tail : forall s cfg, target s p = Some (CItem p) -> get_tail p cfg s =
     (match cfg with
     | None => ret None
     | Some r => c <- deref r ;;
        match c_vals c with
        | [] => ret (Some r)
        | _ :: _ => iterM (update_from r) (sec_ref s [] :: map (sec_ref s) (prefixes p)) ;;; update_from r (Some CLocal) ;;; ret (Some r)
        end
     end) s).
  { intros s cfg T. destruct (Pr s T) as (v & Sv & Nv). destruct (get_tail_chain s p v cfg Sv) as (own & -> & ->).
    destruct v as [c|ref n|n o|c]; try (now elim (Nv n o)); now rewrite app_nil_r. }
  split.
  - apply tw_bind; [exact S|]. intros cfg a1 b1 E1 E1' H1.
    assert (T1 := proj1 (proj2 H1)). assert (T1' := proj1 (proj2 (proj2 H1))).
    assert (Q : sec_ref a1 [] :: map (sec_ref a1) (prefixes p) = sec_ref b1 [] :: map (sec_ref b1) (prefixes p)).
    { f_equal; [exact (sec_ref_agree a1 b1 [] p H1 Np eq_refl)|]. apply map_ext_in. intros q Hq. apply prefixes_in in Hq as (_ & t & Nt & E).
      exact (sec_ref_agree a1 b1 q t H1 Nt E). }
    assert (NQ : forall r, In (Some r) (sec_ref a1 [] :: map (sec_ref a1) (prefixes p)) -> near p r).
    { intros r [Hr|Hr]; [exact (sec_ref_near a1 [] p r Np eq_refl Hr)|]. apply in_map_iff in Hr as (q & Hr & Hq). apply prefixes_in in Hq as (_ & t & Nt & E).
      exact (sec_ref_near a1 q t r Nt E Hr). }
    unfold tw. rewrite (Tail a1 cfg T1), (Tail b1 cfg T1'). rewrite <- Q. change (tw (match cfg with
     | None => ret None
     | Some r => c <- deref r ;;
        match c_vals c with
        | [] => ret (Some r)
        | _ :: _ => iterM (update_from r) (sec_ref a1 [] :: map (sec_ref a1) (prefixes p)) ;;; update_from r (Some CLocal) ;;; ret (Some r)
        end
     end) a1 b1).
    destruct cfg as [r|]; [|now apply tw_ret]. assert (r = CItem p).
    { change (gf p a = (a1, Ok (Some r))) in E1. apply gf_spec in E1 as (E1 & _). rewrite (proj1 (proj2 H)) in E1. congruence. }
    subst r. apply tw_bind; [apply tw_deref; [reflexivity|exact H1]|]. intros c a2 b2 E2 E2' _. apply deref_Ok in E2 as (-> & R), E2' as (-> & _).
    destruct (c_vals c); [now apply tw_ret|]. apply tw_bind; [now apply tw_chain|]. intros ? a3 b3 _ _ H3.
    apply tw_bind; [apply tw_update_from; [|exact H3]; intros r [= <-]; exact I|]. intros ? a4 b4 _ _ H4. now apply tw_ret.
  - intros a' r E. unfold bind at 1 in E. destruct (get_func_or_section_configs p a) as [a1 [cfg|e]] eqn:E1; [|discriminate].
    assert (G := gf_spec a p a1 _ E1). destruct cfg as [r1|]; [|destruct G as (_ & n & G); unfold target in H; destruct H as (_ & T & _); unfold target in T; rewrite G in T; discriminate].
    destruct G as (G & Tc & _). rewrite (proj1 (proj2 H)) in G. injection G as <-.
    assert (T1 : target a1 p = Some (CItem p)) by (rewrite (proj1 Tc); exact (proj1 (proj2 H))).
    rewrite (Tail a1 _ T1) in E. unfold bind at 1 in E. destruct (deref (CItem p) a1) as [a2 [c|]]; [|discriminate].
    destruct (c_vals c); [now injection E|]. unfold bind at 1 in E. destruct (iterM _ _ a2) as [a3 [[]|]]; [|discriminate].
    unfold bind at 1 in E. destruct (update_from (CItem p) (Some CLocal) a3) as [a4 [[]|]]; [|discriminate]. now injection E.
Qed.

Lemma tw_set_item c a b : agree a b -> tw (set_item p (NConf c)) a b.
Proof.
  intro H. assert (H' := H). destruct H' as (A1 & A2 & A3 & A4 & A5).
  assert (Pr : forall s, target s p = Some (CItem p) -> exists v, see s p = Some v /\ forall n o, v <> SSec n o).
  { intros s T. unfold target in T. destruct (see s p) as [[]|]; try discriminate; (eexists; split; [reflexivity|discriminate]). }
  destruct (Pr a A2) as (v & Sv & Nv), (Pr b A3) as (v' & Sv' & Nv').
  destruct (set_item_seen a p c v Sv Nv) as (a' & Ea & (La & Da & _) & Sa & Oa), (set_item_seen b p c v' Sv' Nv') as (b' & Eb & (Lb & Db & _) & Sb & Ob).
  unfold tw. rewrite Ea, Eb. cbn [fst snd]. split; [|reflexivity].
  apply (agree_touch (CItem p) a b); [exact H|eapply touches_item; eassumption|eapply touches_item; eassumption|congruence|].
  now rewrite !read_cref_see, Sa, Sb.
Qed.

Lemma tw_reset a b : agree a b -> tw (cm_reset base (Some path) false) a b.
Proof.
  intro H. unfold cm_reset. fold p.
  assert (D : forall s, target s p = Some (CItem p) -> default_for base s p false =
     match read_file (cs_disk s) (item_file p) with Ok content => Ok (DConf (loaded_config (last p "") (item_file p) content)) | Raise e => Raise e end).
  { intros s T. unfold default_for. unfold target, see in T. destruct (lookup_at s p) as [[]|]; try discriminate; reflexivity. }
  apply tw_bind.
  { split; [exact H|]. cbn [fst snd]. rewrite (D a), (D b) by apply H. now rewrite (proj1 H). }
  intros v a1 b1 E1 E1' H1. assert (V : exists c, v = DConf c).
  { injection E1 as <- E1. rewrite (D a) in E1 by apply H. destruct (read_file (cs_disk a) (item_file p)); [|discriminate]. injection E1 as <-. eauto. }
  destruct V as (c & ->). apply tw_bind; [|intros; now apply tw_ret]. clear a b H E1 E1' D. unfold tw, cm_set. fold p.
  destruct (tw_gf p [] a1 b1 ltac:(symmetry; apply app_nil_r) H1) as ((S1 & S2) & N). unfold gf in *.
  destruct (get_func_or_section_configs p a1) as [a2 o] eqn:Ea, (get_func_or_section_configs p b1) as [b2 o'] eqn:Eb. cbn [fst snd] in *. subst o'.
  assert (K : tw (set_func_or_section_config p (DConf c) false ;;; ret true) a2 b2).
  { apply tw_bind; [now apply tw_set_item|intros; now apply tw_ret]. }
  destruct o as [[r|]|e]; [|exact K|destruct e; try exact K; now split].
  specialize (N _ _ eq_refl).
  change (tw (c0 <- deref r ;; all_updates <- lift (value_as_kwargs (c_vals c)) ;; w <- lift (would_update c0 (Some all_updates) []) ;;
             if w then emit (EvPre path all_updates) ;;; set_func_or_section_config p (DConf c) false ;;; ret true else ret false) a2 b2).
  apply tw_bind; [now apply tw_deref|]. intros c0 a3 b3 E3 E3' H3. apply tw_bind; [now apply tw_lift|]. intros us a4 b4 _ _ H4.
  apply tw_bind; [now apply tw_lift|]. intros w a5 b5 _ _ H5. destruct w; [|now apply tw_ret].
  apply tw_bind; [now apply tw_emit|]. intros ? a6 b6 _ _ H6. apply tw_bind; [now apply tw_set_item|intros; now apply tw_ret].
Qed.
Lemma tw_reset_local ac a b : agree a b -> tw (cm_reset base None ac) a b.
Proof.
  intro H. unfold cm_reset. apply tw_bind; [|intros; now apply tw_ret]. split; [|reflexivity].
  apply (agree_touch CLocal a b); [exact H| | |discriminate|reflexivity]; (split; [reflexivity|]; split; [reflexivity|]; split; [congruence|reflexivity]).
Qed.
End Twin.
