(** Proofs for C95. *)
From Verif Require Import LastSet_Spec Iterate_Spec Config_Proofs ConfigTree_Proofs ConfigOps_Proofs ConfigLoad_Proofs ConfigWf_Proofs Runner_Proofs Run_Proofs SectionPath_Proofs RunnerOps_Proofs Iterate_Proofs Isolation_Proofs IsolationTwin_Proofs IsolationRun_Proofs.
From Coq Require Import Lia.
Local Open Scope string_scope.
Local Open Scope list_scope.
Local Open Scope monad_scope.

(** * Values *)
Lemma dupdate_other {A} (e d : dict A) k : dget k e = None -> dget k (dupdate d e) = dget k d.
Proof.
  revert d. induction e as [|[x v] e IH]; intros d H; [reflexivity|]. cbn [dget] in H. destruct (String.eqb_spec k x) as [->|N]; [discriminate|].
  change (dget k (dupdate (dset x v d) e) = dget k d). rewrite IH by exact H. now apply dget_dset_neq.
Qed.
Lemma ddel_none {A} (d : dict A) k x : dget k d = None -> dget k (ddel x d) = None.
Proof.
  induction d as [|[y w] d IH]; [reflexivity|]. cbn [dget ddel]. destruct (String.eqb_spec k y) as [->|N]; [discriminate|]. intro H.
  destruct (String.eqb_spec x y); [exact H|]. cbn [dget]. destruct (String.eqb_spec k y); [congruence|]. now apply IH.
Qed.
Lemma gives_all k d kw : dwf kw -> gives k d kw = dget k (dupdate (opt_dict d) kw).
Proof. intro W. rewrite dget_dupdate by exact W. unfold gives. destruct (dget k kw); [reflexivity|]. now destruct d. Qed.
Lemma updated_other c d persist kw k : dwf kw -> dwf (opt_dict d) -> gives k d kw = None ->
  dget k (c_vals (cfg_update c d persist kw)) = dget k (c_vals c) /\ dget k (c_applied (cfg_update c d persist kw)) = dget k (c_applied c).
Proof.
  intros Wk Wd G. assert (G' := G). rewrite gives_all in G' by exact Wk. unfold gives in G. destruct (dget k kw) eqn:E; [discriminate|].
  assert (Ed : dget k (opt_dict d) = None) by now destruct d. cbn [cfg_update c_vals c_applied]. rewrite !dupdate_other by assumption.
  split; [reflexivity|]. destruct persist; [|reflexivity]. now apply dupdate_other.
Qed.
Lemma updated_here c d persist kw k v : dwf kw -> dwf (opt_dict d) -> gives k d kw = Some v ->
  dget k (c_vals (cfg_update c d persist kw)) = Some v /\ (persist = true -> dget k (c_applied (cfg_update c d persist kw)) = Some v).
Proof.
  intros Wk Wd G. assert (G' := G). rewrite gives_all in G' by exact Wk. unfold gives in G. cbn [cfg_update c_vals c_applied]. split.
  - rewrite !dget_dupdate by assumption. destruct (dget k kw); [exact G|]. destruct d; [|discriminate]. cbn [opt_dict]. now rewrite G.
  - intros ->. rewrite dget_dupdate by now apply dupdate_wf. now rewrite G'.
Qed.
Lemma same_sym x y : same_value x y -> same_value y x. Proof. unfold same_value. auto. Qed.
Lemma same_trans x y z : same_value x y -> same_value y z -> same_value x z. Proof. unfold same_value. congruence. Qed.
Lemma same_refl x : same_value x x. Proof. reflexivity. Qed.

(** the config of a section around stays silent *)
Lemma silent_update k disk c d persist kw c' b : dwf kw -> dwf (opt_dict d) -> gives k d kw = None ->
  cfg_checked_update c d persist kw = Ok (c', b) -> silent k disk c -> silent k disk c'.
Proof.
  intros Wk Wd G H (S1 & S2 & S3). destruct (checked_update_inv _ _ _ _ _ _ H) as [(_ & ->)|(_ & ->)]; [now repeat split|].
  destruct (updated_other c d persist kw k Wk Wd G) as (E1 & E2). split; [congruence|]. split; [congruence|]. exact S3.
Qed.
Lemma checked_refresh_inv c content c' b ups : cfg_checked_refresh c content = Ok (c', b, ups) ->
  c' = c \/ exists us, c' = cfg_update c None false us /\ (us = refresh_updates c content \/ us = ddel "E" (refresh_updates c content)).
Proof.
  unfold cfg_checked_refresh. destruct (change_from_refresh c content) as [[|x l]|]; try discriminate; [intros [= <- _ _]; now left|].
  unfold cfg_refresh. destruct (dmem "self" _ || dmem "pyfileconf_persist" _)%bool; [discriminate|].
  destruct (dget "E" (refresh_updates c content)) as [[]|]; try discriminate; intros [= <- _ _]; right; eauto.
Qed.
Lemma silent_refresh k disk c content ref c' b ups : c_file c = Some ref -> read_file disk ref = Ok content ->
  cfg_checked_refresh c content = Ok (c', b, ups) -> silent k disk c -> silent k disk c'.
Proof.
  intros F R H (S1 & S2 & S3). destruct (checked_refresh_inv _ _ _ _ _ H) as [->|(us & -> & Hu)]; [now repeat split|].
  assert (G : dget k us = None).
  { assert (X : dget k (refresh_updates c content) = None) by (unfold refresh_updates; rewrite dupdate_other by exact S2; eauto).
    destruct Hu as [->| ->]; [exact X|now apply ddel_none]. }
  split; [|split; [exact S2|exact S3]]. cbn [cfg_update c_vals opt_dict]. rewrite dupdate_nil_r. now rewrite dupdate_other.
Qed.

(** * The configs *)
Section Item.
Variables (kept : bool) (base : string) (its : items) (u : user) (path k : string) (x : callable) (content : dict pyval) (file : pyval).
Let p := path_parts path.

Definition cok (e : pyval) (st : cms) : Prop :=
  (exists c v, current st (CItem p) = Some c /\ c_file c = Some (item_file p) /\ dget k (c_vals c) = Some v /\ same_value v e /\
     (kept = true -> match dget k (c_applied c) with Some w => same_value w e | None => same_value file e end)) /\
  unset_around k p st /\ read_file (cs_disk st) (item_file p) = Ok content.

Lemma unset_own st st' : touches (CItem p) st st' -> unset_around k p st -> unset_around k p st'.
Proof.
  intros T (U1 & U2). assert (T' := T). destruct T' as (_ & _ & L & D). unfold unset_around. rewrite L by discriminate. rewrite D. split; [exact U1|]. intros q t c Eq Nt Hc. apply (U2 q t c Eq Nt). rewrite <- Hc. symmetry.
  apply (touches_current _ _ _ _ T). discriminate.
Qed.
Lemma unset_layers st L : unset_around k p st -> In L (overriding_layers st p) -> dget k L = None.
Proof.
  intros (U1 & U2) I. unfold overriding_layers in I. destruct I as [<-|I]; [apply U1|].
  assert (S : exists q t, p = q ++ t /\ t <> [] /\ L = section_values st q).
  { apply in_app_or in I as [I|[<-|[]]].
    - apply in_map_iff in I as (q & <- & I). apply in_rev in I. apply prefixes_in in I as (_ & t & Nt & Eq). eauto 6.
    - exists [], p. split; [reflexivity|]. split; [apply path_parts_nonempty|reflexivity]. }
  destruct S as (q & t & Eq & Nt & ->). rewrite section_values_read. destruct (read_cref st (CSec q)) as [c|] eqn:R; [|reflexivity].
  apply read_current in R. exact (proj1 (U2 q t c Eq Nt R)).
Qed.
Lemma effective_unset st own v : unset_around k p st -> dget k own = Some v -> effective st p own k = Some v.
Proof.
  intros U H. unfold effective. destruct own as [|a own]; [discriminate|]. rewrite first_of_app.
  assert (E : first_of k (overriding_layers st p) = None).
  { assert (X := fun L => unset_layers st L U). induction (overriding_layers st p) as [|L l IH]; [reflexivity|]. cbn [first_of].
    rewrite (X L (or_introl eq_refl)). apply IH. intros L' I. apply X. now right. }
  rewrite E. cbn [first_of]. now rewrite H.
Qed.

(** the item's config changes *)
Lemma cok_own st st' c' v e e' : cok e st -> touches (CItem p) st st' -> current st' (CItem p) = Some c' -> c_file c' = Some (item_file p) ->
  dget k (c_vals c') = Some v -> same_value v e' ->
  (kept = true -> match dget k (c_applied c') with Some w => same_value w e' | None => same_value file e' end) -> cok e' st'.
Proof.
  intros (_ & U & R) T Hc F Hk S K. split; [exists c', v; auto|]. split; [eapply unset_own; eassumption|]. destruct T as (_ & _ & _ & ->). exact R.
Qed.
Lemma cok_same st st' c e : cok e st -> touches (CItem p) st st' -> current st (CItem p) = Some c -> current st' (CItem p) = Some c -> cok e st'.
Proof.
  intros H T Hc Hc'. assert (H' := H). destruct H' as ((c0 & v & A1 & A2 & A3 & A4 & A5) & _). assert (c0 = c) by congruence. subst c0.
  eapply cok_own; eassumption.
Qed.
(** one of those around it does *)
Lemma cok_around st st' r e : cok e st -> touches r st st' -> near p r -> r <> CItem p ->
  (forall c', current st' r = Some c' -> silent k (cs_disk st) c') -> cok e st'.
Proof.
  intros ((c & v & A1 & A) & (U1 & U2) & R) T N Nr S. assert (D : cs_disk st' = cs_disk st) by apply T.
  split; [|split; [|now rewrite D]].
  - exists c, v. split; [|exact A]. rewrite <- A1. apply (touches_current _ _ _ _ T). congruence.
  - unfold unset_around. rewrite D. split.
    + destruct (cref_eq_dec r CLocal) as [->|Nl]; [now apply S|]. destruct T as (_ & _ & L & _). rewrite L by exact Nl. exact U1.
    + intros q t c' Eq Nt Hc. destruct (cref_eq_dec r (CSec q)) as [->|Nq]; [now apply S|]. apply (U2 q t c' Eq Nt). rewrite <- Hc. symmetry.
      apply (touches_current _ _ _ _ T). congruence.
Qed.
(** nothing does *)
Lemma cok_frame st st' e : target st p = Some (CItem p) -> cok e st -> cframe p st st' -> cok e st'.
Proof.
  intros Ht ((c & v & A1 & A) & (U1 & U2) & R) (D & T & Sp & N). split; [|split; [|now rewrite D]].
  - exists c, v. split; [|exact A]. rewrite <- A1. cbn [current]. now rewrite Sp, D.
  - unfold unset_around. rewrite D. split.
    + assert (L := N CLocal I). cbn [read_cref] in L. injection L as ->. exact U1.
    + intros q t c' Eq Nt Hc. apply (U2 q t c' Eq Nt). assert (L := N (CSec q) (ex_intro _ t (conj Nt Eq))).
      rewrite !read_cref_see in L. cbn [current] in *. destruct (see st' q) as [[]|], (see st q) as [[]|]; cbn in *; congruence.
Qed.

(** looking the config up *)
Lemma merge_applied st q c : q <> CItem p -> dget k (layer st (CItem p) (Some q)) = None ->
  dget k (c_applied (merge_from st (CItem p) c (Some q))) = dget k (c_applied c).
Proof.
  intros Nq H. unfold merge_from, cfg_update. cbn [c_applied]. rewrite dupdate_nil_r. unfold layer in H. cbn [source_vals].
  destruct (cref_eq_dec q (CItem p)); [contradiction|]. destruct (read_cref st q); [|reflexivity]. cbn [opt_dict]. now apply dupdate_other.
Qed.
Lemma chain_applied st chain : (forall q, In q chain -> exists q', q = sec_ref st q' /\ dget k (section_values st q') = None) ->
  forall c, dget k (c_applied (fold_left (merge_from st (CItem p)) chain c)) = dget k (c_applied c).
Proof.
  induction chain as [|q chain IH]; intros H c; [reflexivity|]. cbn [fold_left]. rewrite IH by (intros; apply H; now right).
  destruct (H q (or_introl eq_refl)) as (q' & -> & E). assert (L := layer_sec_ref st (CItem p) q').
  destruct (cref_eq_dec (CSec q') (CItem p)); [discriminate|]. unfold sec_ref in *. destruct (see st q') as [[| |? [|]|]|]; try reflexivity.
  apply merge_applied; [discriminate|]. now rewrite L.
Qed.
Lemma get_applied st st' o c c' : target st p = Some (CItem p) -> current st (CItem p) = Some c -> cm_get path st = (st', o) ->
  read_cref st' (CItem p) = Some c' -> unset_around k p st -> dget k (c_applied c') = dget k (c_applied c).
Proof.
  intros Ht Hc H Hr U. rewrite cm_get_tail in H. fold p in H. unfold bind at 1 in H. destruct (get_func_or_section_configs p st) as [s1 o1] eqn:E1.
  assert (G := gf_spec st p s1 o1 E1). destruct o1 as [[r|]|e].
  - destruct G as (Ht' & T1 & L1 & Tr1 & Hl & c0 & Hc0 & Hr1). rewrite Ht in Ht'. injection Ht' as <-. rewrite Hc in Hc0. injection Hc0 as <-.
    assert (U1 := unset_own _ _ T1 U). destruct (see s1 p) as [v|] eqn:Ev.
    2:{ rewrite read_cref_see, Ev in Hr1. discriminate. }
    destruct (get_tail_chain s1 p v (Some (CItem p)) Ev) as (own & Et & Hown). rewrite Et in H.
    unfold bind at 1 in H. rewrite (deref_read _ _ _ Hr1) in H. destruct (c_vals c).
    + injection H as <- _. congruence.
    + assert (Hv : own = []) by (rewrite read_cref_see, Ev in Hr1; destruct v; try discriminate; exact Hown). subst own. rewrite Hv, app_nil_r in H.
      destruct (chain_spec s1 (CItem p) (sec_ref s1 [] :: map (sec_ref s1) (prefixes p)) c Hr1) as (s2 & E2 & T2 & _ & R2).
      unfold bind at 1 in H. rewrite E2 in H.
      destruct (update_from_spec s2 (CItem p) (Some CLocal) _ R2) as (s3 & E3 & T3 & _ & R3). unfold bind at 1 in H. rewrite E3 in H. injection H as <- _.
      rewrite R3 in Hr. injection Hr as <-. assert (U2 := unset_own _ _ T2 U1).
      rewrite merge_applied; [|discriminate|].
      * refine (chain_applied s1 (sec_ref s1 [] :: map (sec_ref s1) (prefixes p)) _ c). intros q I. assert (X : forall q, In (section_values s1 q) (overriding_layers s1 p) -> dget k (section_values s1 q) = None).
        { intros q' I'. now apply (unset_layers s1). }
        unfold overriding_layers in X. destruct I as [<-|I].
        -- exists []. split; [reflexivity|]. apply X. right. apply in_or_app. right. now left.
        -- apply in_map_iff in I as (q' & <- & I). exists q'. split; [reflexivity|]. apply X. right. apply in_or_app. left. apply in_map, in_rev.
           now rewrite rev_involutive.
      * unfold layer. destruct (cref_eq_dec CLocal (CItem p)); [discriminate|]. cbn [read_cref]. apply (unset_layers s2); [exact U2|]. now left.
  - destruct G as (-> & n & E). unfold target in Ht. rewrite E in Ht. discriminate.
  - subst s1. injection H as <- _. apply read_current in Hr. congruence.
Qed.

Lemma get_cok st st' o e : cms_wf st -> target st p = Some (CItem p) -> cok e st -> cm_get path st = (st', o) ->
  o = Ok (Some (CItem p)) /\ cok e st' /\ exists c v, read_cref st' (CItem p) = Some c /\ cfg_wf c /\ dget k (c_vals c) = Some v /\ same_value v e.
Proof.
  intros W Ht H E. assert (S := cm_get_spec _ _ _ _ W E). fold p in S. rewrite Ht in S. destruct S as (T & _ & S).
  assert (H' := H). destruct H' as ((c & v & A1 & A2 & A3 & A4 & A5) & U & R). rewrite A1 in S. destruct S as (-> & c' & Rc & Wc & _ & Fc & V).
  split; [reflexivity|]. assert (Vk : dget k (c_vals c') = Some v) by (rewrite V; cbn [rpath]; now apply effective_unset).
  split; [|eauto 6]. eapply (cok_own st st' c' v e e); try eassumption; [now apply read_current|congruence|].
  now rewrite (get_applied st st' _ c c' Ht A1 E Rc U).
Qed.

(** * The runner *)
Definition callable_of (o : lobj) : callable := match o with LPartial _ f _ _ => f | LInst _ f _ => f end.
Definition holds (e : pyval) (o : lobj) : Prop := callable_of o = x /\ exists v, dget k (arguments o) = Some v /\ same_value v e.
Definition lok (e : pyval) (s : rs) : Prop :=
  plain e = true /\ rinv base path s /\ cok e (r_cms s) /\ forall o, dget path (r_loaded s) = Some o -> holds e o.

Hypotheses (Hx : mem k (f_args x) = true) (Hpre : u_pre_run u = []).

Lemma holds_same e e' o : same_value e e' -> holds e o -> holds e' o.
Proof. intros S (H & v & H1 & H2). split; [exact H|]. exists v. split; [exact H1|]. eapply same_trans; eassumption. Qed.
Lemma applied_holds o cfg o' e e' v : dwf cfg -> applied_to u o cfg = Ok o' -> holds e o -> dget k cfg = Some v -> same_value v e' -> holds e' o'.
Proof.
  intros W H (Hc & v0 & H1 & H2) Hv S. destruct o as [id f b kw|id f calls]; cbn [applied_to callable_of arguments] in *.
  - injection H as <-. split; [exact Hc|]. exists v. split; [|exact S]. cbn [arguments]. rewrite apply_partial_get by exact W. now rewrite H1, Hv.
  - destruct (u_init u f _); [discriminate|]. injection H as <-. split; [exact Hc|]. exists v. split; [|exact S]. cbn [arguments]. rewrite last_snoc.
    unfold relevant_config. rewrite dget_dfilter. subst f. now rewrite Hx.
Qed.
Lemma lok_cms e e' s st' : lok e s -> plain e' = true -> cinv base st' -> target st' p = target (r_cms s) p -> cok e' st' ->
  same_value e e' -> lok e' (RS st' (r_loaded s) (r_next s) (r_calls s)).
Proof.
  intros (P & (I1 & I2 & I3) & C & L) P' I T C' S. split; [exact P'|]. split; [split; [exact I|]; split; [cbn [r_cms]; fold p; rewrite T; exact I2|exact I3]|].
  split; [exact C'|]. intros o Ho. apply (holds_same e); [exact S|]. now apply L.
Qed.
Lemma lok_set e s o i calls : plain e = true -> rinv base path s -> cok e (r_cms s) -> holds e o -> lok e (RS (r_cms s) (dset path o (r_loaded s)) i calls).
Proof.
  intros P (I1 & I2 & I3) C H. split; [exact P|]. split; [split; [exact I1|]; split; [exact I2|]|].
  - intros q A N. cbn [r_loaded]. rewrite dget_dset_neq by exact N. now apply I3.
  - split; [exact C|]. intros o' Ho. cbn [r_loaded] in Ho. rewrite dget_dset_eq in Ho. injection Ho as <-. exact H.
Qed.

Lemma config_lok e s : lok e s -> exists st c v, get_config path s = (RS st (r_loaded s) (r_next s) (r_calls s), Ok c) /\
  lok e (RS st (r_loaded s) (r_next s) (r_calls s)) /\ cfg_wf c /\ dget k (c_vals c) = Some v /\ same_value v e.
Proof.
  intro H. assert (H' := H). destruct H' as (P & (I1 & I2 & I3) & C & L). unfold get_config, bind, on_cms.
  assert (Ci := get_cinv base path (r_cms s) I1). assert (W := tree_cms_wf _ (proj1 I1)).
  destruct (cm_get path (r_cms s)) as [st o] eqn:E. cbn [fst] in Ci.
  destruct (get_cok _ _ _ e W I2 C E) as (-> & C' & c & v & R & Wc & V & S). exists st, c, v. cbn [r_cms r_loaded r_next r_calls].
  rewrite (deref_read _ _ _ R). split; [reflexivity|]. split; [|auto]. apply (lok_cms e e s); auto; [|apply same_refl].
  assert (Sg := cm_get_spec _ _ _ _ W E). rewrite I2 in Sg. apply (proj1 Sg).
Qed.

Section Kind.
Variables (b : bool) (th : thing).
Hypothesis Hf : get_func_or_collection its path = Ok (b, FThing th).

Lemma filtered c v args : dget k (c_vals c) = Some v -> mem k args = true -> dget k (for_function c args) = Some v.
Proof. intros H M. unfold for_function. now rewrite dget_dfilter, M. Qed.
Lemma mem_class : mem k (class_args x) = true.
Proof. unfold class_args. cbn [mem existsb]. unfold mem in Hx. rewrite Hx. apply Bool.orb_true_r. Qed.
Lemma gfc_lok e s : lok e s -> th = TFunc x \/ th = TClass x ->
  exists st b' kw v, get_func_and_config its path s = (RS st (r_loaded s) (r_next s) (r_calls s), Ok (x, b', kw)) /\
    lok e (RS st (r_loaded s) (r_next s) (r_calls s)) /\ dget k kw = Some v /\ same_value v e.
Proof.
  intros H K. destruct (config_lok e s H) as (st & c & v & E & H' & Wc & V & S). unfold get_func_and_config, bind at 1. rewrite E.
  unfold bind, lift. rewrite Hf. cbn [snd]. destruct K as [-> | ->]; cbn [ret]; exists st; eexists; eexists; exists v;
    (split; [reflexivity|]); (split; [exact H'|]); (split; [|exact S]); apply filtered; auto. apply mem_class.
Qed.
Lemma gcc_lok e s : lok e s -> th = TClass x \/ th = TInst x ->
  exists st b' kw v, get_class_and_config its path s = (RS st (r_loaded s) (r_next s) (r_calls s), Ok (x, b', kw)) /\
    lok e (RS st (r_loaded s) (r_next s) (r_calls s)) /\ dget k kw = Some v /\ same_value v e.
Proof.
  intros H K. destruct (config_lok e s H) as (st & c & v & E & H' & Wc & V & S). unfold get_class_and_config, bind at 1. rewrite E.
  unfold bind, lift. rewrite Hf. cbn [snd]. destruct K as [-> | ->]; cbn [ret]; exists st; eexists; eexists; exists v;
    (split; [reflexivity|]); (split; [exact H'|]); (split; [|exact S]); apply filtered; auto using mem_class.
Qed.
Lemma func_lok e s : lok e s -> th = TFunc x ->
  exists s' o, get_one_func_with_config its path s = (s', Ok o) /\ lok e s' /\ holds e o /\ r_calls s' = r_calls s.
Proof.
  intros H K. unfold get_one_func_with_config, bind at 1, gets. destruct (dget path (r_loaded s)) as [o|] eqn:El.
  - exists s, o. split; [reflexivity|]. split; [exact H|]. split; [|reflexivity]. now apply H.
  - destruct (gfc_lok e s H (or_introl K)) as (st & b' & kw & v & E & H' & V & S). unfold bind at 1. rewrite E. cbn.
    assert (Ho : holds e (LPartial (r_next s) x b' kw)) by (split; [reflexivity|]; exists v; auto).
    eexists. eexists. split; [reflexivity|]. split; [|split; [exact Ho|reflexivity]].
    destruct H' as (P & I & C & L). exact (lok_set e _ _ _ _ P I C Ho).
Qed.
Lemma obj_lok e s : lok e s -> th = TClass x \/ th = TInst x ->
  exists s' r, get_one_obj_with_config its u path s = (s', r) /\ lok e s' /\ (forall o, r = Ok o -> holds e o) /\ r_calls s' = r_calls s.
Proof.
  intros H K. unfold get_one_obj_with_config, bind at 1, gets. destruct (dget path (r_loaded s)) as [o|] eqn:El.
  - exists s, (Ok o). split; [reflexivity|]. split; [exact H|]. split; [|reflexivity]. intros o' [= <-]. now apply H.
  - unfold bind at 1, lift. rewrite Hf. destruct (gcc_lok e s H K) as (st & b' & kw & v & E & H' & V & S). unfold bind at 1. rewrite E. cbn zeta.
    set (args := if b' then kw else relevant_config x kw).
    assert (Va : dget k args = Some v).
    { unfold args. destruct b'; [exact V|]. unfold relevant_config. now rewrite dget_dfilter, Hx. }
    destruct (u_init u x args) as [er|]; cbn.
    + eexists. eexists. split; [reflexivity|]. split; [exact H'|]. split; [discriminate|reflexivity].
    + assert (Ho : holds e (LInst (r_next s) x [args])) by (split; [reflexivity|]; exists v; auto).
      eexists. eexists. split; [reflexivity|]. split; [|split; [intros o [= <-]; exact Ho|reflexivity]].
      destruct H' as (P & I & C & L). exact (lok_set e _ _ _ _ P I C Ho).
Qed.
Lemma head_lok e s : lok e s -> th = TFunc x \/ th = TClass x \/ th = TInst x ->
  exists s' r, run_head its u path th s = (s', r) /\ lok e s' /\ (forall o, r = Ok o -> holds e o) /\ r_calls s' = r_calls s /\
    (th = TFunc x -> exists o, r = Ok o).
Proof.
  intros H [K|K].
  - destruct (gfc_lok e s H (or_introl K)) as (st & b' & kw & v & E & H' & V & S).
    destruct (func_lok e _ H' K) as (s' & o & E' & H2 & Ho & Cs). rewrite K in *. cbn [run_head]. unfold bind. rewrite E, E'.
    eexists. eexists. split; [reflexivity|]. split; [exact H2|]. split; [intros ? [= <-]; exact Ho|]. split; [exact Cs|eauto].
  - assert (Kf : th <> TFunc x) by (destruct K as [-> | ->]; discriminate).
    assert (X : exists s1, fst (match th with TInst _ => get_class_and_config its path s | _ => get_func_and_config its path s end) = s1 /\
                lok e s1 /\ r_calls s1 = r_calls s /\ (forall (A : Type) (m : M rs A), (match th with TInst _ => get_class_and_config its path ;;; m | _ => get_func_and_config its path ;;; m end) s = m s1)).
    { destruct K as [K|K].
      - destruct (gfc_lok e s H (or_intror K)) as (st & b' & kw & v & E & H' & V & S). rewrite K in *. eexists. split; [reflexivity|]. rewrite E.
        split; [exact H'|]. split; [reflexivity|]. intros A m. unfold bind. now rewrite E.
      - destruct (gcc_lok e s H (or_intror K)) as (st & b' & kw & v & E & H' & V & S). rewrite K in *. eexists. split; [reflexivity|]. rewrite E.
        split; [exact H'|]. split; [reflexivity|]. intros A m. unfold bind. now rewrite E. }
    destruct X as (s1 & _ & H1 & C1 & X). destruct (obj_lok e s1 H1 K) as (s' & r & E' & H2 & Ho & Cs). exists s', r.
    split; [|split; [exact H2|split; [exact Ho|split; [congruence|intro; contradiction]]]].
    rewrite <- E', <- (X lobj). destruct K as [-> | ->]; reflexivity.
Qed.

Lemma get_lok e s : lok e s -> th = TFunc x \/ th = TClass x \/ th = TInst x -> lok e (fst (runner_get its u path s)).
Proof.
  intros H K. unfold runner_get, bind at 1, lift. rewrite Hf. cbn [snd]. destruct K as [K|K].
  - destruct (func_lok e s H K) as (s' & o & E & H' & _). rewrite K. unfold bind. rewrite E. exact H'.
  - destruct (obj_lok e s H K) as (s' & r & E & H' & _). destruct K as [-> | ->]; unfold bind; rewrite E; destruct r; exact H'.
Qed.
Lemma run_lok e s set : lok e s -> th = TFunc x \/ th = TClass x \/ th = TInst x -> lok e (fst (pm_run its u set (AStr path) s)).
Proof.
  intros H K. rewrite (pm_run_eq its u path set s Hpre). cbn [fst]. rewrite (run_one_eq its u path b th s Hf). unfold bind.
  destruct (head_lok e s H K) as (s' & r & E & H' & _). rewrite E. destruct r; exact H'.
Qed.
(** what a run calls *)
Lemma run_calls e s set : lok e s -> th = TFunc x \/ th = TClass x \/ th = TInst x ->
  exists l, r_calls (fst (pm_run its u set (AStr path) s)) = r_calls s ++ l /\
    (forall q o, In (q, o) l -> q = path /\ holds e o) /\ (th = TFunc x -> exists o, l = [(path, o)]).
Proof.
  intros H K. rewrite (pm_run_eq its u path set s Hpre). cbn [fst]. rewrite (run_one_eq its u path b th s Hf). unfold bind.
  destruct (head_lok e s H K) as (s' & r & E & H' & Ho & Cs & F). rewrite E. destruct r as [o|er].
  - exists [(path, o)]. cbn. split; [now rewrite Cs|]. split; [|eauto]. intros q o' [[= <- <-]|[]]. split; [reflexivity|now apply Ho].
  - exists []. cbn. rewrite app_nil_r. split; [exact Cs|]. split; [intros ? ? []|]. intro Kf. destruct (F Kf). discriminate.
Qed.
End Kind.

(** * Updates *)
Lemma update_lok e s d persist kw : lok e s -> dwf kw -> dwf (opt_dict d) ->
  (forall v, gives k d kw = Some v -> plain v = true /\ (kept = true -> persist = true)) ->
  snd (runner_update u d (Some path) persist kw s) = Ok tt ->
  lok (match gives k d kw with Some v => v | None => e end) (fst (runner_update u d (Some path) persist kw s)).
Proof.
  intros (P & I & C & L) Wk Wd G Hok. assert (I' := I). destruct I' as (I1 & I2 & I3).
  assert (Ri := proj1 (any_unit base path (fun _ _ => True) _ _ s s (update_agree base u path d (Some path) persist kw s s
     (ex_intro _ [] (eq_sym (app_nil_r _)))
     (conj I (conj I (conj (conj eq_refl (conj I2 (conj I2 (conj eq_refl (fun _ _ => eq_refl)))))
       (match dget path (r_loaded s) as o return alike_opt o o with Some o => alike_refl o | None => Logic.I end))))))).
  destruct (runner_update u d (Some path) persist kw s) as [s' o] eqn:E. cbn [fst snd] in *. subst o.
  assert (S := runner_update_spec _ _ _ _ _ _ _ _ E). cbv zeta in S. rewrite I2 in S. destruct S as (T & _ & _ & S). fold p in T, S.
  assert (C' := C). destruct C' as ((c & v & A1 & A2 & A3 & A4 & A5) & U & R). rewrite A1 in S.
  assert (Wc : cfg_wf c) by exact (proj2 (tree_cms_wf _ (proj1 I1)) _ _ A1).
  destruct (cfg_checked_update c d persist kw) as [[c' b]|er] eqn:Ec; [|destruct S; discriminate]. destruct S as (Hc' & S).
  assert (Wc' := checked_update_wf _ _ _ _ _ _ Wc Ec). set (e' := match gives k d kw with Some v => v | None => e end).
  assert (Pe : plain e' = true) by (unfold e'; destruct (gives k d kw); [now apply G|exact P]).
  destruct (checked_update_inv _ _ _ _ _ _ Ec) as [(-> & ->)|(-> & ->)].
  - (* nothing changes *)
    assert (Sv : same_value e e').
    { unfold e'. destruct (gives k d kw) as [v'|] eqn:Eg; [|apply same_refl]. unfold cfg_checked_update in Ec.
      destruct (dmem "config_" kw); [discriminate|]. destruct (would_update c _ _) as [[]|] eqn:Ew; try discriminate; [destruct (dmem "E" kw); discriminate|].
      unfold would_update in Ew. cbn [opt_dict] in Ew. rewrite dupdate_nil_r in Ew. rewrite gives_all in Eg by exact Wk.
      eapply same_trans; [apply same_sym, A4|]. apply values_norm; [rewrite (same_plain _ _ A4); exact P|exact Pe|].
      exact (proj1 (wul_false _ _) Ew k v' v (dget_Some_In _ _ _ Eg) A3). }
    destruct S as (_ & Ls & _). split; [exact Pe|]. split; [exact Ri|]. split.
    + eapply (cok_own _ _ c v e e'); try eassumption; [eapply same_trans; eassumption|]. intro K. specialize (A5 K).
      destruct (dget k (c_applied c)); eapply same_trans; eassumption.
    + intros o Ho. rewrite Ls in Ho. apply (holds_same e); [exact Sv|]. now apply L.
  - (* the config changes *)
    assert (Vk : exists v', dget k (c_vals (cfg_update c d persist kw)) = Some v' /\ same_value v' e' /\
       (kept = true -> match dget k (c_applied (cfg_update c d persist kw)) with Some w => same_value w e' | None => same_value file e' end)).
    { unfold e'. destruct (gives k d kw) as [v'|] eqn:Eg.
      - destruct (updated_here c d persist kw k v' Wk Wd Eg) as (B1 & B2). exists v'. split; [exact B1|]. split; [apply same_refl|].
        intro K. rewrite B2 by (now apply (G v')). apply same_refl.
      - destruct (updated_other c d persist kw k Wk Wd Eg) as (B1 & B2). exists v. split; [congruence|]. split; [exact A4|]. now rewrite B2. }
    destruct Vk as (v' & V1 & V2 & V3). split; [exact Pe|]. split; [exact Ri|]. split.
    + eapply (cok_own _ _ (cfg_update c d persist kw) v' e e'); eassumption.
    + intros o Ho. destruct (dget path (r_loaded s)) as [ob|] eqn:El.
      * destruct (applied_to u ob (c_vals (cfg_update c d persist kw))) as [ob'|er] eqn:Ea; [|destruct S; discriminate]. destruct S as (Sl & _).
        rewrite Sl, dget_dset_eq in Ho. injection Ho as <-. exact (applied_holds ob _ ob' e e' v' (proj1 Wc') Ea (L ob eq_refl) V1 V2).
      * destruct S as (_ & Sl & _). congruence.
Qed.

(** configs around the item *)
Lemma around_ref st q r : target st p = Some (CItem p) -> q <> path -> (exists t, p = path_parts q ++ t) -> target st (path_parts q) = Some r ->
  near p r /\ r <> CItem p.
Proof.
  intros Ht Nq (t & E) Hr. destruct t as [|a t].
  - exfalso. apply Nq. rewrite app_nil_r in E. change (split dot path = split dot q) in E. rewrite <- (join_split dot q), <- (join_split dot path). now rewrite E.
  - assert (Sp : exists v, see st p = Some v) by (unfold target in Ht; destruct (see st p); [eauto|discriminate]). destruct Sp as (v & Sp).
    destruct (prefix_is_section st p (path_parts q) v Sp) as (n & own & Sq); [exists (a :: t); split; [discriminate|exact E]|].
    unfold target in Hr. rewrite Sq in Hr. injection Hr as <-. split; [|discriminate]. cbn. exists (a :: t). split; [discriminate|exact E].
Qed.
Lemma loaded_none s q : rinv base path s -> q <> path -> (exists t, p = path_parts q ++ t) -> dget q (r_loaded s) = None.
Proof. intros (_ & _ & I) N A. now apply I. Qed.

Definition outer (q : option string) : Prop := match q with Some q => q <> path /\ exists t, p = path_parts q ++ t | None => True end.
Lemma outer_loaded s q : rinv base path s -> outer q -> match q with Some q => dget q (r_loaded s) | None => None end = None.
Proof. intros I O. destruct q as [q|]; [|reflexivity]. destruct O. now apply loaded_none. Qed.
Lemma update_outer e s d q persist kw : lok e s -> outer q -> dwf kw -> dwf (opt_dict d) -> gives k d kw = None ->
  lok e (fst (runner_update u d q persist kw s)).
Proof.
  intros H O Wk Wd G. assert (H' := H). destruct H' as (P & I & C & L). assert (I' := I). destruct I' as (I1 & I2 & I3).
  rewrite runner_update_eq. unfold bind at 1, on_cms. assert (Ci := update_cinv base d q persist kw (r_cms s) I1).
  destruct (cm_update d q persist kw (r_cms s)) as [st o] eqn:E. cbn [fst] in Ci.
  assert (C' : cok e st /\ target st p = target (r_cms s) p).
  { assert (S := cm_update_spec _ _ _ _ _ _ _ E). destruct (path_target (r_cms s) q) as [r|] eqn:Er; [|destruct S as (-> & _); auto].
    destruct S as (T & S). split; [|apply T].
    assert (N : near p r /\ r <> CItem p).
    { destruct q as [q|]; cbn [path_target outer] in *; [destruct O; eapply around_ref; eassumption|]. injection Er as <-. split; [exact Logic.I|discriminate]. }
    destruct (current (r_cms s) r) as [c|] eqn:Ec; [|destruct S as (-> & _); exact C].
    assert (Sc : silent k (cs_disk (r_cms s)) c).
    { destruct N as (N & Nr). destruct C as (_ & (U1 & U2) & _). destruct r as [|q'|q']; [injection Ec as <-; exact U1|exfalso; apply Nr; f_equal; exact N|].
      destruct N as (t & Nt & Eq). exact (U2 q' t c Eq Nt Ec). }
    apply (cok_around (r_cms s) st r e C T (proj1 N) (proj2 N)). intros c' Hc'.
    destruct (cfg_checked_update c d persist kw) as [[c1 b]|er] eqn:Ek.
    - destruct S as (_ & R & _). apply read_current in R. rewrite R in Hc'. injection Hc' as <-. exact (silent_update k _ c d persist kw c1 b Wk Wd G Ek Sc).
    - destruct S as (_ & R). apply read_current in R. rewrite R in Hc'. injection Hc' as <-. exact Sc. }
  destruct C' as (C' & T').
  assert (X : lok e (RS st (r_loaded s) (r_next s) (r_calls s))) by (apply (lok_cms e e s); auto; apply same_refl).
  destruct o as [[r b]|er]; [|exact X]. unfold after_update, bind, loaded_at, gets. cbn [r_loaded]. rewrite (outer_loaded s q I O). exact X.
Qed.

Lemma refresh_cok e st st' q o : target st p = Some (CItem p) -> cms_wf st -> (q = path -> kept = true) -> (exists t, p = path_parts q ++ t) ->
  dget k content = Some file -> cok e st -> cm_refresh q st = (st', o) -> cok e st' /\ target st' p = target st p.
Proof.
  intros Ht W K A Hfile C E. assert (S := cm_refresh_spec _ _ _ _ E).
  destruct (target st (path_parts q)) as [r|] eqn:Er; [|destruct S as (-> & _); auto]. destruct S as (T & S). split; [|apply T].
  destruct (string_dec q path) as [->|Nq].
  - assert (Hr : r = CItem p) by (fold p in Er; congruence). subst r. assert (C' := C). destruct C' as ((c & v & A1 & A2 & A3 & A4 & A5) & U & R).
    rewrite A1, A2, R in S. destruct (cfg_checked_refresh c content) as [[[c' b] ups]|er] eqn:Ek.
    + destruct S as (_ & Rc & _). apply read_current in Rc. specialize (A5 (K eq_refl)).
      destruct (checked_refresh_inv _ _ _ _ _ Ek) as [->|(us & -> & Hu)]; [eapply cok_same; eassumption|].
      assert (Wc : cfg_wf c) by exact (proj2 W _ _ A1).
      assert (Hw : exists w, dget k (refresh_updates c content) = Some w /\ same_value w e).
      { unfold refresh_updates. rewrite dget_dupdate by apply Wc. destruct (dget k (c_applied c)) as [w|]; [eauto|]. eauto. }
      destruct Hw as (w & Hw & Sw). assert (Wr : dwf (refresh_updates c content)).
      { unfold refresh_updates. apply dupdate_wf. exact (proj1 W _ _ R). }
      assert (Vk : exists v', dget k (c_vals (cfg_update c None false us)) = Some v' /\ same_value v' e).
      { cbn [cfg_update c_vals opt_dict]. rewrite dupdate_nil_r. rewrite dget_dupdate by (destruct Hu as [->| ->]; [exact Wr|now apply ddel_wf]).
        destruct Hu as [->| ->]; [rewrite Hw; eauto|]. destruct (string_dec k "E") as [->|N]; [rewrite dget_ddel_eq by exact Wr; eauto|].
        rewrite dget_ddel_neq by exact N. rewrite Hw. eauto. }
      destruct Vk as (v' & V1 & V2). eapply (cok_own st st' _ v' e e C T Rc); try eassumption. intros _. exact A5.
    + destruct S as (_ & Rc). apply read_current in Rc. eapply cok_same; eassumption.
  - destruct (around_ref st q r Ht Nq A Er) as (N & Nr).
    destruct (current st r) as [c|] eqn:Ec; [|destruct S as (-> & _); exact C].
    assert (Sc : silent k (cs_disk st) c).
    { destruct C as (_ & (U1 & U2) & _). destruct r as [|q'|q']; [injection Ec as <-; exact U1|exfalso; apply Nr; f_equal; exact N|].
      destruct N as (t & Nt & Eq). exact (U2 q' t c Eq Nt Ec). }
    apply (cok_around st st' r e C T N Nr). intros c' Hc'. destruct (c_file c) as [ref|] eqn:Ef.
    2:{ destruct S as (_ & R). apply read_current in R. rewrite R in Hc'. injection Hc' as <-. exact Sc. }
    destruct (read_file (cs_disk st) ref) as [ct|er] eqn:Ed.
    2:{ destruct S as (_ & R). apply read_current in R. rewrite R in Hc'. injection Hc' as <-. exact Sc. }
    destruct (cfg_checked_refresh c ct) as [[[c1 b] ups]|er] eqn:Ek.
    + destruct S as (_ & R & _). apply read_current in R. rewrite R in Hc'. injection Hc' as <-. exact (silent_refresh k _ c ct ref c1 b ups Ef Ed Ek Sc).
    + destruct S as (_ & R). apply read_current in R. rewrite R in Hc'. injection Hc' as <-. exact Sc.
Qed.
Lemma refresh_lok e s q : lok e s -> (q = path -> kept = true) -> (exists t, p = path_parts q ++ t) -> dget k content = Some file ->
  lok e (fst (runner_refresh u q s)).
Proof.
  intros H K A Hfile. assert (H' := H). destruct H' as (P & I & C & L). assert (I' := I). destruct I' as (I1 & I2 & I3).
  rewrite runner_refresh_eq. unfold bind at 1, on_cms. assert (Ci := refresh_cinv base q (r_cms s) I1).
  destruct (cm_refresh q (r_cms s)) as [st o] eqn:E. cbn [fst] in Ci.
  destruct (refresh_cok e _ _ _ _ I2 (tree_cms_wf _ (proj1 I1)) K A Hfile C E) as (C' & T').
  assert (X : lok e (RS st (r_loaded s) (r_next s) (r_calls s))) by (apply (lok_cms e e s); auto; apply same_refl).
  destruct o as [[[r b] ups]|er]; [|exact X]. unfold after_refresh. unfold bind at 1, loaded_at, gets. cbn [r_loaded].
  destruct (string_dec q path) as [->|Nq].
  - destruct (dget path (r_loaded s)) as [ob|] eqn:El; [|exact X]. destruct b; [|exact X].
    destruct (config_lok e _ X) as (st2 & c & v & Eg & X2 & Wc & V & Sv). cbn [r_loaded r_next r_calls] in Eg, X2. unfold bind at 1. rewrite Eg.
    unfold bind. rewrite apply_config_eq. destruct (applied_to u ob (c_vals c)) as [ob'|er] eqn:Ea; [|exact X2].
    cbn. destruct X2 as (P2 & J & C2 & L2). assert (Ho : holds e ob') by exact (applied_holds ob _ ob' e e v (proj1 Wc) Ea (L ob eq_refl) V Sv).
    assert (Y := lok_set e _ ob' (r_next s) (r_calls s) P2 J C2 Ho). cbn [r_cms r_loaded] in Y.
    destruct Y as (Y1 & (J1 & J2 & J3) & Y3 & Y4). split; [exact Y1|]. split; [split; [exact J1|split; [exact J2|exact J3]]|]. split; [exact Y3|exact Y4].
  - rewrite (loaded_none s q I Nq A). exact X.
Qed.

Lemma reset_lok e s : lok e s -> k <> "d_" -> plain file = true -> dget k content = Some file ->
  snd (runner_reset base u (Some path) false s) = Ok tt -> lok file (fst (runner_reset base u (Some path) false s)).
Proof.
  intros H Nk Pf Hfile. assert (H' := H). destruct H' as (P & I & C & L). assert (I' := I). destruct I' as (I1 & I2 & I3).
  destruct (runner_reset base u (Some path) false s) as [s' rr] eqn:Er. cbn [fst snd]. intros ->.
  unfold runner_reset, bind at 1, on_cms at 1 in Er. assert (Ci := reset_cinv base path (r_cms s) I2 I1).
  assert (W := tree_cms_wf _ (proj1 I1)).
  destruct (cm_reset base (Some path) false (r_cms s)) as [st o] eqn:E. cbn [fst] in Ci.
  destruct (cm_reset_item _ _ _ _ _ I2 E) as (T & S). fold p in T, S. assert (C' := C). destruct C' as ((c & v & A1 & A2 & A3 & A4 & A5) & U & R).
  rewrite R, A1 in S. assert (Wct : dwf content) by exact (proj1 W _ _ R).
  destruct (value_as_kwargs content) as [ups|er] eqn:Ev.
  2:{ destruct S as (-> & _). discriminate Er. }
  assert (Hu : In (k, file) ups).
  { unfold value_as_kwargs in Ev. destruct (dmem "self" content || _ || _)%bool; [discriminate|]. apply dget_Some_In.
    destruct (dget "d_" content) as [[]|]; try discriminate; injection Ev as <-; [now rewrite dget_ddel_neq|exact Hfile]. }
  destruct (would_update c (Some ups) []) as [[]|er] eqn:Ew.
  - destruct S as (-> & Rc & _). apply read_current in Rc.
    assert (C1 : cok file st).
    { eapply (cok_own (r_cms s) st (item_default p content) file e file C T Rc); [reflexivity|exact Hfile|apply same_refl|].
      intros _. apply same_refl. }
    assert (J : rinv base path (RS st (r_loaded s) (r_next s) (r_calls s))).
    { split; [exact Ci|]. split; [cbn [r_cms]; rewrite (proj1 T); exact I2|exact I3]. }
    unfold bind at 1, loaded_at, gets in Er. cbn [r_loaded] in Er. destruct (dget path (r_loaded s)) as [ob|] eqn:El.
    + cbn [opt_path] in Er. change (c_vals (item_default p content)) with content in Er. unfold bind at 1 in Er. rewrite apply_config_eq in Er.
      destruct (applied_to u ob content) as [ob'|er] eqn:Ea; [|discriminate Er]. cbn [r_cms r_loaded r_next r_calls] in Er.
      assert (Ho : holds file ob') by exact (applied_holds ob _ ob' e file file Wct Ea (L ob eq_refl) Hfile (same_refl _)).
      assert (Y := lok_set file (RS st (r_loaded s) (r_next s) (r_calls s)) ob' (r_next s) (r_calls s) Pf J C1 Ho). cbn [r_cms r_loaded] in Y.
      unfold bind, lift in Er. destruct (post_reset_updates content) as [us|er]; [|discriminate Er]. injection Er as <-.
      destruct Y as (Y1 & (J1 & J2 & J3) & Y3 & Y4). split; [exact Y1|]. split; [split; [exact J1|split; [exact J2|exact J3]]|]. split; [exact Y3|exact Y4].
    + injection Er as <-. split; [exact Pf|]. split; [exact J|]. split; [exact C1|]. cbn [r_loaded]. congruence.
  - destruct S as (-> & Rc & _). apply read_current in Rc. unfold would_update in Ew. cbn [opt_dict] in Ew. rewrite dupdate_nil_r in Ew.
    assert (Sv : same_value e file).
    { eapply same_trans; [apply same_sym, A4|]. apply values_norm; [rewrite (same_plain _ _ A4); exact P|exact Pf|].
      exact (proj1 (wul_false _ _) Ew k file v Hu A3). }
    assert (C1 : cok file st).
    { eapply (cok_own (r_cms s) st c v e file C T Rc); try eassumption; [eapply same_trans; eassumption|]. intro K. specialize (A5 K).
      destruct (dget k (c_applied c)); [eapply same_trans; eassumption|apply same_refl]. }
    assert (X : lok file (RS st (r_loaded s) (r_next s) (r_calls s))) by (apply (lok_cms e file s); auto; apply T).
    unfold bind, loaded_at, gets in Er. cbn [r_loaded] in Er. destruct (dget path (r_loaded s)); injection Er as <-; exact X.
  - destruct S as (-> & _). discriminate Er.
Qed.
Lemma reset_local_lok e s ac : lok e s -> lok e (fst (runner_reset base u None ac s)).
Proof.
  intros H. assert (H' := H). destruct H' as (P & I & C & L). assert (I' := I). destruct I' as (I1 & I2 & I3).
  unfold runner_reset. unfold bind at 1, on_cms. assert (Ci := reset_local_cinv base ac (r_cms s) I1).
  assert (T : touches CLocal (r_cms s) (fst (cm_reset base None ac (r_cms s)))) by (cbn; repeat split; congruence).
  assert (D : cs_local (fst (cm_reset base None ac (r_cms s))) = empty_config) by reflexivity.
  destruct (cm_reset base None ac (r_cms s)) as [st o]. cbn [fst] in *.
  assert (C' : cok e st).
  { apply (cok_around (r_cms s) st CLocal e C T Logic.I); [discriminate|]. intros c' [= <-]. rewrite D. repeat split. discriminate. }
  assert (X : lok e (RS st (r_loaded s) (r_next s) (r_calls s))) by (apply (lok_cms e e s); auto; [apply T|apply same_refl]).
  destruct o as [[df b]|]; exact X.
Qed.

(** * Whole histories *)
Lemma foreign_lok e s op : foreign base p op -> lok e s -> lok e (rop_run base its u s op).
Proof.
  intros F (P & I & C & L). destruct (foreign_rstp base its u path op s Hpre F I) as (I' & Fr & Lr). split; [exact P|]. split; [exact I'|].
  split; [exact (cok_frame _ _ e (proj1 (proj2 I)) C Fr)|]. intros o Ho. rewrite Lr in Ho. now apply L.
Qed.
Lemma foreign_other op : foreign base p op -> match op with RUpdate _ (Some q) _ _ | RReset (Some q) _ => q <> path | _ => True end.
Proof.
  intro F. destruct op as [q|set a|d [q|] persist kw|[q|] [|]|q]; cbn [foreign] in F; try exact Logic.I; try contradiction;
    intros ->; destruct F as (F & _); apply (F []); now rewrite app_nil_r.
Qed.
Lemma step_lok e s op : item_of its path x -> k <> "d_" -> plain file = true -> dget k content = Some file ->
  allowed kept base path k op -> went_through base its u path s op -> lok e s ->
  lok (last_set path k file e [op]) (rop_run base its u s op).
Proof.
  intros (b & th & Hf & K) Nk Pf Hfile A G H. destruct A as [F|A].
  - assert (E : last_set path k file e [op] = e).
    { assert (N := foreign_other op F). destruct op as [q|set a|d [q|] persist kw|[q|] ac|q]; try reflexivity; cbn [last_set];
        (destruct (String.eqb_spec q path); [contradiction|reflexivity]). }
    rewrite E. now apply foreign_lok.
  - destruct op as [q|set [q|l]|d [q|] persist kw|[q|] [|]|q]; cbn [last_set rop_run went_through] in *; try contradiction.
    + subst q. exact (get_lok b th Hf e s H K).
    + subst q. exact (run_lok b th Hf e s set H K).
    + destruct A as (Wk & Wd & [(-> & A)|(N & Ar & A)]).
      * rewrite String.eqb_refl. apply update_lok; auto.
      * destruct (String.eqb_spec q path); [contradiction|]. apply update_outer; auto; now split.
    + destruct A as (Wk & Wd & A). apply update_outer; auto; exact Logic.I.
    + subst q. rewrite String.eqb_refl. exact (reset_lok e s H Nk Pf Hfile (G eq_refl)).
    + now apply reset_local_lok.
    + now apply reset_local_lok.
    + destruct A as (A & Kp). now apply refresh_lok.
Qed.
Lemma last_set_cons e op ops : last_set path k file e (op :: ops) = last_set path k file (last_set path k file e [op]) ops.
Proof. destruct op as [q|set a|d [q|] persist kw|[q|] ac|q]; reflexivity. Qed.
Lemma history_lok ops : item_of its path x -> k <> "d_" -> plain file = true -> dget k content = Some file ->
  forall e s, (forall op, In op ops -> allowed kept base path k op) -> all_through base its u path s ops -> lok e s ->
  lok (last_set path k file e ops) (fold_left (rop_run base its u) ops s).
Proof.
  intros Hi Nk Pf Hfile. induction ops as [|op ops IH]; intros e s A G H; [exact H|]. rewrite last_set_cons. cbn [fold_left]. destruct G as (G & G').
  apply IH; [intros o I; apply A; now right|exact G'|]. apply step_lok; auto. apply A. now left.
Qed.
End Item.

(** * The start *)
Lemma disk_file q : forall reserved name rel d ref n, disk_seen reserved name rel d q = Some (SFile ref n) ->
  ref = (rel ++ removelast q, (last q "" ++ ".py")%string).
Proof.
  induction q as [|y rest IH]; intros reserved name rel d ref n H; [discriminate|]. cbn [disk_seen] in H. destruct (mem y reserved); [discriminate|].
  assert (B : match (if hidden y then None else dget y (dir_subs d)) with
              | Some d' => disk_seen sec_reserved y (rel ++ [y]) d' rest
              | None => if String.eqb y "section" then None
                        else if dmem (y ++ ".py")%string (dir_files d)
                             then match rest with [] => Some (SFile (rel, (y ++ ".py")%string) y) | _ => None end
                             else None
              end = Some (SFile ref n) -> ref = (rel ++ removelast (y :: rest), (last (y :: rest) "" ++ ".py")%string)).
  { destruct (if hidden y then None else dget y (dir_subs d)) as [d'|].
    - intro B. destruct rest as [|z rest]; [discriminate|]. apply IH in B. rewrite B.
      change (removelast (y :: z :: rest)) with (y :: removelast (z :: rest)). now rewrite <- app_assoc.
    - destruct (String.eqb y "section"); [discriminate|]. destruct (dmem (y ++ ".py")%string (dir_files d)); [|discriminate].
      destruct rest; [|discriminate]. intros [= <- _]. cbn. now rewrite app_nil_r. }
  destruct (folder_config name rel d) as [c0|]; [|exact (B H)].
  destruct (String.eqb_spec y name) as [->|_]; [|exact (B H)]. destruct rest; discriminate.
Qed.
Lemma start_lok kept base path k x content file disk n s : disk_ok disk -> runner_load base disk n = Ok s ->
  target (r_cms s) (path_parts path) = Some (CItem (path_parts path)) -> read_file disk (item_file (path_parts path)) = Ok content ->
  dget k content = Some file -> plain file = true -> unset_around k (path_parts path) (r_cms s) ->
  lok kept base path k x content file file s.
Proof.
  intros D L T R F P U. destruct (agree_load base path disk n s D L T) as (I & _). split; [exact P|]. split; [exact I|].
  unfold runner_load in L. destruct (cm_load base disk) as [st|] eqn:E; [|discriminate]. injection L as <-. cbn [r_cms r_loaded] in *.
  split; [|discriminate]. unfold cm_load, from_files_at in E. cbn [find_dir last] in E.
  destruct (from_files base [] disk) as [root|] eqn:Ff; [|discriminate]. injection E as <-. split; [|split; [exact U|exact R]].
  set (st := CMS root empty_config disk []) in *. set (p := path_parts path) in *.
  assert (Sn : see st p = disk_seen mgr_reserved base [] disk p).
  { rewrite see_eq. unfold lookup_at. cbn [cs_root st]. exact (from_files_seen p mgr_reserved _ _ _ _ (proj1 D) Ff). }
  assert (Sf : exists ref m, see st p = Some (SFile ref m)).
  { unfold target in T. destruct (see st p) as [[c|ref m|m own|c]|] eqn:Es; try discriminate; [|eauto]. exfalso.
    symmetry in Sn. clear - Sn. revert Sn. generalize mgr_reserved, base, (@nil string), disk. induction p as [|y rest IH]; intros rs nm rel d Sn; [discriminate|].
    cbn [disk_seen] in Sn. destruct (mem y rs); [discriminate|].
    assert (B : match (if hidden y then None else dget y (dir_subs d)) with
              | Some d' => disk_seen sec_reserved y (rel ++ [y]) d' rest
              | None => if String.eqb y "section" then None
                        else if dmem (y ++ ".py")%string (dir_files d)
                             then match rest with [] => Some (SFile (rel, (y ++ ".py")%string) y) | _ => None end
                             else None
              end <> Some (SConf c)).
    { destruct (if hidden y then None else dget y (dir_subs d)) as [d'|]; [exact (IH _ _ _ _)|]. destruct (String.eqb y "section"); [discriminate|].
      destruct (dmem (y ++ ".py")%string (dir_files d)); [|discriminate]. destruct rest; discriminate. }
    destruct (folder_config nm rel d); [|contradiction]. destruct (String.eqb y nm); [destruct rest; discriminate|contradiction]. }
  destruct Sf as (ref & m & Sf). assert (Er : ref = item_file p).
  { rewrite Sn in Sf. exact (disk_file _ _ _ _ _ _ _ Sf). }
  subst ref. exists (loaded_config m (item_file p) content), file. cbn [current]. rewrite Sf. cbn [cs_disk st]. rewrite R.
  split; [reflexivity|]. split; [reflexivity|]. split; [exact F|]. split; [apply same_refl|]. intros _. apply same_refl.
Qed.
