(** Proofs for C29: while a case runs, every mentioned config has that case's values. *)
From Verif Require Import Iterate_Model Config_Spec ConfigTree_Spec Runner_Spec Iterate_Spec SectionPath_Proofs Config_Proofs ConfigTree_Proofs ConfigOps_Proofs ConfigLoad_Proofs ConfigWf_Proofs Runner_Proofs RunnerOps_Proofs Product_Proofs.
From Coq Require Import Lia.
Local Open Scope list_scope.
Local Open Scope monad_scope.

(* ------------------------------------------------------------------ *)
(** * Equality of plain values *)

Lemma py_eq_norm x : forall y, plain x = true -> plain y = true -> py_eq x y = EqBool true -> same_value x y.
Proof.
  unfold same_value. induction x as [| | | |l IH| | | | | |] using pyval_ind2; intros y Hx Hy H;
    destruct y; cbn in Hx, Hy; try discriminate; cbn [py_eq] in H; try discriminate; try reflexivity;
    try (injection H as H; first [apply String.eqb_eq in H | apply Nat.eqb_eq in H | apply Z.eqb_eq in H | apply Bool.eqb_prop in H]; subst; reflexivity).
  destruct (Nat.eqb (length l) (length l0)) eqn:E; [|discriminate]. apply Nat.eqb_eq in E. cbn [norm]. f_equal.
  revert l0 Hy E H. induction IH as [|a l Ha IHl IHf]; intros k Hy E H; destruct k as [|b k]; try discriminate; [reflexivity|].
  cbn [forallb] in Hx, Hy. apply andb_prop in Hx as [Hx1 Hx2]. apply andb_prop in Hy as [Hy1 Hy2]. cbn [map].
  assert (Hab : py_is a b = false) by (destruct a, b; try reflexivity; discriminate). rewrite Hab in H.
  destruct (py_eq a b) as [[]| |] eqn:Eab; try discriminate. f_equal; [now apply Ha|]. apply IHf; auto.
Qed.

Lemma plain_norm x : plain (norm x) = plain x.
Proof.
  induction x as [| | | |l IH| | | | | |] using pyval_ind2; try reflexivity. cbn [norm plain].
  induction IH as [|a l Ha Hl IHl]; [reflexivity|]. cbn. now rewrite Ha, IHl.
Qed.
Lemma same_plain x y : same_value x y -> plain x = plain y.
Proof. intro H. rewrite <- (plain_norm x), <- (plain_norm y). now rewrite H. Qed.

Lemma values_norm x y : plain x = true -> plain y = true -> values_are_equal x y = Ok true -> same_value x y.
Proof.
  intros Hx Hy H. apply py_eq_norm; auto. unfold values_are_equal in H.
  destruct x; try discriminate; destruct y; try discriminate; destruct (py_eq _ _) as [[]| |]; congruence.
Qed.
Lemma entry_eq_norm x y : plain x = true -> plain y = true -> entry_eq x y = Ok true -> same_value x y.
Proof.
  intros Hx Hy H. apply py_eq_norm; auto. unfold entry_eq in H.
  assert (E : py_is x y = false) by (destruct x, y; try reflexivity; discriminate). rewrite E in H.
  destruct (py_eq x y) as [[]| |]; congruence.
Qed.

(* ------------------------------------------------------------------ *)
(** * Runs change configs only by reading them *)

Section RunKeeps.
  Variable R : rs -> rs -> Prop.
  Hypothesis Rrefl : forall s, R s s.
  Hypothesis Rtrans : forall a b c, R a b -> R b c -> R a c.
  Variable its : items.
  Variable u : user.
  Hypothesis Rfunc : forall path, keeps R (run_one_func its u path).
  Hypothesis Rclass : forall path, keeps R (run_one_class its u path).
  Hypothesis Rspec : forall path, keeps R (run_one_specific_class its u path).

  Let kbind {A B} := @keeps_bind R Rtrans A B.
  Ltac rdone := first [apply (keeps_ret R Rrefl) | apply (keeps_raise R Rrefl) | apply (keeps_lift R Rrefl) | apply (keeps_gets R Rrefl)].

  Lemma run_section_keeps c : forall path, keeps R (run_section its u c path).
  Proof.
    induction c as [n l IH] using coll_ind2. intro path. rewrite run_section_eq. apply kbind; [|intro; rdone].
    apply (keeps_mapM R Rrefl Rtrans). intros e He. destruct e as [x [| | | |]|c]; cbn [run_entry]; try apply Rfunc; try apply Rclass; try apply Rspec; try rdone.
    destruct (dget _ _) as [[m|]|] eqn:E; try rdone. apply sub_thunks_In in E as (c' & Hc & _ & ->). now apply IH.
  Qed.
  Lemma run_one_keeps path : keeps R (run_one its u path).
  Proof.
    apply kbind; [rdone|]. intros [[] [c|[]|]]; try rdone; try apply Rfunc; try apply Rclass; try apply Rspec. apply run_section_keeps.
  Qed.
  Lemma runner_run_keeps a : keeps R (runner_run its u a).
  Proof.
    apply kbind.
    - destruct a as [p|l]; [apply run_one_keeps|]. apply kbind; [|intro; rdone].
      apply (keeps_mapM R Rrefl Rtrans). intros. apply run_one_keeps.
    - intro r. destruct (u_post_run u r); [rdone|]. destruct a; [rdone|]. destruct r; rdone.
  Qed.
  Lemma force_loop_keeps l : keeps R (force_loop its u l).
  Proof.
    induction l as [|p l IH]; cbn [force_loop]; [rdone|]. apply kbind; [apply keeps_try, runner_run_keeps|].
    intro r. apply kbind; [exact IH|]. intro re. destruct r; rdone.
  Qed.
  Lemma pm_run_keeps set a : keeps R (pm_run its u set a).
  Proof.
    unfold pm_run. destruct set.
    - apply runner_run_keeps.
    - apply kbind; [|intro; rdone]. unfold run_with_force_continue. apply kbind; [apply force_loop_keeps|]. intro re.
      destruct (combine a (u_pre_run u)); [|rdone]. destruct (fst re) as [|r [|]]; rdone.
    - apply kbind; [apply keeps_try, runner_run_keeps|]. intros []; rdone.
  Qed.
End RunKeeps.

(* ------------------------------------------------------------------ *)
(** * One config during an iteration *)

(** [D]: the defaults, [E]: what the last case asked for, [X]: the keys some case sets *)
Record ok_cms (st : cms) (parts : list string) (r : cref) (D E : dict pyval) (X : list string) : Prop := OkCms {
  oc_wf : cms_wf st;
  oc_target : target st parts = Some r;
  oc_rpath : rpath r <> [];
  oc_vals : exists c, current st r = Some c /\
    (forall k d, dget k D = Some d -> exists v e, dget k (c_vals c) = Some v /\ dget k E = Some e /\ same_value v e) /\
    (D = [] \/ forall L k v, In L (overriding_layers st (rpath r)) -> dget k L = Some v ->
       dget k D = Some v /\ dget k (c_vals c) = Some v /\ ~ In k X) }.

Lemma first_of_In k l v : first_of k l = Some v -> exists L, In L l /\ dget k L = Some v.
Proof.
  induction l as [|d l IH]; cbn [first_of]; [discriminate|]. destruct (dget k d) eqn:E.
  - intros [= <-]. exists d. split; [now left|exact E].
  - intro H. destruct (IH H) as (L & H1 & H2). exists L. split; [now right|exact H2].
Qed.
Lemma first_of_None k l : first_of k l = None -> forall L, In L l -> dget k L = None.
Proof.
  induction l as [|d l IH]; cbn [first_of]; [intros _ L []|]. destruct (dget k d) eqn:E; [discriminate|].
  intros H L [<-|HL]; auto.
Qed.

Lemma prefixes_trans p q t : In q (prefixes p) -> In t (prefixes q) -> In t (prefixes p).
Proof.
  revert q t. induction p as [|x p IH]; intros q t Hq Ht; [destruct Hq|]. destruct p as [|y p]; [destruct Hq|].
  change (prefixes (x :: y :: p)) with ([x] :: map (cons x) (prefixes (y :: p))) in *.
  destruct Hq as [<-|Hq]; [destruct Ht|]. apply in_map_iff in Hq as (q' & <- & Hq).
  destruct q' as [|z q']; [destruct Ht|].
  change (prefixes (x :: z :: q')) with ([x] :: map (cons x) (prefixes (z :: q'))) in Ht.
  destruct Ht as [<-|Ht]; [now left|]. apply in_map_iff in Ht as (t' & <- & Ht). right. apply in_map. eapply IH; eassumption.
Qed.

Lemma In_layers st p L : In L (overriding_layers st p) <->
  L = c_vals (cs_local st) \/ L = section_values st [] \/ exists q, In q (prefixes p) /\ L = section_values st q.
Proof.
  unfold overriding_layers. cbn [In]. rewrite in_app_iff, in_map_iff. cbn [In]. split.
  - intros [H|[(q & <- & H)|[H|[]]]]; auto. right. right. exists q. split; [now apply in_rev|reflexivity].
  - intros [H|[H|(q & H & ->)]]; auto. right. left. exists q. split; [reflexivity|now apply -> in_rev].
Qed.

Lemma touches_layers_other r' st st' p : touches r' st st' -> r' <> CLocal -> ~ In r' (map CSec ([] :: prefixes p)) ->
  overriding_layers st' p = overriding_layers st p.
Proof.
  intros T Hl Hn. unfold overriding_layers. f_equal; [f_equal; now apply T|]. f_equal.
  - apply map_ext_in. intros q Hq. apply in_rev in Hq. rewrite !section_values_read.
    rewrite (touches_read _ _ _ (CSec q) T); [reflexivity|]. intros <-. apply Hn. right. now apply in_map.
  - f_equal. rewrite !section_values_read. rewrite (touches_read _ _ _ (CSec []) T); [reflexivity|].
    intros <-. apply Hn. now left.
Qed.

(** reading any config *)
Lemma get_ok_cms q st parts r D E X : ok_cms st parts r D E X -> ok_cms (fst (cm_get q st)) parts r D E X.
Proof.
  intros [W Ht Hr (c & Hc & Hv & Hl)]. assert (W' := cm_get_wf st q W).
  destruct (cm_get q st) as [st' o] eqn:Eg. cbn [fst] in *. assert (S := cm_get_spec _ _ _ _ W Eg).
  destruct (target st (path_parts q)) as [r'|] eqn:Et; [|destruct S as (-> & _); now constructor; eauto].
  destruct S as (T & _ & S). destruct (target_rpath _ _ _ Et) as [Hloc _].
  destruct (current st r') as [c0|] eqn:Ec0; [|destruct S as (-> & _); now constructor; eauto].
  destruct S as (_ & c' & R & _ & _ & _ & V). apply read_current in R.
  constructor; [exact W'|rewrite (proj1 T); exact Ht|exact Hr|].
  destruct (cref_eq_dec r' r) as [->|Hne].
  - rewrite Hc in Ec0. injection Ec0 as <-. exists c'. split; [exact R|].
    assert (Same : D <> [] -> forall k, dget k (c_vals c') = dget k (c_vals c)).
    { intros HD k. destruct Hl as [|Hl]; [contradiction|]. rewrite V. unfold effective.
      destruct (c_vals c) as [|kv vs] eqn:Ev.
      - destruct D as [|[k0 d0] D]; [contradiction|]. destruct (Hv k0 d0) as (v & e & X1 & _); [cbn; now rewrite String.eqb_refl|]. discriminate.
      - rewrite first_of_app. destruct (first_of k (overriding_layers st (rpath r))) as [v|] eqn:Ef.
        + apply first_of_In in Ef as (L & HL & HLk). destruct (Hl L k v HL HLk) as (_ & -> & _). reflexivity.
        + cbn [first_of]. now destruct (dget k (kv :: vs)). }
    destruct D as [|kd D'] eqn:ED; [split; [intros k d H; discriminate|now left]|]. rewrite <- ED in *.
    assert (HD : D <> []) by (rewrite ED; discriminate). specialize (Same HD).
    split; [intros k d Hk; rewrite Same; now apply (Hv k d)|].
    right. destruct Hl as [|Hl]; [contradiction|]. rewrite (overriding_touches st st' r T Hloc Hr).
    intros L k v HL HLk. rewrite Same. now apply (Hl L k v).
  - exists c. split; [rewrite (touches_current _ _ _ _ T) by congruence; exact Hc|]. split; [exact Hv|].
    destruct Hl as [Hl|Hl]; [now left|]. right. intros L k v HL HLk.
    apply In_layers in HL.
    assert (Old : forall q0, (q0 = [] \/ In q0 (prefixes (rpath r))) -> dget k (section_values st' q0) = Some v ->
              dget k D = Some v /\ dget k (c_vals c) = Some v /\ ~ In k X).
    { intros q0 Hq0 Hk. destruct (cref_eq_dec (CSec q0) r') as [Heq|Hneq].
      - subst r'. rewrite section_values_read in Hk. rewrite (ltac:(revert R; cbn [current]; rewrite read_cref_see; destruct (see st' q0) as [[]|]; congruence) : read_cref st' (CSec q0) = Some c') in Hk.
        rewrite V in Hk. unfold effective in Hk. destruct (c_vals c0) as [|kv vs] eqn:Ev; [discriminate|].
        apply first_of_In in Hk as (L0 & HL0 & HLk0). apply in_app_iff in HL0. apply (Hl L0 k v); [|exact HLk0].
        apply In_layers. destruct HL0 as [HL0|[<-|[]]].
        + apply In_layers in HL0 as [->|[->|(t & Ht' & ->)]]; auto. right. right. exists t. split; [|reflexivity].
          cbn [rpath] in Ht'. destruct Hq0 as [->|Hq0]; [destruct Ht'|]. eapply prefixes_trans; eassumption.
        + assert (Es : section_values st q0 = kv :: vs).
          { rewrite <- Ev. cbn [current] in Ec0. unfold section_values. destruct (see st q0) as [[]|]; try discriminate. now rewrite Ec0. }
          rewrite <- Es. destruct Hq0 as [->|Hq0]; [now right; left|]. right. right. now exists q0.
      - apply (Hl (section_values st q0) k v).
        + apply In_layers. destruct Hq0 as [->|Hq0]; [now right; left|]. right. right. now exists q0.
        + rewrite section_values_read in *. now rewrite (touches_read _ _ _ (CSec q0) T) in Hk. }
    destruct HL as [->|[->|(q0 & Hq0 & ->)]].
    + rewrite (proj1 (proj2 (proj2 T)) Hloc) in HLk. apply (Hl (c_vals (cs_local st)) k v); [|exact HLk]. apply In_layers. now left.
    + apply (Old []); auto.
    + apply (Old q0); auto.
Qed.

(** the config of another object is changed *)
Lemma other_ok_cms r' st st' parts r D E X : touches r' st st' -> cms_wf st' -> r' <> CLocal -> r' <> r ->
  ~ In r' (map CSec ([] :: prefixes (rpath r))) -> ok_cms st parts r D E X -> ok_cms st' parts r D E X.
Proof.
  intros T W' Hl Hne Hn [W Ht Hr (c & Hc & Hv & Hq)]. constructor; [exact W'|rewrite (proj1 T); exact Ht|exact Hr|].
  exists c. split; [rewrite (touches_current _ _ _ _ T) by congruence; exact Hc|]. split; [exact Hv|].
  rewrite (touches_layers_other r' st st' (rpath r) T Hl Hn). exact Hq.
Qed.

Definition agreeD (D E args : dict pyval) : Prop :=
  forall k v d, dget k args = Some v -> dget k D = Some d -> exists e, dget k E = Some e /\ same_value v e.
Definition ok_rs (s : rs) (path : string) (r : cref) (D E : dict pyval) (X : list string) : Prop :=
  ok_cms (r_cms s) (path_parts path) r D E X /\
  forall o, dget path (r_loaded s) = Some o -> agreeD D E (arguments o).

Lemma ok_rs_E s path r D E E' X : ok_rs s path r D E X ->
  (forall k d e, dget k D = Some d -> dget k E = Some e -> exists e', dget k E' = Some e' /\ same_value e e') ->
  ok_rs s path r D E' X.
Proof.
  intros [[W Ht Hr (c & Hc & Hv & Hq)] Hl] HE. split.
  - constructor; auto. exists c. split; [exact Hc|]. split; [|exact Hq].
    intros k d Hd. destruct (Hv k d Hd) as (v & e & A1 & A2 & A3). destruct (HE k d e Hd A2) as (e' & B1 & B2).
    exists v, e'. split; [exact A1|]. split; [exact B1|]. unfold same_value in *. congruence.
  - intros o Ho k v d Hk Hd. destruct (Hl o Ho k v d Hk Hd) as (e & A2 & A3). destruct (HE k d e Hd A2) as (e' & B1 & B2).
    exists e'. split; [exact B1|]. unfold same_value in *. congruence.
Qed.

Lemma last_snoc {A} (l : list A) x d : last (l ++ [x]) d = x.
Proof. induction l as [|a l IH]; [reflexivity|]. cbn. destruct (l ++ [x]) eqn:E; [destruct l; discriminate|exact IH]. Qed.

(** an object follows the config it is brought in line with *)
Lemma applied_agree u o cfg o' D E : dwf cfg -> applied_to u o cfg = Ok o' ->
  (forall k d, dget k D = Some d -> exists v e, dget k cfg = Some v /\ dget k E = Some e /\ same_value v e) ->
  agreeD D E (arguments o').
Proof.
  intros W H Hv k v d Hk Hd. destruct (Hv k d Hd) as (v' & e & A1 & A2 & A3). exists e. split; [exact A2|].
  destruct o as [id f b kw|id c calls]; cbn [applied_to] in H.
  - injection H as <-. cbn [arguments] in Hk. rewrite apply_partial_get in Hk by exact W.
    destruct (dget k kw); [|discriminate]. rewrite A1 in Hk. now injection Hk as <-.
  - destruct (u_init _ _ _); [discriminate|]. injection H as <-. cbn [arguments] in Hk. rewrite last_snoc in Hk.
    unfold relevant_config in Hk. rewrite dget_dfilter in Hk. destruct (mem _ _); [|discriminate]. rewrite A1 in Hk. now injection Hk as <-.
Qed.

Lemma runner_update_touches u d path persist kw s s' o r : cms_wf (r_cms s) ->
  runner_update u d (Some path) persist kw s = (s', o) -> target (r_cms s) (path_parts path) = Some r ->
  touches r (r_cms s) (r_cms s') /\ cms_wf (r_cms s') /\ r_calls s' = r_calls s /\
  (forall q, q <> path -> dget q (r_loaded s') = dget q (r_loaded s)).
Proof.
  intros W H Ht. assert (S := runner_update_spec _ _ _ _ _ _ _ _ H). cbn zeta in S. rewrite Ht in S.
  destruct S as (T & C & _ & S). split; [exact T|].
  assert (L : forall ob' q, q <> path -> dget q (dset path ob' (r_loaded s)) = dget q (r_loaded s)).
  { intros ob' q Hq. now rewrite dget_dset_neq. }
  destruct (current (r_cms s) r) as [c|] eqn:Ec; [|destruct S as (-> & _); auto].
  assert (Wc : cfg_wf c) by (now apply (proj2 W r)).
  destruct (cfg_checked_update c d persist kw) as [[c' b]|e] eqn:Ek.
  - assert (Wc' := checked_update_wf _ _ _ _ _ _ Wc Ek). destruct S as (Hc' & S).
    split; [eapply cms_wf_touches; [exact W|exact T|]; intros c2 H2; congruence|]. split; [exact C|]. intros q Hq.
    destruct (if b then dget path (r_loaded s) else None) as [ob|].
    + destruct (applied_to u ob (c_vals c')) as [ob'|]; [destruct S as (-> & _); now apply L|destruct S as (_ & -> & _); reflexivity].
    + destruct S as (_ & -> & _). reflexivity.
  - destruct S as (_ & Hl & Hc'). split; [eapply cms_wf_touches; [exact W|exact T|]; intros c2 H2; congruence|].
    split; [exact C|]. intros q _. now rewrite Hl.
Qed.

(** an update of another item *)
Lemma other_ok_rs u d p' persist kw s s' o r' path r D E X :
  runner_update u d (Some p') persist kw s = (s', o) -> target (r_cms s) (path_parts p') = Some r' ->
  path <> p' -> r' <> r -> ~ In r' (map CSec ([] :: prefixes (rpath r))) ->
  ok_rs s path r D E X -> ok_rs s' path r D E X.
Proof.
  intros H Ht Hp Hne Hn [Hc Hl].
  destruct (runner_update_touches _ _ _ _ _ _ _ _ r' (oc_wf _ _ _ _ _ _ Hc) H Ht) as (T & W' & _ & L). split.
  - eapply other_ok_cms; eauto. now destruct (target_rpath _ _ _ Ht).
  - intros ob Hob. rewrite L in Hob by exact Hp. now apply Hl.
Qed.

(** an update of the item itself by a complete set of values *)
Lemma own_ok_rs u d path persist kw s s' r D E E' X :
  runner_update u d (Some path) persist kw s = (s', Ok tt) ->
  dwf kw -> plain_dict E' -> (forall k x e, dget k D = Some x -> dget k E = Some e -> plain e = true) ->
  (forall k x, dget k D = Some x -> exists e, dget k E' = Some e /\ dget k kw = Some e) ->
  (forall k x, dget k D = Some x -> ~ In k X -> dget k E' = Some x) ->
  ok_rs s path r D E X -> ok_rs s' path r D E' X.
Proof.
  intros H Wk PE' PE HE HX [[W Ht Hr (c & Hc & Hv & Hq)] Hl].
  assert (S := runner_update_spec _ _ _ _ _ _ _ _ H). cbn zeta in S. rewrite Ht, Hc in S. destruct S as (T & _ & _ & S).
  destruct (runner_update_touches _ _ _ _ _ _ _ _ r W H Ht) as (_ & W' & _ & _).
  assert (Wc : cfg_wf c) by (now apply (proj2 W r)).
  destruct (cfg_checked_update c d persist kw) as [[c' b]|e] eqn:Ek; [|destruct S as (Y & _); discriminate].
  assert (Wc' := checked_update_wf _ _ _ _ _ _ Wc Ek). destruct S as (Hc' & S).
  destruct (target_rpath _ _ _ Ht) as [Hloc _].
  (* the new values *)
  assert (New : forall k x, dget k D = Some x -> exists v e, dget k (c_vals c') = Some v /\ dget k E' = Some e /\ same_value v e /\
                 (b = true -> v = e) /\ (b = false -> dget k (c_vals c) = Some v)).
  { intros k x Hk. destruct (HE k x Hk) as (e & A1 & A2). destruct (Hv k x Hk) as (v & e0 & B1 & B2 & B3).
    destruct (checked_update_inv _ _ _ _ _ _ Ek) as [[-> ->]|[-> ->]].
    - exists v, e. split; [exact B1|]. split; [exact A1|]. split; [|split; [discriminate|auto]].
      unfold cfg_checked_update in Ek. destruct (dmem "config_" kw); [discriminate|].
      destruct (would_update c _ _) as [[]|] eqn:Ew; try discriminate; [destruct (dmem "E" kw); discriminate|].
      unfold would_update in Ew. cbn [opt_dict] in Ew. rewrite dupdate_nil_r in Ew.
      apply values_norm; [|exact (PE' k e A1)|].
      + rewrite (same_plain _ _ B3). now apply (PE k x).
      + eapply wul_false; [exact Ew| |exact B1]. apply dget_Some_In. rewrite dget_dupdate by exact Wk. now rewrite A2.
    - exists e, e. split; [|split; [exact A1|split; [reflexivity|split; [auto|discriminate]]]].
      cbn [cfg_update c_vals]. rewrite dget_dupdate by exact Wk. now rewrite A2. }
  split.
  - constructor; [exact W'|rewrite (proj1 T); exact Ht|exact Hr|]. exists c'. split; [exact Hc'|]. split.
    + intros k x Hk. destruct (New k x Hk) as (v & e & A1 & A2 & A3 & _). eauto.
    + destruct Hq as [Hq|Hq]; [now left|right]. rewrite (overriding_touches _ _ r T Hloc Hr). intros L k v HL Hk.
      destruct (Hq L k v HL Hk) as (B1 & B2 & B3). split; [exact B1|]. split; [|exact B3].
      destruct (New k v B1) as (v' & e & A1 & A2 & A3 & A4 & A5). rewrite (HX k v B1 B3) in A2. injection A2 as <-.
      destruct b; [now rewrite A1, A4|]. rewrite A1, <- B2. symmetry. now apply A5.
  - intros o Ho k v x Hk Hd. destruct b.
    + destruct (dget path (r_loaded s)) as [ob|] eqn:El.
      * destruct (applied_to u ob (c_vals c')) as [ob'|] eqn:Ea; [|destruct S as (Y & _); discriminate].
        destruct S as (Sl & _). rewrite Sl, dget_dset_eq in Ho. injection Ho as <-.
        refine (applied_agree u ob (c_vals c') ob' D E' (proj1 Wc') Ea _ k v x Hk Hd).
        intros k0 d0 H0. destruct (New k0 d0 H0) as (v0 & e0 & A1 & A2 & A3 & _). eauto.
      * destruct S as (_ & Sl & _). congruence.
    + destruct S as (_ & Sl & _). rewrite Sl in Ho. destruct (Hl o Ho k v x Hk Hd) as (e0 & B1 & B2).
      destruct (New k x Hd) as (v' & e & A1 & A2 & A3 & _ & A5). exists e. split; [exact A2|].
      destruct (Hv k x Hd) as (v1 & e1 & C1 & C2 & C3). rewrite (A5 eq_refl) in C1. injection C1 as <-.
      unfold same_value in *. congruence.
Qed.

(** what runs preserve: [n] calls had been made before *)
Definition run_ok (n : nat) (path : string) (r : cref) (D E : dict pyval) (X : list string) (s : rs) : Prop :=
  ok_rs s path r D E X /\ forall i o, n <= i -> nth_error (r_calls s) i = Some (path, o) -> agreeD D E (arguments o).

Section OneItem.
  Variables (n : nat) (path : string) (r : cref) (D E : dict pyval) (X : list string).
  Let J := run_ok n path r D E X.
  Let R (s s' : rs) : Prop := J s -> J s'.
  Let Rrefl s : R s s. Proof. unfold R. auto. Qed.
  Let Rtrans a b c : R a b -> R b c -> R a c. Proof. unfold R. auto. Qed.

  (** the config that is read agrees *)
  Lemma get_config_J q s : J s ->
    J (fst (get_config q s)) /\
    (q = path -> forall c, snd (get_config q s) = Ok c ->
       forall k d, dget k D = Some d -> exists v e, dget k (c_vals c) = Some v /\ dget k E = Some e /\ same_value v e).
  Proof.
    intros [[Hc Hl] Hcalls]. unfold get_config, bind, on_cms.
    assert (Hc' := get_ok_cms q (r_cms s) _ _ _ _ _ Hc). destruct (cm_get q (r_cms s)) as [st o] eqn:Eg. cbn [fst] in Hc'.
    assert (S := cm_get_spec _ _ _ _ (oc_wf _ _ _ _ _ _ Hc) Eg).
    assert (J1 : J (RS st (r_loaded s) (r_next s) (r_calls s))) by (split; [split|]; assumption).
    destruct o as [[r0|]|e]; cbn [fst snd]; [|split; [exact J1|discriminate]|split; [exact J1|discriminate]].
    assert (Hd : deref r0 st = (st, snd (deref r0 st))) by (unfold deref; now destruct (read_cref st r0)).
    cbn [r_cms r_loaded r_next r_calls]. rewrite Hd. cbn [fst snd]. split; [exact J1|]. intros -> c Hdc k d Hk.
    rewrite (oc_target _ _ _ _ _ _ Hc) in S. destruct S as (_ & _ & S). destruct (oc_vals _ _ _ _ _ _ Hc) as (c0 & Hc0 & _).
    rewrite Hc0 in S. destruct S as (Y & c' & Rd & _). injection Y as <-. rewrite (deref_read _ _ _ Rd) in Hdc. injection Hdc as <-.
    destruct (oc_vals _ _ _ _ _ _ Hc') as (c1 & Hc1 & Hv1 & _). apply read_current in Rd. rewrite Hc1 in Rd. injection Rd as <-.
    now apply (Hv1 k d).
  Qed.
End OneItem.
