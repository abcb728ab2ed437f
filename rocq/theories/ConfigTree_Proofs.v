From Verif Require Import ConfigTree_Model ConfigTree_Spec Config_Proofs.
Local Open Scope list_scope.

(* ------------------------------------------------------------------ *)
(** * lookups after local changes of the tree *)

Lemma sec_getattr_set_attr_neq r s x v y : y <> x ->
  sec_getattr r (set_attr s x v) y = sec_getattr r s y.
Proof.
  intro H. unfold sec_getattr, set_attr, own_config_named. cbn.
  rewrite dget_dset_neq by exact H. reflexivity.
Qed.

Lemma sec_getattr_set_attr_eq r s x v : mem x r = false ->
  sec_getattr r (set_attr s x v) x = Ok (node_lookup (s_cfg s) v).
Proof. intro H. unfold sec_getattr, set_attr. rewrite H. cbn. now rewrite dget_dset_eq. Qed.

Lemma has_name_iff x n : has_name x n = true <-> node_name n = Some x.
Proof.
  unfold has_name. destruct (node_name n) as [y|]; [|split; discriminate].
  rewrite String.eqb_eq. split; intro H; [now subst|now injection H].
Qed.

Lemma last_named_name x items n : last_named x items = Some n -> node_name n = Some x.
Proof.
  induction items as [|m items IH]; cbn; [discriminate|].
  destruct (last_named x items); [exact IH|]. destruct (has_name x m) eqn:E; [|discriminate].
  intros [= <-]. now apply has_name_iff.
Qed.

Lemma has_name_unique x y n : has_name x n = true -> y <> x -> has_name y n = false.
Proof.
  intros H Hne. apply has_name_iff in H. unfold has_name. rewrite H.
  apply String.eqb_neq. exact Hne.
Qed.

Lemma last_named_replace x v items y :
  node_name v = Some x ->
  last_named y (replace_last_named x v items) =
  match last_named x items with
  | Some _ => if String.eqb y x then Some v else last_named y items
  | None => last_named y items
  end.
Proof.
  intro Hv. assert (Hvx : has_name x v = true) by now apply has_name_iff.
  induction items as [|n items IH]; cbn; [reflexivity|].
  destruct (last_named x items) as [m|] eqn:Ex; cbn.
  - rewrite IH. destruct (String.eqb y x) eqn:E; [reflexivity|reflexivity].
  - destruct (has_name x n) eqn:En; cbn.
    + destruct (String.eqb y x) eqn:E.
      * apply String.eqb_eq in E; subst y. now rewrite Ex, Hvx.
      * apply String.eqb_neq in E. destruct (last_named y items); [reflexivity|].
        now rewrite (has_name_unique x y v Hvx E), (has_name_unique x y n En E).
    + reflexivity.
Qed.

Lemma node_lookup_sec own n s : node_lookup own n = LSec s -> n = NSec s.
Proof. destruct n; cbn; try discriminate; [destruct own; discriminate|]. now intros [= <-]. Qed.

(** a lookup that gives a section comes from an attribute or from the item list *)
Lemma sec_getattr_sec_inv r s x s0 : sec_getattr r s x = Ok (LSec s0) ->
  mem x r = false /\
  (dget x (s_attrs s) = Some (NSec s0) \/
   (dget x (s_attrs s) = None /\ own_config_named s x = None /\ last_named x (s_items s) = Some (NSec s0))).
Proof.
  unfold sec_getattr. destruct (mem x r); [discriminate|].
  destruct (dget x (s_attrs s)) as [n|] eqn:E.
  - intros [= H]. apply node_lookup_sec in H. subst. auto.
  - destruct (own_config_named s x); [discriminate|].
    destruct (last_named x (s_items s)) as [n|] eqn:El; [|discriminate].
    intros [= H]. apply node_lookup_sec in H. subst. auto.
Qed.

Lemma replace_child_shape s x s1 : s_name (replace_child s x s1) = s_name s /\ s_cfg (replace_child s x s1) = s_cfg s.
Proof. unfold replace_child. destruct (dmem x (s_attrs s)); split; reflexivity. Qed.

Lemma sec_getattr_replace_child r s x s0 s1 y :
  sec_getattr r s x = Ok (LSec s0) -> s_name s1 = s_name s0 ->
  sec_getattr r (replace_child s x s1) y = if String.eqb y x then Ok (LSec s1) else sec_getattr r s y.
Proof.
  intros H Hn. apply sec_getattr_sec_inv in H as [Hm H]. unfold replace_child, dmem.
  destruct H as [H|(H1 & H2 & H3)].
  - rewrite H. destruct (String.eqb y x) eqn:E.
    + apply String.eqb_eq in E; subst. now rewrite sec_getattr_set_attr_eq.
    + apply String.eqb_neq in E. now rewrite sec_getattr_set_attr_neq.
  - rewrite H1. assert (Hx : s_name s0 = x) by (apply last_named_name in H3; now injection H3).
    unfold sec_getattr. cbn [s_attrs s_items s_cfg]. destruct (String.eqb y x) eqn:E.
    + apply String.eqb_eq in E; subst y. rewrite Hm, H1.
      assert (Ho : own_config_named (Sec (s_name s) (s_cfg s) (s_attrs s) (replace_last_named x (NSec s1) (s_items s))) x = None)
        by exact H2.
      rewrite Ho, last_named_replace by (cbn; congruence). rewrite H3. now rewrite String.eqb_refl.
    + destruct (mem y r); [reflexivity|]. destruct (dget y (s_attrs s)); [reflexivity|].
      change (own_config_named (Sec (s_name s) (s_cfg s) (s_attrs s) (replace_last_named x (NSec s1) (s_items s))) y)
        with (own_config_named s y).
      destruct (own_config_named s y); [reflexivity|].
      rewrite last_named_replace by (cbn; congruence). now rewrite H3, E.
Qed.

(** only a path into sections gives something other than LOther *)
Definition real (l : lookup) : Prop := l <> LOther.

Lemma leaf_getattrs_real l parts l' : leaf_getattrs l parts = Ok l' -> real l' -> parts = [] /\ l' = l.
Proof.
  revert l. induction parts as [|y rest IH]; intros l H Hr; cbn in H.
  - injection H as <-. auto.
  - assert (G : leaf_getattrs LOther rest = Ok l' -> False).
    { intro E. destruct rest; cbn in E; [|discriminate]. injection E as <-. now apply Hr. }
    destruct l; try discriminate;
      match type of H with (if ?b then _ else _) = _ => destruct b end; try discriminate; now elim G.
Qed.

Lemma get_nested_app r s p q s0 :
  get_nested r s p = Ok (LSec s0) ->
  get_nested r s (p ++ q) = get_nested (match p with [] => r | _ => sec_reserved end) s0 q.
Proof.
  revert r s. induction p as [|x p IH]; intros r s H; cbn [get_nested app] in *.
  - now injection H as <-.
  - destruct (sec_getattr r s x) as [l|e]; [|discriminate].
    destruct l; try (apply leaf_getattrs_real in H as [_ H]; [discriminate|discriminate]).
    rewrite (IH sec_reserved s1 H). now destruct p.
Qed.

Lemma get_nested_parent r s p x l : get_nested r s (p ++ [x]) = Ok l -> real l ->
  exists s0, get_nested r s p = Ok (LSec s0).
Proof.
  revert r s. induction p as [|y p IH]; intros r s H Hr; cbn [get_nested app] in *.
  - eauto.
  - destruct (sec_getattr r s y) as [m|e]; [|discriminate]. destruct m.
    + apply leaf_getattrs_real in H as [H _]; [|exact Hr]. destruct p; discriminate.
    + apply leaf_getattrs_real in H as [H _]; [|exact Hr]. destruct p; discriminate.
    + apply leaf_getattrs_real in H as [H _]; [|exact Hr]. destruct p; discriminate.
    + eauto.
    + apply leaf_getattrs_real in H as [H _]; [|exact Hr]. destruct p; discriminate.
Qed.

Lemma get_nested_prefix r s p q l : q <> [] -> get_nested r s (p ++ q) = Ok l -> real l ->
  exists s0, get_nested r s p = Ok (LSec s0).
Proof.
  revert p l. induction q as [|x q IH]; intros p l Hq H Hr; [easy|].
  destruct q as [|y q].
  - eapply get_nested_parent; eassumption.
  - replace (p ++ x :: y :: q) with ((p ++ [x]) ++ y :: q) in H by now rewrite <- app_assoc.
    destruct (IH (p ++ [x]) l ltac:(discriminate) H Hr) as [s0 H0].
    eapply get_nested_parent; [exact H0|discriminate].
Qed.

(* ------------------------------------------------------------------ *)
(** * set_nested *)

Lemma set_nested_cons r s x y p v :
  set_nested r s (x :: y :: p) v =
  match sec_getattr r s x with
  | Raise e => Raise e
  | Ok (LSec s') => match set_nested sec_reserved s' (y :: p) v with
                    | Ok s'' => Ok (replace_child s x s'') | Raise e => Raise e end
  | Ok _ => Raise AttributeError
  end.
Proof. reflexivity. Qed.

Lemma set_nested_shape r s p v s' : set_nested r s p v = Ok s' -> s_name s' = s_name s /\ s_cfg s' = s_cfg s.
Proof.
  revert r s s'. destruct p as [|x p]; intros r s s' H; [discriminate|].
  destruct p as [|y p].
  - cbn in H. injection H as <-. split; reflexivity.
  - rewrite set_nested_cons in H. destruct (sec_getattr r s x) as [[]|]; try discriminate.
    destruct (set_nested sec_reserved s0 (y :: p) v); [|discriminate]. injection H as <-.
    apply replace_child_shape.
Qed.

Definition see_l (l : res lookup) : option seen :=
  match l with
  | Ok (LConf c) => Some (SConf c)
  | Ok (LFile r n) => Some (SFile r n)
  | Ok (LSec s) => Some (SSec (s_name s) (s_cfg s))
  | Ok (LSelf c) => Some (SSelf c)
  | _ => None
  end.

Lemma see_l_leaf l parts : see_l (leaf_getattrs l parts) = match parts with [] => see_l (Ok l) | _ => None end.
Proof.
  destruct parts as [|y rest]; [reflexivity|].
  destruct (leaf_getattrs l (y :: rest)) as [l'|] eqn:E; [|reflexivity].
  destruct l'; try reflexivity; apply leaf_getattrs_real in E as [E _]; discriminate.
Qed.

(** setting an entry never changes what is seen at a path not extending it *)
Lemma set_nested_other r s p v s' q :
  set_nested r s p v = Ok s' -> (forall t, q <> p ++ t) ->
  see_l (get_nested r s' q) = see_l (get_nested r s q).
Proof.
  revert r s s' q. induction p as [|x p IH]; intros r s s' q H Hq; [discriminate|].
  destruct q as [|y q].
  { cbn. destruct (set_nested_shape _ _ _ _ _ H) as [-> ->]. reflexivity. }
  destruct p as [|z p].
  - cbn in H. injection H as <-. cbn [get_nested].
    rewrite sec_getattr_set_attr_neq; [reflexivity|]. intros ->. now apply (Hq q).
  - rewrite set_nested_cons in H. destruct (sec_getattr r s x) as [[]|] eqn:Ex; try discriminate.
    destruct (set_nested sec_reserved s0 (z :: p) v) as [s1|] eqn:E1; [|discriminate]. injection H as <-.
    destruct (set_nested_shape _ _ _ _ _ E1) as [Hn _].
    cbn [get_nested]. rewrite (sec_getattr_replace_child r s x s0 s1 y Ex Hn).
    destruct (String.eqb y x) eqn:E; [|reflexivity].
    apply String.eqb_eq in E; subst y. rewrite Ex. apply IH; [exact E1|].
    intros t ->. now apply (Hq t).
Qed.

(** what is seen at and below the entry set *)
Lemma set_nested_at r s p v s' l t :
  set_nested r s p v = Ok s' -> get_nested r s p = Ok l -> real l ->
  exists sp, get_nested r s (removelast p) = Ok (LSec sp) /\
    get_nested r s' (p ++ t) = match node_lookup (s_cfg sp) v with
                               | LSec s1 => get_nested sec_reserved s1 t
                               | l' => leaf_getattrs l' t
                               end.
Proof.
  revert r s s'. induction p as [|x p IH]; intros r s s' H Hg Hr; [discriminate|].
  destruct p as [|y p].
  - cbn in H. injection H as <-. exists s. split; [reflexivity|].
    cbn [app get_nested]. rewrite sec_getattr_set_attr_eq.
    + destruct (node_lookup (s_cfg s) v); reflexivity.
    + cbn in Hg. unfold sec_getattr in Hg. destruct (mem x r); [|reflexivity].
      cbn in Hg. injection Hg as <-. now elim Hr.
  - rewrite set_nested_cons in H. cbn [get_nested] in Hg.
    destruct (sec_getattr r s x) as [[]|] eqn:Ex; try discriminate.
    destruct (set_nested sec_reserved s0 (y :: p) v) as [s1|] eqn:E1; [|discriminate]. injection H as <-.
    destruct (set_nested_shape _ _ _ _ _ E1) as [Hn _].
    destruct (IH sec_reserved s0 s1 E1 Hg Hr) as (sp & Hp & Ht).
    exists sp. split.
    + change (removelast (x :: y :: p)) with (x :: removelast (y :: p)). cbn [get_nested]. now rewrite Ex.
    + change ((x :: y :: p) ++ t) with (x :: ((y :: p) ++ t)). cbn [get_nested].
      rewrite (sec_getattr_replace_child r s x s0 s1 x Ex Hn), String.eqb_refl. exact Ht.
Qed.

Lemma set_nested_ok r s p v l : get_nested r s p = Ok l -> real l -> p <> [] ->
  exists s', set_nested r s p v = Ok s'.
Proof.
  revert r s. induction p as [|x p IH]; intros r s H Hr Hne; [easy|].
  destruct p as [|y p].
  - eexists. reflexivity.
  - rewrite set_nested_cons. cbn [get_nested] in H.
    destruct (sec_getattr r s x) as [[]|]; try discriminate;
      try (apply leaf_getattrs_real in H as [H _]; [discriminate|exact Hr]).
    destruct (IH sec_reserved s0 H Hr ltac:(discriminate)) as [s' ->]. eauto.
Qed.

(* ------------------------------------------------------------------ *)
(** * map_sec with set_cfg *)

Lemma map_sec_name r c s p : s_name (map_sec r (set_cfg c) s p) = s_name s.
Proof.
  destruct p as [|x p]; [reflexivity|]. cbn. destruct (sec_getattr r s x) as [[]|]; try reflexivity.
  apply replace_child_shape.
Qed.

Lemma node_lookup_set_cfg own c n : node_lookup (Some own) n <> LSelf own -> node_lookup (Some c) n = node_lookup (Some own) n.
Proof. destruct n; cbn; try reflexivity. intro H. now elim H. Qed.

Lemma sec_getattr_set_cfg r s c old x : s_cfg s = Some old -> c_name c = c_name old ->
  sec_getattr r (set_cfg c s) x =
  match sec_getattr r s x with Ok (LSelf _) => Ok (LSelf c) | l => l end.
Proof.
  intros Ho Hn. unfold sec_getattr, own_config_named, set_cfg. cbn [s_cfg s_attrs s_items]. rewrite Ho, Hn.
  destruct (mem x r); [reflexivity|].
  destruct (dget x (s_attrs s)) as [n|]; [destruct n; reflexivity|].
  destruct (match c_name old with Some n => String.eqb x n | None => false end); [reflexivity|].
  destruct (last_named x (s_items s)) as [n|]; [destruct n; reflexivity|reflexivity].
Qed.

Definition is_nil {A} (l : list A) : bool := match l with [] => true | _ => false end.

(** [relabel q p c v]: what replaces [v], seen at [q], when the config of section [p] becomes [c] *)
Definition strings_eqb (a b : list string) : bool := if list_eq_dec string_dec a b then true else false.
Definition relabel (p : list string) (c : config) (q : list string) (v : option seen) : option seen :=
  match v with
  | Some (SSec n own) => if strings_eqb q p then Some (SSec n (Some c)) else v
  | Some (SSelf old) => if strings_eqb (removelast q) p then Some (SSelf c) else v
  | _ => v
  end.

Lemma strings_eqb_refl a : strings_eqb a a = true.
Proof. unfold strings_eqb. now destruct (list_eq_dec string_dec a a). Qed.
Lemma strings_eqb_iff a b : strings_eqb a b = true <-> a = b.
Proof. unfold strings_eqb. destruct (list_eq_dec string_dec a b); split; congruence. Qed.
Lemma strings_eqb_cons x a b : strings_eqb (x :: a) (x :: b) = strings_eqb a b.
Proof.
  unfold strings_eqb. destruct (list_eq_dec string_dec a b), (list_eq_dec string_dec (x :: a) (x :: b)); congruence.
Qed.
Lemma strings_eqb_neq a b : a <> b -> strings_eqb a b = false.
Proof. unfold strings_eqb. destruct (list_eq_dec string_dec a b); congruence. Qed.

Lemma removelast_cons {A} (x y : A) l : removelast (x :: y :: l) = x :: removelast (y :: l).
Proof. reflexivity. Qed.

Lemma map_sec_see r s p c old s0 q :
  get_nested r s p = Ok (LSec s0) -> s_cfg s0 = Some old -> c_name c = c_name old ->
  see_l (get_nested r (map_sec r (set_cfg c) s p) q) = relabel p c q (see_l (get_nested r s q)).
Proof.
  revert r s q. induction p as [|x p IH]; intros r s q H Ho Hn.
  - cbn in H. injection H as <-. cbn [map_sec]. destruct q as [|y q]; [reflexivity|].
    cbn [get_nested]. rewrite (sec_getattr_set_cfg r s c old y Ho Hn).
    destruct (sec_getattr r s y) as [l|e]; [|reflexivity].
    destruct l as [c1|c1|f n|s1|].
    + rewrite see_l_leaf. destruct q; reflexivity.
    + rewrite !see_l_leaf. destruct q; reflexivity.
    + rewrite see_l_leaf. destruct q; reflexivity.
    + (* below another section nothing changes *)
      destruct (see_l (get_nested sec_reserved s1 q)) as [[]|] eqn:E; try reflexivity.
      cbn [relabel]. destruct q as [|z q]; [cbn in E; discriminate|]. rewrite removelast_cons. reflexivity.
    + rewrite see_l_leaf. destruct q; reflexivity.
  - cbn [map_sec get_nested] in *. destruct (sec_getattr r s x) as [l|e] eqn:Ex; [|discriminate].
    destruct l; try (apply leaf_getattrs_real in H as [_ H]; discriminate).
    destruct q as [|y q].
    { cbn. destruct (replace_child_shape s x (map_sec sec_reserved (set_cfg c) s1 p)) as [-> ->].
      reflexivity. }
    cbn [get_nested]. rewrite (sec_getattr_replace_child r s x s1 _ y Ex (map_sec_name _ _ _ _)).
    destruct (String.eqb y x) eqn:E.
    + apply String.eqb_eq in E; subst y. rewrite Ex, (IH sec_reserved s1 q H Ho Hn).
      destruct (see_l (get_nested sec_reserved s1 q)) as [[]|] eqn:Es; try reflexivity; cbn [relabel].
      * now rewrite strings_eqb_cons.
      * destruct q as [|z q]; [cbn in Es; discriminate|]. now rewrite removelast_cons, strings_eqb_cons.
    + apply String.eqb_neq in E.
      assert (G : forall a, strings_eqb (y :: a) (x :: p) = false) by (intro a; apply strings_eqb_neq; congruence).
      assert (G2 : forall q', strings_eqb (removelast (y :: q')) (x :: p) = false).
      { intros [|z q']; [reflexivity|]. rewrite removelast_cons. apply G. }
      change (match sec_getattr r s y with
              | Ok (LSec s') => get_nested sec_reserved s' q
              | Ok l => leaf_getattrs l q
              | Raise e => Raise e end) with (get_nested r s (y :: q)) at 1.
      assert (G3 : forall v, relabel (x :: p) c (y :: q) v = v).
      { intros [[]|]; cbn [relabel]; try reflexivity; [now rewrite G|]. now rewrite G2. }
      rewrite G3. cbn [get_nested]. destruct (sec_getattr r s y) as [[]|]; reflexivity.
Qed.

(* ------------------------------------------------------------------ *)
(** * state-level view *)

Lemma see_eq st p : see st p = see_l (lookup_at st p).
Proof. reflexivity. Qed.

Lemma see_none_iff st p : see st p = None <-> (exists e, lookup_at st p = Raise e) \/ lookup_at st p = Ok LOther.
Proof.
  unfold see. destruct (lookup_at st p) as [[]|e]; split; try discriminate; try tauto.
  - intros [[e H]|H]; discriminate.
  - intros [[e H]|H]; discriminate.
  - intros [[e H]|H]; discriminate.
  - intros [[e H]|H]; discriminate.
  - intros _. left. eauto.
Qed.

Lemma cref_eq_dec (a b : cref) : {a = b} + {a <> b}.
Proof. decide equality; apply (list_eq_dec string_dec). Qed.

Definition same_env (st st' : cms) : Prop :=
  cs_local st' = cs_local st /\ cs_disk st' = cs_disk st /\ cs_trace st' = cs_trace st.

(** [st'] differs from [st] at most in the config object [r] (and in which hooks have been called) *)
Definition touches (r : cref) (st st' : cms) : Prop :=
  (forall q, target st' q = target st q) /\
  (forall q, target st q <> Some r -> see st' q = see st q) /\
  (r <> CLocal -> cs_local st' = cs_local st) /\
  cs_disk st' = cs_disk st.

Lemma touches_refl r st : touches r st st.
Proof. repeat split. Qed.

Lemma touches_trans r a b c : touches r a b -> touches r b c -> touches r a c.
Proof.
  intros (A1 & A2 & A3 & A4) (B1 & B2 & B3 & B4). repeat split.
  - intro q. now rewrite B1.
  - intros q Hq. rewrite B2; [now apply A2|]. now rewrite A1.
  - intro H. now rewrite B3, A3.
  - now rewrite B4.
Qed.

Lemma touches_emit r e st : touches r st (fst (emit e st)).
Proof. repeat split. Qed.

Lemma read_cref_see st r : read_cref st r =
  match r with
  | CLocal => Some (cs_local st)
  | CItem p => match see st p with Some (SConf c) => Some c | _ => None end
  | CSec p => match see st p with Some (SSec _ own) => own | _ => None end
  end.
Proof. destruct r as [|p|p]; [reflexivity| |]; unfold read_cref, see; destruct (lookup_at st p) as [[]|]; reflexivity. Qed.

Lemma touches_read r st st' r' : touches r st st' -> r' <> r -> read_cref st' r' = read_cref st r'.
Proof.
  intros (A1 & A2 & A3 & A4) Hne. rewrite !read_cref_see. destruct r' as [|p|p].
  - f_equal. apply A3. congruence.
  - specialize (A1 p). specialize (A2 p). unfold target in A1, A2.
    destruct (see st p) as [[]|] eqn:E; destruct (see st' p) as [[]|] eqn:E'; try reflexivity; try discriminate;
      try (rewrite A2 in E' by congruence; rewrite ?E'; reflexivity);
      try (assert (X : Some (SConf c) = Some (SConf c0)) by (apply A2; congruence));
      try (specialize (A2 ltac:(congruence)); congruence).
  - specialize (A1 p). specialize (A2 p). unfold target in A1, A2.
    destruct (see st p) as [[]|] eqn:E; destruct (see st' p) as [[]|] eqn:E'; try reflexivity; try discriminate;
      try (specialize (A2 ltac:(congruence)); congruence).
Qed.

(* ------------------------------------------------------------------ *)
(** * set_item, write_cref *)

Lemma app_neq_strict {A} (p t : list A) : t <> [] -> p ++ t <> p.
Proof.
  intros Ht H. apply (f_equal (@length A)) in H. rewrite app_length in H.
  destruct t; [easy|]. cbn in H. lia.
Qed.

Lemma prefix_dec (p q : list string) : {t | q = p ++ t} + {forall t, q <> p ++ t}.
Proof.
  revert q. induction p as [|x p IH]; intros q.
  - left. now exists q.
  - destruct q as [|y q]; [right; intros t H; discriminate|].
    destruct (string_dec y x) as [->|Hne]; [|right; intros t [= H _]; congruence].
    destruct (IH q) as [[t ->]|H]; [left; now exists t|].
    right. intros t [= E]. now apply (H t).
Qed.

(** setting an item entry to a config *)
Lemma set_item_conf st p c l :
  lookup_at st p = Ok l -> real l -> (forall s, l <> LSec s) -> p <> [] ->
  exists st', set_item p (NConf c) st = (st', Ok tt) /\ same_env st st' /\
    see st' p = Some (SConf c) /\ (forall q, q <> p -> see st' q = see st q).
Proof.
  intros H Hr Hs Hne. unfold lookup_at in H.
  destruct (set_nested_ok _ _ _ (NConf c) _ H Hr Hne) as [s' E].
  unfold set_item. rewrite E. eexists. split; [reflexivity|]. split; [repeat split|].
  assert (A : forall t, see_l (get_nested mgr_reserved s' (p ++ t)) = match t with [] => Some (SConf c) | _ => None end).
  { intro t. destruct (set_nested_at _ _ _ _ _ _ t E H Hr) as (sp & _ & G). rewrite G. cbn [node_lookup].
    rewrite see_l_leaf. now destruct t. }
  split.
  - rewrite see_eq. unfold lookup_at. cbn. specialize (A []). now rewrite app_nil_r in A.
  - intros q Hq. rewrite !see_eq. unfold lookup_at. cbn [cs_root with_root].
    destruct (prefix_dec p q) as [[t ->]|Hp].
    + rewrite A. destruct t; [now rewrite app_nil_r in Hq|].
      destruct l as [c1|c1|f n|s1|]; try (now elim (Hs s1)); try (now elim Hr).
      * symmetry. destruct (get_nested mgr_reserved (cs_root st) (p ++ s :: t)) as [l'|] eqn:E2; [|reflexivity].
        destruct l'; try reflexivity;
          (destruct (get_nested_prefix _ _ p (s :: t) _ ltac:(discriminate) E2 ltac:(discriminate)) as [sx X]; congruence).
      * symmetry. destruct (get_nested mgr_reserved (cs_root st) (p ++ s :: t)) as [l'|] eqn:E2; [|reflexivity].
        destruct l'; try reflexivity;
          (destruct (get_nested_prefix _ _ p (s :: t) _ ltac:(discriminate) E2 ltac:(discriminate)) as [sx X]; congruence).
      * symmetry. destruct (get_nested mgr_reserved (cs_root st) (p ++ s :: t)) as [l'|] eqn:E2; [|reflexivity].
        destruct l'; try reflexivity;
          (destruct (get_nested_prefix _ _ p (s :: t) _ ltac:(discriminate) E2 ltac:(discriminate)) as [sx X]; congruence).
    + eapply set_nested_other; eassumption.
Qed.

(** the attribute the manager sets when the section's own config is addressed by name *)
Lemma set_item_self st p c :
  lookup_at st p = Ok (LSelf c) ->
  exists st' n, set_item p NSelf st = (st', Ok tt) /\ same_env st st' /\
    (forall q, see st' q = see st q) /\ see st (removelast p) = Some (SSec n (Some c)).
Proof.
  intros H. unfold lookup_at in H. assert (Hr : real (LSelf c)) by discriminate.
  assert (Hne : p <> []) by (intros ->; discriminate).
  destruct (set_nested_ok _ _ _ NSelf _ H Hr Hne) as [s' E].
  unfold set_item. rewrite E.
  destruct (exists_last Hne) as (a & b & Hab).
  assert (Hrl : removelast p = a) by (rewrite Hab, removelast_app by discriminate; cbn; apply app_nil_r).
  destruct (get_nested_parent mgr_reserved (cs_root st) a b (LSelf c)) as [sp Hsp]; [now rewrite <- Hab|discriminate|].
  assert (Hown : s_cfg sp = Some c).
  { rewrite Hab in H. rewrite (get_nested_app _ _ _ [b] _ Hsp) in H. cbn in H.
    destruct (sec_getattr _ sp b) as [l|] eqn:Eg; [|discriminate].
    assert (l = LSelf c) by (destruct l; cbn in H; congruence). subst l. clear H.
    unfold sec_getattr in Eg. destruct (mem b _); [discriminate|].
    destruct (dget b (s_attrs sp)) as [n|].
    - injection Eg as Eg. destruct n; cbn in Eg; try discriminate. destruct (s_cfg sp); [|discriminate].
      now injection Eg as <-.
    - unfold own_config_named in Eg. destruct (s_cfg sp) as [c1|].
      + destruct (match c_name c1 with Some n => String.eqb b n | None => false end).
        * now injection Eg as <-.
        * destruct (last_named b (s_items sp)) as [n|] eqn:El; [|discriminate]. injection Eg as Eg.
          destruct n; cbn in Eg; try discriminate. now injection Eg as <-.
      + destruct (last_named b (s_items sp)) as [n|]; [|discriminate]. injection Eg as Eg. now destruct n. }
  exists (with_root st s'), (s_name sp). split; [reflexivity|]. split; [repeat split|]. split.
  - intros q. rewrite !see_eq. unfold lookup_at. cbn [cs_root with_root].
    destruct (prefix_dec p q) as [[t ->]|Hp].
    + destruct (set_nested_at _ _ _ _ _ _ t E H Hr) as (sp' & Hp & G). rewrite G. rewrite Hrl, Hsp in Hp.
      injection Hp as <-. rewrite Hown. cbn [node_lookup]. rewrite see_l_leaf. destruct t as [|y t].
      * rewrite app_nil_r. now rewrite H.
      * symmetry. destruct (get_nested mgr_reserved (cs_root st) (p ++ y :: t)) as [l'|] eqn:E2; [|reflexivity].
        destruct l'; try reflexivity;
          (destruct (get_nested_prefix _ _ p (y :: t) _ ltac:(discriminate) E2 ltac:(discriminate)) as [sx X]; congruence).
    + eapply set_nested_other; eassumption.
  - rewrite Hrl, see_eq. unfold lookup_at. rewrite Hsp. cbn. now rewrite Hown.
Qed.

Lemma see_self_parent st p c : see st p = Some (SSelf c) ->
  exists n, see st (removelast p) = Some (SSec n (Some c)).
Proof.
  intro H. rewrite see_eq in H. destruct (lookup_at st p) as [[]|] eqn:E; try discriminate.
  injection H as ->. destruct (set_item_self _ _ _ E) as (_ & n & _ & _ & _ & G). now exists n.
Qed.

Lemma target_same st st' : (forall q, see st' q = see st q) -> forall q, target st' q = target st q.
Proof. intros H q. unfold target. now rewrite H. Qed.

Lemma see_nonempty_item st p : (exists c, see st p = Some (SConf c)) \/ (exists r n, see st p = Some (SFile r n)) -> p <> [].
Proof. intros H ->. cbn in H. destruct H as [[c H]|(r & n & H)]; discriminate. Qed.

(** loading / addressing the config at a path *)
Definition gf := get_func_or_section_configs.

Lemma gf_conf st p c : see st p = Some (SConf c) ->
  exists st', gf p st = (st', Ok (Some (CItem p))) /\ same_env st st' /\ (forall q, see st' q = see st q).
Proof.
  intro H. assert (Hne : p <> []) by (apply (see_nonempty_item st); left; eauto).
  rewrite see_eq in H. unfold gf, get_func_or_section_configs.
  destruct (lookup_at st p) as [[]|] eqn:E; try discriminate. injection H as ->.
  destruct (set_item_conf st p c _ E) as (st' & E1 & E2 & E3 & E4); try discriminate; [exact Hne|].
  exists st'. unfold bind. rewrite E1. split; [reflexivity|]. split; [exact E2|].
  intro q. destruct (list_eq_dec string_dec q p) as [->|Hq]; [|now apply E4].
  rewrite E3, see_eq, E. reflexivity.
Qed.

Lemma gf_file st p ref n content : see st p = Some (SFile ref n) -> read_file (cs_disk st) ref = Ok content ->
  exists st', gf p st = (st', Ok (Some (CItem p))) /\ same_env st st' /\
    see st' p = Some (SConf (loaded_config n ref content)) /\ (forall q, q <> p -> see st' q = see st q).
Proof.
  intros H Hf. assert (Hne : p <> []) by (apply (see_nonempty_item st); right; eauto).
  rewrite see_eq in H. unfold gf, get_func_or_section_configs.
  destruct (lookup_at st p) as [[]|] eqn:E; try discriminate. injection H as -> ->.
  destruct (set_item_conf st p (loaded_config n ref content) _ E) as (st' & E1 & E2 & E3 & E4); try discriminate; [exact Hne|].
  exists st'. unfold bind, lift. rewrite Hf, E1. auto.
Qed.

Lemma gf_file_err st p ref n e : see st p = Some (SFile ref n) -> read_file (cs_disk st) ref = Raise e ->
  gf p st = (st, Raise e).
Proof.
  intros H Hf. rewrite see_eq in H. unfold gf, get_func_or_section_configs.
  destruct (lookup_at st p) as [[]|] eqn:E; try discriminate. injection H as -> ->.
  unfold bind, lift. now rewrite Hf.
Qed.

Lemma gf_sec st p n own : see st p = Some (SSec n own) ->
  gf p st = (st, Ok (match own with Some _ => Some (CSec p) | None => None end)).
Proof.
  intros H. rewrite see_eq in H. unfold gf, get_func_or_section_configs.
  destruct (lookup_at st p) as [[]|] eqn:E; try discriminate. now injection H as <- <-.
Qed.

Lemma gf_self st p c : see st p = Some (SSelf c) ->
  exists st', gf p st = (st', Ok (Some (CSec (removelast p)))) /\ same_env st st' /\ (forall q, see st' q = see st q).
Proof.
  intros H. rewrite see_eq in H. unfold gf, get_func_or_section_configs.
  destruct (lookup_at st p) as [[]|] eqn:E; try discriminate. injection H as ->.
  destruct (set_item_self st p c E) as (st' & n & E1 & E2 & E3 & E4).
  exists st'. unfold bind. rewrite E1. auto.
Qed.

Lemma gf_none st p : see st p = None -> exists e, gf p st = (st, Raise e).
Proof.
  intro H. unfold gf, get_func_or_section_configs. apply see_none_iff in H as [[e ->]| ->]; eauto.
Qed.

(** summary of addressing a path *)
Lemma gf_spec st p st' o : gf p st = (st', o) ->
  match o with
  | Raise _ => st' = st
  | Ok None => st' = st /\ exists n, see st p = Some (SSec n None)
  | Ok (Some r) =>
      target st p = Some r /\ touches r st st' /\ cs_local st' = cs_local st /\ cs_trace st' = cs_trace st /\
      r <> CLocal /\ (exists c, current st r = Some c /\ read_cref st' r = Some c)
  end.
Proof.
  intro H. destruct (see st p) as [[c|ref n|n own|c]|] eqn:E.
  - destruct (gf_conf st p c E) as (s1 & E1 & (L & D & T) & E3). rewrite E1 in H. injection H as <- <-.
    unfold target. rewrite E. split; [reflexivity|].
    split; [split; [now apply target_same|split; [intros; apply E3|auto]]|].
    split; [exact L|]. split; [exact T|]. split; [discriminate|].
    exists c. cbn [current]. rewrite E. split; [reflexivity|]. rewrite read_cref_see, E3, E. reflexivity.
  - destruct (read_file (cs_disk st) ref) as [content|e] eqn:Ef.
    + destruct (gf_file st p ref n content E Ef) as (s1 & E1 & (L & D & T) & E3 & E4). rewrite E1 in H. injection H as <- <-.
      unfold target at 1. rewrite E. split; [reflexivity|].
      split; [|split; [exact L|split; [exact T|split; [discriminate|]]]].
      * split; [|split; [|auto]].
        -- intro q. unfold target. destruct (list_eq_dec string_dec q p) as [->|Hq]; [now rewrite E, E3|].
           now rewrite E4.
        -- intros q Hq. apply E4. intros ->. apply Hq. unfold target. now rewrite E.
      * exists (loaded_config n ref content). cbn [current]. rewrite E, Ef. split; [reflexivity|].
        rewrite read_cref_see, E3. reflexivity.
    + rewrite (gf_file_err st p ref n e E Ef) in H. now injection H as <- <-.
  - rewrite (gf_sec st p n own E) in H. injection H as <- <-. destruct own as [c|].
    + unfold target. rewrite E. split; [reflexivity|]. split; [apply touches_refl|].
      split; [reflexivity|]. split; [reflexivity|]. split; [discriminate|].
      exists c. cbn [current]. rewrite read_cref_see, E. auto.
    + split; [reflexivity|]. now exists n.
  - destruct (gf_self st p c E) as (s1 & E1 & (L & D & T) & E3). rewrite E1 in H. injection H as <- <-.
    destruct (see_self_parent st p c E) as [n En].
    unfold target at 1. rewrite E. split; [reflexivity|].
    split; [split; [now apply target_same|split; [intros; apply E3|auto]]|].
    split; [exact L|]. split; [exact T|]. split; [discriminate|].
    exists c. cbn [current]. rewrite read_cref_see, E3, En. auto.
  - destruct (gf_none st p E) as [e E1]. rewrite E1 in H. now injection H as <- <-.
Qed.

(** writing through a reference *)
Lemma write_spec st r c old : read_cref st r = Some old -> c_name c = c_name old ->
  exists st', write_cref r c st = (st', Ok tt) /\ touches r st st' /\ read_cref st' r = Some c /\
    cs_trace st' = cs_trace st.
Proof.
  intros Hr Hn. rewrite read_cref_see in Hr. destruct r as [|p|p].
  - eexists. split; [reflexivity|]. split; [|split; reflexivity].
    split; [reflexivity|]. split; [reflexivity|]. split; [congruence|reflexivity].
  - destruct (see st p) as [[c1|?|?|?]|] eqn:E; try discriminate. injection Hr as ->.
    assert (Hne : p <> []) by (apply (see_nonempty_item st); left; eauto).
    assert (El := E). rewrite see_eq in El. destruct (lookup_at st p) as [[]|] eqn:Ep; try discriminate.
    destruct (set_item_conf st p c _ Ep) as (st' & E1 & (L & D & T) & E3 & E4); try discriminate; [exact Hne|].
    exists st'. split; [exact E1|]. split; [|split; [rewrite read_cref_see, E3; reflexivity|exact T]].
    split; [|split; [|auto]].
    + intro q. unfold target. destruct (list_eq_dec string_dec q p) as [->|Hq]; [now rewrite E, E3|]. now rewrite E4.
    + intros q Hq. apply E4. intros ->. apply Hq. unfold target. now rewrite E.
  - destruct (see st p) as [[?|?|n own|?]|] eqn:E; try discriminate. subst own.
    assert (El := E). rewrite see_eq in El. destruct (lookup_at st p) as [[]|] eqn:Ep; try discriminate.
    injection El as El1 El2.
    eexists. split; [reflexivity|].
    assert (G : forall q, see (with_root st (map_sec mgr_reserved (set_cfg c) (cs_root st) p)) q = relabel p c q (see st q)).
    { intro q. rewrite !see_eq. unfold lookup_at. cbn [cs_root with_root]. eapply map_sec_see; eassumption. }
    split; [|split; [rewrite read_cref_see, G, E; cbn; now rewrite strings_eqb_refl|reflexivity]].
    split; [|split; [|auto]].
    + intro q. unfold target. rewrite G. destruct (see st q) as [[]|]; cbn [relabel]; try reflexivity.
      * now destruct (strings_eqb q p).
      * now destruct (strings_eqb (removelast q) p).
    + intros q Hq. rewrite G. unfold target in Hq. destruct (see st q) as [[]|]; cbn [relabel]; try reflexivity.
      * rewrite strings_eqb_neq; [reflexivity|congruence].
      * rewrite strings_eqb_neq; [reflexivity|congruence].
Qed.
