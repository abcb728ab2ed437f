(** Proofs about creating entries. *)
From Verif Require Import Create_Spec Setup_Proofs SetupLoad_Proofs SetupFiles_Proofs Selector_Proofs PipeDict_Proofs PipeDictText_Proofs ProjectWalk_Proofs Project_Proofs ConfigTree_Proofs ConfigLoad_Proofs ConfigWf_Proofs ConfigOps_Proofs RunnerOps_Proofs View_Proofs Project_Props PipeDict_Props Run_Proofs.
Local Open Scope string_scope.
Local Open Scope list_scope.

(* ------------------------------------------------------------------ *)
(** * Appending to the config tree *)

Lemma get_nested_cons r s x rest : get_nested r s (x :: rest) =
  match sec_getattr r s x with Raise e => Raise e | Ok (LSec s') => get_nested sec_reserved s' rest | Ok l => leaf_getattrs l rest end.
Proof. reflexivity. Qed.
Lemma leaf_not_key l rest : leaf_getattrs l rest <> Raise KeyError.
Proof.
  revert l. induction rest as [|y rest IH]; intros l; cbn [leaf_getattrs]; [discriminate|]. destruct l as [c|c|r n|s|]; try discriminate.
  - destruct (mem y conf_reserved || dmem y (c_vals c)); [apply IH|discriminate].
  - destruct (mem y conf_reserved || dmem y (c_vals c)); [apply IH|discriminate].
  - destruct (mem y file_reserved); [apply IH|discriminate].
Qed.

(** a section with one entry more *)
Lemma getattr_append r s v x z : sec_getattr r s x = Raise KeyError -> node_name v = Some x ->
  sec_getattr r (sec_append s v) z = if String.eqb z x then Ok (node_lookup (s_cfg s) v) else sec_getattr r s z.
Proof.
  intros H N. unfold sec_getattr, sec_append, own_config_named in *. cbn [s_attrs s_cfg s_items s_name]. rewrite last_named_app. cbn [last_named].
  destruct (String.eqb_spec z x) as [->|Z].
  - destruct (mem x r); [discriminate|]. destruct (dget x (s_attrs s)); [discriminate|]. unfold has_name. rewrite N, String.eqb_refl.
    destruct (s_cfg s) as [c|]; [|reflexivity]. destruct (match c_name c with Some n => String.eqb x n | None => false end); [discriminate|reflexivity].
  - unfold has_name. rewrite N. apply String.eqb_neq in Z. now rewrite Z.
Qed.

Definition seen_l (o : option seen) (q p : list string) (c : config) : option seen :=
  if list_eq_dec string_dec q p then Some (SConf c)
  else match o with Some v => Some v | None => match q with [] => None | _ => if prefixb q p then Some (SSec (last q "") None) else None end end.

Lemma prefixb_nil p : prefixb [] p = true.
Proof. apply prefixb_spec. now exists p. Qed.
Lemma prefixb_cons x q y p : prefixb (x :: q) (y :: p) = String.eqb x y && prefixb q p.
Proof.
  unfold prefixb. cbn [List.length firstn]. destruct (String.eqb_spec x y) as [->|N].
  - destruct (list_eq_dec string_dec (firstn (List.length q) p) q) as [->|M]; cbn [andb].
    + destruct (list_eq_dec string_dec (y :: q) (y :: q)); congruence.
    + destruct (list_eq_dec string_dec (y :: firstn (List.length q) p) (y :: q)); congruence.
  - destruct (list_eq_dec string_dec (y :: firstn (List.length q) p) (x :: q)); cbn [andb]; congruence.
Qed.
Lemma last_ne {A} (l : list A) a d : l <> [] -> last (a :: l) d = last l d.
Proof. destruct l; [congruence|reflexivity]. Qed.
Lemma seen_l_cons o x q p c : p <> [] -> (q = [] -> o <> None) -> seen_l o (x :: q) (x :: p) c = seen_l o q p c.
Proof.
  intros P Q. unfold seen_l. destruct (list_eq_dec string_dec (x :: q) (x :: p)) as [E|N], (list_eq_dec string_dec q p) as [E'|N']; try congruence.
  destruct o as [v|]; [reflexivity|]. destruct q as [|y q]; [now contradiction Q|]. rewrite prefixb_cons, String.eqb_refl. now rewrite last_ne by discriminate.
Qed.

Lemma append_new c : forall p r s, p <> [] -> Forall (fun x => mem x sec_reserved = false) p -> get_nested r s p = Raise KeyError -> c_name c = Some (last p "") ->
  exists s', append_nested r s p (NConf c) = Ok s' /\ s_name s' = s_name s /\ s_cfg s' = s_cfg s /\
    forall q, see_l (get_nested r s' q) = seen_l (see_l (get_nested r s q)) q p c.
Proof.
  induction p as [|x p IH]; intros r s Hne F H N; [congruence|]. rewrite get_nested_cons in H. inversion F as [|? ? Fx Fp]; subst. destruct p as [|y p].
  - assert (K : sec_getattr r s x = Raise KeyError).
    { destruct (sec_getattr r s x) as [[?|?|? ?|?|]|]; cbn [get_nested leaf_getattrs] in H; congruence. }
    cbn [append_nested]. eexists. split; [reflexivity|]. split; [reflexivity|]. split; [reflexivity|]. intros [|z q]; [reflexivity|]. rewrite !get_nested_cons.
    rewrite (getattr_append r s (NConf c) x z K N). destruct (String.eqb_spec z x) as [->|Z].
    + rewrite K. cbn [node_lookup]. rewrite see_l_leaf. destruct q as [|w q]; cbn [see_l seen_l]; unfold seen_l.
      * now destruct (list_eq_dec string_dec [x] [x]).
      * destruct (list_eq_dec string_dec (x :: w :: q) [x]); [congruence|]. rewrite prefixb_cons. destruct (prefixb (w :: q) []) eqn:E; [apply prefixb_spec in E as [? E]; discriminate|]. now rewrite andb_false_r.
    + unfold seen_l. destruct (list_eq_dec string_dec (z :: q) [x]); [congruence|]. rewrite prefixb_cons. apply String.eqb_neq in Z. rewrite Z. cbn [andb]. now destruct (see_l _).
  - rewrite append_nested_cons. destruct (sec_getattr r s x) as [l|e] eqn:Ex.
    + destruct l as [c0|c0|rf n|s1|]; try (now apply leaf_not_key in H).
      destruct (IH sec_reserved s1 ltac:(discriminate) Fp H N) as (s2 & E2 & N2 & C2 & S2). rewrite E2. eexists. split; [reflexivity|].
      destruct (replace_child_shape s x s2) as [Na Ca]. split; [exact Na|]. split; [exact Ca|]. intros [|z q].
      { cbn [get_nested see_l]. rewrite Na, Ca. unfold seen_l. destruct (list_eq_dec string_dec [] (x :: y :: p)); [congruence|reflexivity]. }
      rewrite !get_nested_cons. rewrite (sec_getattr_replace_child r s x s1 s2 z Ex N2). destruct (String.eqb_spec z x) as [->|Z].
      * rewrite Ex, S2. symmetry. apply seen_l_cons; [discriminate|]. intros ->. discriminate.
      * unfold seen_l. destruct (list_eq_dec string_dec (z :: q) (x :: y :: p)); [congruence|]. rewrite prefixb_cons. apply String.eqb_neq in Z. rewrite Z. cbn [andb]. now destruct (see_l _).
    + injection H as ->.
      assert (K : get_nested sec_reserved (Sec x None [] []) (y :: p) = Raise KeyError).
      { rewrite get_nested_cons. unfold sec_getattr. inversion Fp; subst. now rewrite H1. }
      destruct (IH sec_reserved (Sec x None [] []) ltac:(discriminate) Fp K N) as (s2 & E2 & N2 & C2 & S2). rewrite E2. eexists. split; [reflexivity|]. split; [reflexivity|]. split; [reflexivity|].
      assert (Nn : node_name (NSec s2) = Some x) by (cbn [node_name]; now rewrite N2). intros [|z q]; [cbn; unfold seen_l; now destruct (list_eq_dec string_dec [] (x :: y :: p))|].
      rewrite !get_nested_cons, (getattr_append r s (NSec s2) x z Ex Nn). destruct (String.eqb_spec z x) as [->|Z].
      * cbn [node_lookup]. rewrite S2, Ex. cbn [see_l]. unfold seen_l. destruct q as [|w q].
        { cbn [get_nested see_l s_name s_cfg]. destruct (list_eq_dec string_dec [] (y :: p)); [congruence|]. destruct (list_eq_dec string_dec [x] (x :: y :: p)); [congruence|].
          rewrite prefixb_cons, String.eqb_refl, prefixb_nil. reflexivity. }
        rewrite get_nested_cons. assert (Q : see_l match sec_getattr sec_reserved (Sec x None [] []) w with Raise e => Raise e | Ok (LSec s') => get_nested sec_reserved s' q | Ok l => leaf_getattrs l q end = None).
        { unfold sec_getattr. destruct (mem w sec_reserved); [|reflexivity]. rewrite see_l_leaf. now destruct q. }
        rewrite Q. destruct (list_eq_dec string_dec (w :: q) (y :: p)), (list_eq_dec string_dec (x :: w :: q) (x :: y :: p)); try congruence.
        rewrite prefixb_cons with (x := x), String.eqb_refl. reflexivity.
      * unfold seen_l. destruct (list_eq_dec string_dec (z :: q) (x :: y :: p)); [congruence|]. rewrite prefixb_cons. apply String.eqb_neq in Z. rewrite Z. cbn [andb]. now destruct (see_l _).
Qed.

(* ------------------------------------------------------------------ *)
(** * The config of a new item *)

Definition new_config (p : list string) (content : dict pyval) : config := loaded_config (last p "") (item_file p) content.

Lemma seen_l_with st p c q : seen_l (see_l (lookup_at st q)) q p c = seen_with st p c q.
Proof.
  unfold seen_l, seen_with. rewrite <- see_eq. destruct (list_eq_dec string_dec q p); [reflexivity|]. destruct (see st q) eqn:E; [reflexivity|].
  destruct q; [discriminate|reflexivity].
Qed.

Lemma reset_new base st path : lookup_at st (path_parts path) = Raise KeyError -> Forall (fun x => mem x sec_reserved = false) (path_parts path) ->
  match read_file (cs_disk st) (item_file (path_parts path)) with
  | Raise e => cm_reset base (Some path) true st = (st, Raise e)
  | Ok content => let c := new_config (path_parts path) content in
      exists st', cm_reset base (Some path) true st = (st', Ok (DConf c, true)) /\ cs_disk st' = cs_disk st /\ cs_local st' = cs_local st /\ cs_trace st' = cs_trace st /\
        forall q, see st' q = seen_with st (path_parts path) c q
  end.
Proof.
  intros K F. unfold cm_reset, bind. set (p := path_parts path) in *.
  assert (D : default_for base st p true = match read_file (cs_disk st) (item_file p) with Ok content => Ok (DConf (new_config p content)) | Raise e => Raise e end) by (unfold default_for; now rewrite K).
  rewrite D. destruct (read_file (cs_disk st) (item_file p)) as [content|e] eqn:R; [|reflexivity].
  cbv zeta. set (c := new_config p content). unfold cm_set. fold p. unfold get_func_or_section_configs. rewrite K. unfold bind. unfold set_func_or_section_config. cbn [default_node].
  assert (N : p <> []) by (intros E; unfold lookup_at in K; rewrite E in K; discriminate).
  destruct (append_new c p mgr_reserved (cs_root st) N F K eq_refl) as (s' & E & _ & _ & S). rewrite E. cbn. eexists. split; [reflexivity|]. split; [reflexivity|]. split; [reflexivity|]. split; [reflexivity|].
  intros q. rewrite see_eq. unfold lookup_at. cbn [cs_root with_root]. rewrite S. apply seen_l_with.
Qed.

Lemma runner_reset_new base u r path : lookup_at (r_cms r) (path_parts path) = Raise KeyError -> Forall (fun x => mem x sec_reserved = false) (path_parts path) ->
  match read_file (cs_disk (r_cms r)) (item_file (path_parts path)) with
  | Raise e => runner_reset base u (Some path) true r = (r, Raise e)
  | Ok content => dget path (r_loaded r) = None -> let c := new_config (path_parts path) content in
      exists r', runner_reset base u (Some path) true r = (r', Ok tt) /\ r_loaded r' = r_loaded r /\ r_next r' = r_next r /\ r_calls r' = r_calls r /\
        cs_disk (r_cms r') = cs_disk (r_cms r) /\ cs_local (r_cms r') = cs_local (r_cms r) /\ cs_trace (r_cms r') = cs_trace (r_cms r) /\
        forall q, see (r_cms r') q = seen_with (r_cms r) (path_parts path) c q
  end.
Proof.
  intros K F. pose proof (reset_new base (r_cms r) path K F) as H. unfold runner_reset, bind, on_cms. destruct (read_file (cs_disk (r_cms r)) (item_file (path_parts path))) as [content|e].
  - intros L. cbv zeta in *. destruct H as (st' & E & D & Lo & T & S). rewrite E. unfold loaded_at, gets. cbn [r_loaded]. rewrite L. eexists. split; [reflexivity|]. cbn [r_cms r_loaded r_next r_calls]. auto 10.
  - rewrite H. destruct r; reflexivity.
Qed.

(** what overrides the new item's own values is what was there before *)
Lemma seen_with_section st st' p c q : (forall q, see st' q = seen_with st p c q) -> q <> p -> section_values st' q = section_values st q.
Proof.
  intros S N. unfold section_values. rewrite S. unfold seen_with. destruct (list_eq_dec string_dec q p); [congruence|]. destruct (see st q) as [[?|? ?|? ?|?]|]; try reflexivity. destruct (prefixb q p); reflexivity.
Qed.
Lemma effective_new st st' p c own k : p <> [] -> (forall q, see st' q = seen_with st p c q) -> cs_local st' = cs_local st -> effective st' p own k = effective st p own k.
Proof.
  intros P S L. unfold effective, overriding_layers. rewrite L. destruct own as [|e own]; [reflexivity|]. do 2 f_equal. f_equal. f_equal.
  - apply map_ext_in. intros q Hq. apply in_rev in Hq. apply (seen_with_section st st' p c q S). intros ->. apply prefixes_in in Hq as (_ & t & Nt & E). rewrite <- (app_nil_r p) in E at 1. apply app_inv_head in E. congruence.
  - now rewrite (seen_with_section st st' p c [] S) by congruence.
Qed.
Lemma new_wf st st' p content : cms_wf st -> dwf content -> (forall q, see st' q = seen_with st p (new_config p content) q) -> cs_local st' = cs_local st -> cs_disk st' = cs_disk st -> cms_wf st'.
Proof.
  intros [W1 W2] D S L K. split; [now rewrite K|]. intros [|q|q] c; cbn [current].
  - rewrite L. intros [= <-]. now apply (W2 CLocal).
  - rewrite S, K. unfold seen_with. destruct (list_eq_dec string_dec q p).
    + intros [= <-]. split; [exact D|constructor].
    + intros H. apply (W2 (CItem q)). cbn [current]. destruct (see st q); [exact H|]. destruct (prefixb q p); discriminate.
  - rewrite S. unfold seen_with. destruct (list_eq_dec string_dec q p); [discriminate|]. intros H. apply (W2 (CSec q)). cbn [current]. destruct (see st q); [exact H|]. destruct (prefixb q p); discriminate.
Qed.

(* ------------------------------------------------------------------ *)
(** * The tree with a new item *)

Lemma last_entry_app x a b : last_entry x (a ++ b) = match last_entry x b with Some e => Some e | None => last_entry x a end.
Proof. induction a as [|e a IH]; cbn [app last_entry]; [now destruct (last_entry x b)|]. rewrite IH. now destruct (last_entry x b). Qed.
Lemma last_entry_replaced x e l : last_entry x l <> None -> entry_name e = x -> last_entry x (replace_last x e l) = Some e.
Proof.
  intros H N. induction l as [|a l IH]; [now contradiction H|]. cbn [replace_last]. cbn [last_entry] in H. destruct (last_entry x l) as [e'|] eqn:E.
  - cbn [last_entry]. rewrite IH by discriminate. reflexivity.
  - destruct (String.eqb x (entry_name a)); [|now contradiction H]. cbn [last_entry]. now rewrite E, N, String.eqb_refl.
Qed.

Lemma coll_set_name p : forall c e c', coll_set c p e = Ok c' -> coll_name c' = coll_name c.
Proof.
  destruct p as [|x p]; intros c e c'; [cbn; intros [= <-]; reflexivity|]. rewrite coll_set_eq. destruct (coll_getattr c x) as [[c1|t|]|].
  - destruct (coll_set c1 p e); [intros [= <-]; reflexivity|discriminate].
  - discriminate.
  - discriminate.
  - destruct (coll_set (Coll x []) p e); [intros [= <-]; reflexivity|discriminate].
Qed.
Lemma coll_set_there p : forall c e c', Forall (fun x => mem x coll_reserved = false) p -> coll_set c p e = Ok c' ->
  exists cc es, coll_get c' p = Ok (FColl cc) /\ coll_entries cc = es ++ [e].
Proof.
  induction p as [|x p IH]; intros c e c' F H.
  - cbn in H. injection H as <-. exists (coll_append c e). eexists. split; reflexivity.
  - inversion F as [|? ? Fx Fp]; subst. rewrite coll_set_eq in H.
    assert (G : forall c2, coll_name c2 = x -> coll_getattr (Coll (coll_name c) (replace_last x (EColl c2) (coll_entries c))) x = Ok (FColl c2) \/ last_entry x (coll_entries c) = None).
    { intros c2 N. unfold coll_getattr. rewrite Fx. cbn [coll_entries]. destruct (last_entry x (coll_entries c)) eqn:E; [|now right]. left. rewrite last_entry_replaced; [reflexivity|congruence|exact N]. }
    unfold coll_getattr at 1 in H. rewrite Fx in H. destruct (last_entry x (coll_entries c)) as [[m t|c1]|] eqn:E; [discriminate| |].
    + destruct (coll_set c1 p e) as [c2|] eqn:E2; [|discriminate]. injection H as <-. destruct (IH c1 e c2 Fp E2) as (cc & es & G1 & G2). exists cc, es. split; [|exact G2]. cbn [coll_get].
      assert (Nm : coll_name c2 = x). { apply coll_set_name in E2. rewrite E2. apply last_entry_in in E as [_ E]. exact E. }
      destruct (G c2 Nm) as [K|K]; [now rewrite K|discriminate].
    + destruct (coll_set (Coll x []) p e) as [c2|] eqn:E2; [|discriminate]. injection H as <-. destruct (IH _ e c2 Fp E2) as (cc & es & G1 & G2). exists cc, es. split; [|exact G2]. cbn [coll_get]. unfold coll_getattr. rewrite Fx.
      unfold coll_append. cbn [coll_entries]. rewrite last_entry_app. cbn [last_entry entry_name]. apply coll_set_name in E2. cbn in E2. now rewrite E2, String.eqb_refl.
Qed.
Lemma coll_get_app p q : forall c cc, coll_get c p = Ok (FColl cc) -> coll_get c (p ++ q) = coll_get cc q.
Proof.
  induction p as [|x p IH]; intros c cc H; cbn [app coll_get] in *; [now injection H as ->|]. destruct (coll_getattr c x) as [[c1|t|]|]; [now apply IH| | |discriminate]; destruct p; discriminate.
Qed.

Lemma reg_get_usable c p : usable_path p -> reg_get c p = coll_get c p.
Proof. intros U. now apply C51_registrar_finds_the_same. Qed.

(** the new section in the tree, with the new item last *)
Lemma reg_set_there c sub n t c' : usable_path sub -> reg_set c sub (EItem n t) = Ok c' ->
  exists cc es, reg_get c' sub = Ok (FColl cc) /\ coll_entries cc = es ++ [EItem n t] /\
    (mem n coll_reserved = false -> coll_get c' (sub ++ [n]) = Ok (FThing t)).
Proof.
  intros U H. rewrite (reg_set_usable c sub _ U) in H. destruct (coll_set_there sub c _ c' (proj2 U) H) as (cc & es & G & E). exists cc, es. rewrite (reg_get_usable c' sub U). split; [exact G|]. split; [exact E|].
  intros N. rewrite (coll_get_app sub [n] c' cc G). cbn [coll_get]. unfold coll_getattr. rewrite N, E, last_entry_app. cbn [last_entry entry_name]. now rewrite String.eqb_refl.
Qed.

(** trees only depend on what the elements that become items stand for *)
Lemma transform_ext v v' l : (forall x, In (PreItem x) l -> v x = v' x) -> transform v l = transform v' l.
Proof.
  induction l as [|p l IH]; intros H; [reflexivity|]. cbn [transform]. rewrite IH by (intros x Hx; apply H; now right). destruct p as [c|x]; [reflexivity|]. now rewrite (H x (or_introl eq_refl)).
Qed.

Section Views.
Variables w w' : pd -> res (string * thing).
Definition same_views (v : pd) : Prop := forall x, In x (viewed v) -> w x = w' x.
Definition same_tree (v : pd) : Prop := forall name, same_views v -> from_pd w name v = from_pd w' name v.

Lemma dict_same d : Forall (fun kv => same_tree (snd kv)) d -> same_views (PDict d) -> dict_entries w d = dict_entries w' d.
Proof.
  induction 1 as [|[k x] d Hx _ IH]; intros S; [reflexivity|]. unfold same_views in S. rewrite viewed_dict_cons in S. cbn [dict_entries]. rewrite IH by (intros y Hy; apply S, in_or_app; now right).
  destruct (is_section x) eqn:E; [|reflexivity]. cbn [snd] in Hx. now rewrite (Hx k) by (intros y Hy; apply S, in_or_app; now left).
Qed.
Lemma sub_same d : Forall (fun kv => same_tree (snd kv)) d -> (forall x, In x (viewed_sub d) -> w x = w' x) ->
  sub_pres w d = sub_pres w' d /\ forall ps x, sub_pres w d = Ok ps -> In (PreItem x) ps -> In x (viewed_sub d).
Proof.
  induction 1 as [|[k x] d Hx _ IH]; intros S; [split; [reflexivity|intros ps x [= <-] []]|]. rewrite viewed_sub_cons in S. destruct IH as [IH1 IH2]; [intros y Hy; apply S, in_or_app; now right|].
  cbn [sub_pres]. cbn [snd] in Hx. rewrite viewed_sub_cons. destruct (is_section x) eqn:E.
  - rewrite <- (Hx k) by (intros y Hy; apply S, in_or_app; now left). rewrite <- IH1. split; [reflexivity|]. intros ps y H Hy. destruct (from_pd w k x); [|discriminate]. destruct (sub_pres w d) as [ps'|]; [|discriminate].
    injection H as <-. destruct Hy as [Hy|Hy]; [discriminate|]. apply in_or_app. right. now apply (IH2 ps').
  - rewrite <- IH1. split; [reflexivity|]. intros ps y H Hy. destruct (sub_pres w d) as [ps'|]; [|discriminate]. injection H as <-. apply in_or_app. destruct Hy as [Hy|Hy]; [injection Hy as ->; left; now left|right; now apply (IH2 ps')].
Qed.
Lemma list_same l : Forall (fun x => match x with PDict d => Forall (fun kv => same_tree (snd kv)) d | _ => True end) l -> same_views (PList l) ->
  list_pres w l = list_pres w' l /\ forall ps x, list_pres w l = Ok ps -> In (PreItem x) ps -> In x (viewed (PList l)).
Proof.
  induction 1 as [|x l Hx _ IH]; intros S; [split; [reflexivity|intros ps x [= <-] []]|]. unfold same_views in S. rewrite viewed_list_cons in S. destruct IH as [IH1 IH2]; [intros y Hy; apply S, in_or_app; now right|].
  cbn [list_pres]. rewrite viewed_list_cons.
  assert (A : (match x with PDict d => sub_pres w d | _ => Ok [PreItem x] end) = (match x with PDict d => sub_pres w' d | _ => Ok [PreItem x] end) /\
    forall ps y, (match x with PDict d => sub_pres w d | _ => Ok [PreItem x] end) = Ok ps -> In (PreItem y) ps -> In y (match x with PDict d => viewed_sub d | _ => [x] end)).
  { destruct x as [n|s|s|m|d]; try (split; [reflexivity|intros ps y [= <-] [[= <-]|[]]; now left]). apply sub_same; [exact Hx|]. intros y Hy. apply S, in_or_app. now left. }
  destruct A as [A1 A2]. rewrite <- A1, <- IH1. split; [reflexivity|]. intros ps y H Hy. destruct (match x with PDict d => sub_pres w d | _ => Ok [PreItem x] end) as [p1|]; [|discriminate]. destruct (list_pres w l) as [p2|]; [|discriminate].
  injection H as <-. apply in_or_app. apply in_app_or in Hy. destruct Hy as [Hy|Hy]; [left; now apply (A2 p1)|right; now apply (IH2 p2)].
Qed.
Lemma views_tree v : same_tree v /\ match v with PDict d => Forall (fun kv => same_tree (snd kv)) d | _ => True end.
Proof.
  induction v as [n|s|s|l IH|l IH] using pd_ind2; try (split; [intros name _; reflexivity|exact I]).
  - split; [|exact I]. intros name S. destruct (list_same l) as [E1 E2]; [eapply Forall_impl; [|exact IH]; intros a Ha; exact (proj2 Ha)|exact S|].
    rewrite !from_pd_list, <- E1. destruct (list_pres w l) as [ps|]; [|reflexivity]. unfold mk_coll. rewrite (transform_ext w w' ps); [reflexivity|]. intros x Hx. apply S. now apply (E2 ps).
  - assert (H : Forall (fun kv => same_tree (snd kv)) l) by (eapply Forall_impl; [|exact IH]; intros a Ha; exact (proj1 Ha)). split; [|exact H]. intros name S. rewrite !from_dict_entries. now rewrite (dict_same l H S).
Qed.
Lemma from_dict_views name d : same_views (PDict d) -> from_dict w name d = from_dict w' name d.
Proof. apply (proj1 (views_tree (PDict d))). Qed.
End Views.

Lemma top_added d path item d' x : add_at d path item = (d', Ok tt) -> In x (top_sections d') -> In x (top_sections d) \/ x = hd "" path.
Proof.
  assert (T : forall (e : dict pd) y, In y (top_sections e) <-> exists v, In (y, v) e /\ is_section v = true).
  { intros e y. unfold top_sections. rewrite in_map_iff. split.
    - intros ([k v] & <- & H). apply filter_In in H. exists v. exact H.
    - intros (v & H1 & H2). exists (y, v). split; [reflexivity|]. apply filter_In. auto. }
  assert (S : forall k v (e : dict pd) y u, In (y, u) (dset k v e) -> In (y, u) e \/ y = k).
  { intros k v e. induction e as [|[k' u'] e IH]; intros y u; cbn [dset]; [intros [[= <- <-]|[]]; now right|]. destruct (String.eqb k k') eqn:E.
    - intros [[= <- <-]|H]; [right; now apply String.eqb_eq in E|left; now right].
    - intros [[= <- <-]|H]; [left; now left|]. destruct (IH y u H); [left; now right|now right]. }
  intros A H. apply T in H as (v & H1 & H2). destruct path as [|k [|k' rest]].
  - cbn in A. injection A as <-. left. apply T. eauto.
  - rewrite add_at_one in A. cbn [hd]. destruct (dget k d) as [[?|?|?|l|l]|]; injection A as <-; try discriminate;
      (destruct (S _ _ _ _ _ H1); [left; apply T; eauto|now right]).
  - rewrite add_at_more in A. cbn [hd]. destruct (dget k d) as [[?|?|?|l|l]|]; try discriminate.
    + destruct (add_at l (k' :: rest) item) as [e r]. injection A as <- _. destruct (S _ _ _ _ _ H1); [left; apply T; eauto|now right].
    + destruct (add_at [] (k' :: rest) item) as [e r]. injection A as <- _. destruct (S _ _ _ _ _ H1); [left; apply T; eauto|now right].
Qed.

(* ------------------------------------------------------------------ *)
(** * The steps *)

Lemma class_of_Some s x own : class_of s x = Some own -> In own (su_classes s) /\ dget "name" own = Some (CStr x).
Proof.
  intros H. apply find_some in H as [H1 H2]. split; [exact H1|]. unfold has_class_name in H2. destruct (dget "name" own) as [[|n| |]|]; try discriminate. apply String.eqb_eq in H2. congruence.
Qed.
Lemma class_of_None s x : class_of s x = None <-> forall c, In c (su_classes s) -> dget "name" c <> Some (CStr x).
Proof.
  split.
  - intros H c C E. pose proof (find_none _ _ H c C) as F. unfold has_class_name in F. rewrite E, String.eqb_refl in F. discriminate.
  - intros H. destruct (class_of s x) as [c|] eqn:E; [|reflexivity]. apply class_of_Some in E as [E1 E2]. now apply H in E1.
Qed.

Lemma misfit_or_placed s path func : (misfit s path func /\ forall pl, ~ placed s path func pl) \/ (~ misfit s path func /\ exists! pl, placed s path func pl).
Proof.
  destruct (class_of s (hd "" path)) as [own|] eqn:E.
  - apply class_of_Some in E as [E1 E2]. destruct func as [[n t]|].
    + left. split; [left; split; [eauto|left; discriminate]|]. intros pl H. inversion H as [? ? N|]; subst. now apply (N own).
    + destruct (Compare_dec.lt_dec (List.length path) 3) as [L|L].
      * left. split; [left; split; [eauto|now right]|]. intros pl H. inversion H; subst. contradiction (PeanoNat.Nat.lt_irrefl 3). apply (PeanoNat.Nat.le_lt_trans _ (List.length path)); assumption.
      * right. split.
        -- intros [[_ [H|H]]|[H _]]; [congruence|contradiction|now apply (H own)].
        -- exists (class_place s path). split; [apply (PlacedClass s path own); auto; now apply Compare_dec.not_lt|]. intros pl H. now inversion H.
  - pose proof (proj1 (class_of_None _ _) E) as N. destruct func as [[n t]|].
    + right. split.
      * intros [[(c & C1 & C2) _]|[_ H]]; [now apply (N c)|discriminate].
      * exists (general_place s path n). split; [now apply PlacedGeneral|]. intros pl H. now inversion H.
    + left. split; [right; now split|]. intros pl H. inversion H as [|c C1 C2]; subst. now apply (N c).
Qed.

Section Steps.
Variable parse : bool -> string -> res (dict pd).
Variable view : string -> pd -> res (string * thing).
Variable inst : ccfg -> pd -> res (string * thing).
Variable cfg : bool -> string -> thing -> option string -> res string.
Variable config_dir : fs -> ConfigTree_Model.dir.
Variable save : bool -> option string -> string -> dict pd -> res string.
Variable u : user.
Notation create := (pm_create parse inst cfg config_dir save u).
Notation install := (install cfg config_dir u).
Notation add_to_dict := (add_to_dict parse save).

Lemma write_out f p t : (f p <> Some Dir /\ (f p <> None \/ f (parent p) = Some Dir) /\ exists l, write p t f = (l, Ok tt) /\ final f l = put p (File t) f) \/ write p t f = ([], Raise OSError).
Proof.
  unfold write. destruct (f p) as [[|s]|] eqn:E; [now right| |].
  - left. split; [discriminate|]. split; [left; discriminate|]. eexists. split; [reflexivity|]. rewrite (final_map _ f _ "") by apply prefixes_ne. now rewrite prefixes_last.
  - destruct (f (parent p)) as [[|s]|] eqn:E2; [|now right|now right]. left. split; [discriminate|]. split; [now right|]. eexists. split; [reflexivity|]. rewrite (final_map _ f _ "") by apply prefixes_ne. now rewrite prefixes_last.
Qed.

Lemma add_spec f pl : let r := add_to_dict (pl_general pl) (pl_file pl) (pl_section pl) (pl_name pl) f in
  (exists e, r = ([], Raise e) /\ forall d d' text, ~ entered parse save f pl d d' text) \/
  (exists l d d' text, r = (l, Ok tt) /\ entered parse save f pl d d' text /\ final f l = put (pl_file pl) (File text) f).
Proof.
  unfold entered. cbv zeta. unfold Create_Model.add_to_dict. rewrite pbind_pfs. fold (content f (pl_file pl)). destruct (load_dict parse (pl_general pl) f (pl_file pl)) as [d|e]; [|left; exists e; split; [reflexivity|intros ? ? ? [[=] _]]].
  destruct (add_at d (pl_section pl) _) as [d' [[]|e]] eqn:A; [|left; exists e; split; [reflexivity|intros d1 d2 tx (K1 & K2 & _); injection K1 as <-; congruence]].
  destruct (save (pl_general pl) (content f (pl_file pl)) (pl_name pl) d') as [text|e] eqn:S; [|left; exists e; split; [reflexivity|intros d1 d2 tx (K1 & K2 & K & _); injection K1 as <-; rewrite A in K2; injection K2 as <-; congruence]].
  destruct (write_out f (pl_file pl) text) as [(C1 & C2 & l & E & F)|E].
  - right. exists l, d, d', text. auto 10.
  - left. exists OSError. split; [exact E|]. intros d1 d2 tx (_ & _ & _ & C1 & C2). unfold write in E. destruct (f (pl_file pl)) as [[|tt0]|]; [congruence|discriminate|]. destruct C2 as [C2|C2]; [congruence|]. rewrite C2 in E. discriminate.
Qed.

Lemma install_spec shared general s base c change sub n t full f l p l' p' o : install shared general s base c change sub n t full f l p = (l', p', o) ->
  (exists e, reg_set c sub (EItem n t) = Raise e /\ l' = l /\ p' = p /\ o = Raise e) \/
  exists c' l2, reg_set c sub (EItem n t) = Ok c' /\ l' = l ++ l2 /\ p_items p' = option_map (change c') (p_items p) /\
    (l2 = [] \/ exists cc, reg_get c' sub = Ok (FColl cc) /\ l2 = fst (output_files cfg general (base ++ sub) cc (final f l))) /\
    ((exists e, o = Raise e /\ p_runner p' = option_map (fun x => (if shared then change c' (fst x) else fst x, snd x)) (p_runner p)) \/
     exists cc ri r, reg_get c' sub = Ok (FColl cc) /\ output_files cfg general (base ++ sub) cc (final f l) = (l2, Ok tt) /\ p_runner p = Some (ri, r) /\
       runner_reset (su_config_folder s) u (Some full) true (with_disk (config_dir (final f l')) r) =
         (match p_runner p' with Some (_, r') => r' | None => r end, o) /\ exists r', p_runner p' = Some (if shared then change c' ri else ri, r')).
Proof.
  unfold Create_Model.install. destruct (reg_set c sub (EItem n t)) as [c'|e]; [|intros [= <- <- <-]; left; eauto 10]. cbn zeta. intros H. right. exists c'.
  assert (Im : (match p_items p with Some i => Some (change c' i) | None => None end) = option_map (change c') (p_items p)) by now destruct (p_items p).
  assert (Rm : (match p_runner p with Some (ri, r) => Some (if shared then change c' ri else ri, r) | None => None end) = option_map (fun x => (if shared then change c' (fst x) else fst x, snd x)) (p_runner p)) by now destruct (p_runner p) as [[? ?]|].
  rewrite Im, Rm in H. destruct (reg_get c' sub) as [[cc|tt0|]|e] eqn:G.
  - cbn [p_runner] in H. destruct (output_files cfg general (base ++ sub) cc (final f l)) as [l2 [[]|e]] eqn:O.
    + exists l2. destruct (p_runner p) as [[ri r]|] eqn:R; cbn [option_map fst snd] in H.
      * destruct (runner_reset (su_config_folder s) u (Some full) true (with_disk (config_dir (final f (l ++ l2))) r)) as [r' o'] eqn:Er. injection H as <- <- <-. split; [reflexivity|]. split; [reflexivity|]. split; [reflexivity|]. split; [right; exists cc; now rewrite O|].
        right. exists cc, ri, r. cbn [p_runner]. rewrite Er. eauto 10.
      * injection H as <- <- <-. split; [reflexivity|]. split; [reflexivity|]. split; [reflexivity|]. split; [right; exists cc; now rewrite O|]. left. eexists. split; [reflexivity|]. reflexivity.
    + injection H as <- <- <-. exists l2. split; [reflexivity|]. split; [reflexivity|]. split; [reflexivity|]. split; [right; exists cc; now rewrite O|]. left. eexists. split; [reflexivity|]. reflexivity.
  - injection H as <- <- <-. exists []. rewrite app_nil_r. split; [reflexivity|]. split; [reflexivity|]. split; [reflexivity|]. split; [now left|]. left. eexists. split; reflexivity.
  - injection H as <- <- <-. exists []. rewrite app_nil_r. split; [reflexivity|]. split; [reflexivity|]. split; [reflexivity|]. split; [now left|]. left. eexists. split; reflexivity.
  - injection H as <- <- <-. exists []. rewrite app_nil_r. split; [reflexivity|]. split; [reflexivity|]. split; [reflexivity|]. split; [now left|]. left. eexists. split; reflexivity.
Qed.

Lemma prefix_or {A} (a r q k : list A) : a ++ r = q ++ k -> List.length q <= List.length a -> exists w, a = q ++ w.
Proof.
  revert a. induction q as [|x q IH]; intros a E L; [now exists a|]. destruct a as [|y a]; [cbn in L; lia|]. cbn in E, L. injection E as -> E. destruct (IH a E) as [w ->]; [lia|]. now exists w.
Qed.

(** files that writing config files leaves alone *)
Lemma scaffold_leaves general base c f q : wf f -> List.length q <= List.length base -> (forall s, f q = Some (File s) -> final f (fst (output_files cfg general base c f)) q = Some (File s)) /\
  (f q = None -> (forall r, base <> q ++ r) -> final f (fst (output_files cfg general base c f)) q = None).
Proof.
  intros W L. rewrite output_files_acts. set (acts := coll_acts general base c).
  assert (I : In (final f (fst (piter (run_act cfg) acts f))) (crash_states (piter (run_act cfg) acts) f)).
  { unfold crash_states. destruct (final_in f (fst (piter (run_act cfg) acts f))) as [[-> _]|H]; [now left|now right]. }
  assert (Below : forall a, In a acts -> exists r, act_path a = base ++ r /\ (r = [] -> a = AMk base)).
  { intros a Ha. destruct (act_below general c base a Ha) as [->|(x & r & E & _)]; [exists []; split; [cbn; now rewrite app_nil_r|auto]|]. exists (x :: r). split; [exact E|discriminate]. }
  assert (Far : forall r, base ++ r = q -> r = []).
  { intros r E. rewrite <- E, app_length in L. destruct r; [reflexivity|cbn in L; lia]. }
  split.
  - intros s E. apply (crash_file cfg f acts _ q s W I); [|exact E]. intros gg n t H. destruct (Below _ H) as (r & E1 & E2). cbn in E1. symmetry in E1. apply Far in E1. now apply E2 in E1.
  - intros E N. rewrite <- E. apply (crash_untouched cfg f acts _ q W I). intros a Ha T. destruct a as [b|b s|gg b n t]; cbn [touches] in T.
    + destruct (Below _ Ha) as (r & E1 & _). cbn in E1. subst b. destruct T as [k K]. destruct (prefix_or (base) r q k) as [w ->]; [exact K|exact L|now apply (N w)].
    + destruct (Below _ Ha) as (r & E1 & E2). cbn in E1. symmetry in E1. rewrite T in Far. apply Far in E1. now apply E2 in E1.
    + destruct (Below _ Ha) as (r & E1 & E2). cbn in E1. symmetry in E1. rewrite T in Far. apply Far in E1. now apply E2 in E1.
Qed.

(** the four ways a call can go *)
Lemma create_rejected shared s path func f p : misfit s path func -> create shared s path func f p = ([], p, Raise ValueError).
Proof.
  intros [[(c & C1 & C2) [H|H]]|[H ->]]; unfold pm_create.
  - destruct (class_of s (hd "" path)) as [own|] eqn:E; [|apply class_of_None with (c := c) in E; [congruence|exact C1]]. now destruct func.
  - destruct (class_of s (hd "" path)) as [own|] eqn:E; [|apply class_of_None with (c := c) in E; [congruence|exact C1]]. destruct func; [reflexivity|]. destruct (Nat.ltb_spec (List.length path) 3); [reflexivity|lia].
  - apply class_of_None in H. now rewrite H.
Qed.

Lemma create_general shared s path n t f p l p' o : placed s path (Some (n, t)) (general_place s path n) -> create shared s path (Some (n, t)) f p = (l, p', o) ->
  (l = [] /\ p' = p /\ (exists e, o = Raise e) /\ forall d d' text, ~ entered parse save f (general_place s path n) d d' text) \/
  exists l1 d d' text, entered parse save f (general_place s path n) d d' text /\ final f l1 = put (pipeline_file (su_folder s)) (File text) f /\
    (p_items p = None /\ l = l1 /\ p' = p /\ o = Raise ValueError \/
     exists i, p_items p = Some i /\ install shared true s (defaults_of s) (i_general i) set_general path n t (join sdot (path ++ [n])) f l1 p = (l, p', o)).
Proof.
  intros Hp. inversion Hp as [? ? N|]; subst. apply class_of_None in N. unfold pm_create. rewrite N. pose proof (add_spec f (general_place s path n)) as A. cbv zeta in A. cbn [pl_general pl_file pl_section pl_name general_place] in A.
  destruct A as [(e & -> & K)|(l1 & d & d' & text & -> & K & F)].
  - intros [= <- <- <-]. left. eauto.
  - intros H. right. exists l1, d, d', text. split; [exact K|]. split; [exact F|]. destruct (p_items p) as [i|]; [right; eauto|]. left. now injection H as <- <- <-.
Qed.

Lemma create_class shared s path f p l p' o own : class_of s (hd "" path) = Some own -> 3 <= List.length path -> create shared s path None f p = (l, p', o) ->
  (l = [] /\ p' = p /\ (exists e, o = Raise e) /\ forall d d' text, ~ entered parse save f (class_place s path) d d' text) \/
  exists l1 d d' text, entered parse save f (class_place s path) d d' text /\ final f l1 = put (dict_file (su_folder s) (hd "" path)) (File text) f /\
    (l = l1 /\ p' = p /\ (exists e, o = Raise e /\ forall i rd c nt, p_items p = Some i -> registrar_dict p = Ok rd -> dget (hd "" path) rd = Some c -> inst (dupdate default_ccfg own) (PStr (last path "")) <> Ok nt) \/
     exists i rd c n t, p_items p = Some i /\ registrar_dict p = Ok rd /\ dget (hd "" path) rd = Some c /\ inst (dupdate default_ccfg own) (PStr (last path "")) = Ok (n, t) /\
       install shared false s (defaults_of s ++ [hd "" path]) c (set_specific (hd "" path)) (removelast (tl path)) n t (join sdot path) f l1 p = (l, p', o)).
Proof.
  intros N L. unfold pm_create. rewrite N. destruct (Nat.ltb_spec (List.length path) 3); [lia|]. pose proof (add_spec f (class_place s path)) as A. cbv zeta in A. cbn [pl_general pl_file pl_section pl_name class_place] in A.
  destruct A as [(e & -> & K)|(l1 & d & d' & text & -> & K & F)].
  - intros [= <- <- <-]. left. eauto.
  - intros H1. right. exists l1, d, d', text. split; [exact K|]. split; [exact F|]. unfold registrar_dict in *. destruct (p_items p) as [i|]; cbv beta iota zeta in H1; [|left; injection H1 as <- <- <-; split; [reflexivity|]; split; [reflexivity|]; eexists; split; [reflexivity|discriminate]].
    match type of H1 with context [dget _ ?rd] => set (rdd := rd) in * end. destruct (dget (hd "" path) rdd) as [c|] eqn:G; [|left; injection H1 as <- <- <-; split; [reflexivity|]; split; [reflexivity|]; eexists; split; [reflexivity|intros i0 rd c nt _ [= <-]; congruence]].
    destruct (inst _ (PStr (last path ""))) as [[n t]|e] eqn:I; [|left; injection H1 as <- <- <-; split; [reflexivity|]; split; [reflexivity|]; eexists; split; [reflexivity|congruence]].
    right. exists i, rdd, c, n, t. auto 10.
Qed.

Lemma install_file shared general s base c change sub n t full f l p l' p' o q x : install shared general s base c change sub n t full f l p = (l', p', o) ->
  wf (final f l) -> List.length q <= List.length base -> (final f l q = Some (File x) -> final f l' q = Some (File x)) /\ (final f l q = None -> (forall r, base ++ sub <> q ++ r) -> final f l' q = None).
Proof.
  intros H W L. apply install_spec in H as [(e & _ & -> & _)|(c' & l2 & _ & -> & _ & K & _)]; [now split|]. rewrite final_app. destruct K as [->|(cc & _ & ->)]; [now split|].
  destruct (scaffold_leaves general (base ++ sub) cc (final f l) q W) as [A B]; [rewrite app_length; lia|]. split; [apply A|exact B].
Qed.

Lemma lengths s x : List.length (dict_file (su_folder s) x) <= List.length (defaults_of s) /\ List.length (pipeline_file (su_folder s)) <= List.length (defaults_of s).
Proof. unfold dict_file, pipeline_file, defaults_of. rewrite !app_length. cbn. lia. Qed.

Lemma entered_wf f pl d d' text g : wf f -> entered parse save f pl d d' text -> g = put (pl_file pl) (File text) f -> wf g.
Proof. intros W (_ & _ & _ & C1 & C2) ->. apply (put_file_wf f (pl_file pl) text); auto. now intros q. Qed.

Lemma nothing_or_entry shared s path func f p l p' o pl : wf f -> placed s path func pl -> create shared s path func f p = (l, p', o) ->
  (l = [] /\ p' = p /\ (exists e, o = Raise e) /\ forall d d' text, ~ entered parse save f pl d d' text) \/
  exists d d' text, entered parse save f pl d d' text /\ final f l (pl_file pl) = Some (File text).
Proof.
  intros W Hp H. inversion Hp as [n t N Ef Ep|c C1 C2 L Ef Ep]; subst.
  - apply create_general in H as [H|(l1 & d & d' & text & K & F & H)]; [now left| |exact Hp]. right. exists d, d', text. split; [exact K|]. cbn [pl_file general_place].
    destruct H as [(_ & -> & _)|(i & _ & H)]; [rewrite F; apply put_eq|]. refine (proj1 (install_file _ _ _ _ _ _ _ _ _ _ _ _ _ _ _ _ _ _ H _ _) _); [|apply lengths; exact ""|rewrite F; apply put_eq]. now apply (entered_wf f (general_place s path n) d d' text).
  - destruct (class_of s (hd "" path)) as [own|] eqn:E; [|apply class_of_None with (c := c) in E; [congruence|exact C1]].
    apply (create_class shared s path f p l p' o own E L) in H as [H|(l1 & d & d' & text & K & F & H)]; [now left|]. right. exists d, d', text. split; [exact K|]. cbn [pl_file class_place].
    destruct H as [(-> & _)|(i & rd & c0 & n & t & _ & _ & _ & _ & H)]; [rewrite F; apply put_eq|]. refine (proj1 (install_file _ _ _ _ _ _ _ _ _ _ _ _ _ _ _ _ _ _ H _ _) _); [|rewrite app_length; pose proof (lengths s (hd "" path)); lia|rewrite F; apply put_eq]. now apply (entered_wf f (class_place s path) d d' text).
Qed.

(** * Managers that are not fully loaded *)

Lemma create_no_runner shared s path func f p : p_runner p = None -> snd (create shared s path func f p) <> Ok tt.
Proof.
  intros N. assert (K : forall general base c change sub n t full l, snd (install shared general s base c change sub n t full f l p) <> Ok tt).
  { intros general base c change sub n t full l. unfold install. destruct (reg_set _ _ _) as [c'|e]; [|discriminate]. cbv zeta. cbn [p_runner]. rewrite N.
    destruct (reg_get c' sub) as [x|e]; [destruct x|]; try discriminate. destruct (output_files _ _ _ _ _) as [l2 [[]|e]]; discriminate. }
  unfold pm_create. destruct (class_of s (hd "" path)) as [own|], func as [[n t]|]; try discriminate.
  - destruct (Nat.ltb _ _); [discriminate|]. destruct (add_to_dict _ _ _ _ _) as [l [[]|e]]; [|discriminate]. destruct (registrar_dict p) as [rd|e]; [|discriminate].
    destruct (dget _ rd); [|discriminate]. destruct (inst _ _) as [[n t]|e]; [apply K|discriminate].
  - destruct (add_to_dict _ _ _ _ _) as [l [[]|e]]; [|discriminate]. destruct (p_items p); [apply K|discriminate].
Qed.

Lemma create_no_registrar shared s path f p i d d' text : placed s path None (class_place s path) -> p_items p = Some i -> hd "" path <> "general" ->
  (forall r, In r (i_specific i) -> reg_name r <> hd "" path) -> entered parse save f (class_place s path) d d' text ->
  exists l, create shared s path None f p = (l, p, Raise KeyError) /\ final f l = put (dict_file (su_folder s) (hd "" path)) (File text) f.
Proof.
  intros Hp Hi G N K. inversion Hp as [|c C1 C2 L]; subst. destruct (class_of s (hd "" path)) as [own|] eqn:E; [|apply class_of_None with (c := c) in E; [congruence|exact C1]].
  unfold pm_create. rewrite E. destruct (Nat.ltb_spec (List.length path) 3); [lia|]. pose proof (add_spec f (class_place s path)) as A. cbv zeta in A. cbn [pl_general pl_file pl_section pl_name class_place] in A.
  destruct A as [(e & -> & K')|(l1 & d1 & d1' & text1 & -> & K1 & F)]; [now apply K' in K|].
  unfold registrar_dict. rewrite Hi. exists l1.
  assert (Z : forall rs dd, (forall r, In r rs -> reg_name r <> hd "" path) -> dget (hd "" path) dd = None -> dget (hd "" path) (fold_left (fun d r => dset (reg_name r) (reg_coll r) d) rs dd) = None).
  { induction rs as [|r rs IH]; intros dd Hr Hd; [exact Hd|]. cbn [fold_left]. apply IH; [intros r' I; apply Hr; now right|]. rewrite dget_dset. destruct (String.eqb_spec (hd "" path) (reg_name r)); [|exact Hd]. exfalso. apply (Hr r); [now left|congruence]. }
  rewrite Z; [|exact N|]. 2: { cbn [dget]. destruct (String.eqb_spec (hd "" path) "general"); [contradiction|reflexivity]. }
  split; [reflexivity|]. rewrite F. destruct K as (B1 & B2 & B3 & _), K1 as (D1 & D2 & D3 & _). congruence.
Qed.

(** * In step *)

Lemma str_length_app a b : String.length (a ++ b) = String.length a + String.length b.
Proof. induction a as [|c a IH]; cbn; [reflexivity|now rewrite IH]. Qed.
Lemma suffix_inj a b : (a ++ "_dict.py")%string = (b ++ "_dict.py")%string -> a = b.
Proof.
  revert b. induction a as [|x a IH]; intros [|y b] H; cbn in H; [reflexivity| | |injection H as -> H; now rewrite (IH b H)].
  - exfalso. apply (f_equal String.length) in H. cbn [String.length] in H. rewrite str_length_app in H. cbn [String.length] in H. lia.
  - exfalso. apply (f_equal String.length) in H. cbn [String.length] in H. rewrite str_length_app in H. cbn [String.length] in H. lia.
Qed.
Lemma dict_file_inj folder a b : dict_file folder a = dict_file folder b -> a = b.
Proof. unfold dict_file. intros H. apply app_inj_tail in H as [_ H]. now apply suffix_inj. Qed.
Lemma dict_file_pipeline folder a : dict_file folder a = pipeline_file folder -> a = "pipeline".
Proof. intros H. apply (dict_file_inj folder). exact H. Qed.

Lemma Forall2_change {A B} (R R' : A -> B -> Prop) l l' : (forall a b, In a l -> R a b -> R' a b) -> Forall2 R l l' -> Forall2 R' l l'.
Proof. intros H F. induction F as [|a b l l' K _ IH]; constructor; [apply H; [now left|exact K]|]. apply IH. intros ? ? ?. apply H. now right. Qed.
Lemma Forall2_change_r {A B} (R R' : A -> B -> Prop) l l' : (forall a b, In b l' -> R a b -> R' a b) -> Forall2 R l l' -> Forall2 R' l l'.
Proof. intros H F. induction F as [|a b l l' K _ IH]; constructor; [apply H; [now left|exact K]|]. apply IH. intros ? ? ?. apply H. now right. Qed.
Lemma Forall2_right {A B} {R : A -> B -> Prop} {l l' b} : Forall2 R l l' -> In b l' -> exists a, In a l /\ R a b.
Proof. intros F. induction F as [|x y l l' K _ IH]; [intros []|]. intros [->|H]; [exists x; split; [now left|exact K]|]. destruct (IH H) as (a & Ha & Ra). exists a. split; [now right|exact Ra]. Qed.
Lemma set_other x c rs : ~ In x (map reg_name rs) -> map (fun r => if String.eqb (reg_name r) x then Reg x c else r) rs = rs.
Proof.
  induction rs as [|r rs IH]; intros N; [reflexivity|]. cbn in N |- *. destruct (String.eqb_spec (reg_name r) x) as [E|E]; [tauto|]. now rewrite IH by tauto.
Qed.
Lemma good_class_same f g folder own r : (forall n x, dget "name" own = Some (CStr n) -> f (dict_file folder n) = Some (File x) -> g (dict_file folder n) = Some (File x)) ->
  good_class parse inst f folder own r -> good_class parse inst g folder own r.
Proof. intros H (n & k & text & d & A & B & C & D & E & F). exists n, k, text, d. repeat (split; [solve [auto]|]). exact F. Qed.

Lemma in_step_general shared s path n t f p l p' o i : wf f -> placed s path (Some (n, t)) (general_place s path n) -> usable_path path ->
  acceptable parse view inst f (su_folder s) (su_name s) (su_classes s) i -> p_items p = Some i ->
  (forall c, In c (su_classes s) -> dget "name" c <> Some (CStr "pipeline")) ->
  (forall d d' text, entered parse save f (general_place s path n) d d' text -> pd_wf (PDict d) /\ says parse view (file_text f (pipeline_file (su_folder s))) text d d' n t) ->
  create shared s path (Some (n, t)) f p = (l, p', o) ->
  exists i', p_items p' = Some i' /\ acceptable parse view inst (final f l) (su_folder s) (su_name s) (su_classes s) i'.
Proof.
  intros W Hp U A Hi NP S H. apply create_general in H as [(-> & -> & _)|(l1 & d & d' & text & K & F & H)]; [now exists i| |exact Hp].
  destruct H as [(E & _)|(i0 & E & H)]; [congruence|]. rewrite Hi in E. injection E as <-. destruct (S d d' text K) as (Wd & P & V & Vn).
  destruct K as (K1 & K2 & K). cbn [pl_general pl_file pl_section pl_name general_place new_entry] in K1, K2.
  destruct A as (d0 & A1 & A2 & A3 & A4 & A5). apply has_dict_iff in A1. rewrite K1 in A1. injection A1 as <-.
  rewrite (from_dict_views _ (view text) (su_name s) d) in A3 by (intros v Hv; symmetry; now apply V).
  destruct (C42_tree_update_is_rebuild (view text) (su_name s) d (i_general i) path (PName n) n t d' A3 Wd eq_refl Vn U K2) as (c' & R & B).
  assert (Wl : wf (final f l1)) by (apply (entered_wf f (general_place s path n) d d' text); [exact W|split; [exact K1|now split]|exact F]).
  assert (Ft : final f l (pipeline_file (su_folder s)) = Some (File text)).
  { refine (proj1 (install_file _ _ _ _ _ _ _ _ _ _ _ _ _ _ _ _ _ text H Wl _) _); [apply lengths; exact ""|rewrite F; apply put_eq]. }
  assert (Fc : forall c m x, In c (su_classes s) -> dget "name" c = Some (CStr m) -> f (dict_file (su_folder s) m) = Some (File x) -> final f l (dict_file (su_folder s) m) = Some (File x)).
  { intros c m x Hc Hm Hx. refine (proj1 (install_file _ _ _ _ _ _ _ _ _ _ _ _ _ _ _ _ _ x H Wl _) _); [apply lengths|]. rewrite F, put_neq; [exact Hx|]. intros Q. apply dict_file_pipeline in Q. subst m. now apply NP in Hc. }
  apply install_spec in H as [(e & E & _)|(c1 & l2 & E & -> & I & _)]; [congruence|]. rewrite R in E. injection E as <-. exists (set_general c' i). rewrite I, Hi. split; [reflexivity|].
  exists d'. split; [right; exists text; now split|]. cbn [set_general i_specific i_general]. split.
  - apply (Forall2_change (good_class parse inst f (su_folder s))); [|exact A2]. intros c r Hc G. apply (good_class_same f); [|exact G]. intros m x. now apply Fc.
  - split; [unfold file_text; now rewrite Ft|]. split; [exact A4|]. intros r Hr. destruct (A5 r Hr) as [B1 B2]. split; [|exact B2]. intros Q. apply (top_added d path (PName n) d' _ K2) in Q as [Q|Q]; [contradiction|].
    destruct (Forall2_right A2 Hr) as (c & Hc & m & k & tx & dd & M & _ & _ & _ & _ & _ & _ & Mr). inversion Hp as [? ? N|]; subst. apply (N c Hc). congruence.
Qed.

Lemma in_step_class shared s path f p l p' o i own : wf f -> class_of s (hd "" path) = Some own -> 3 <= List.length path -> usable_path (removelast (tl path)) ->
  acceptable parse view inst f (su_folder s) (su_name s) (su_classes s) i -> p_items p = Some i ->
  hd "" path <> "pipeline" -> su_config_folder s <> "pipeline_dict.py" ->
  (forall d d' text, entered parse save f (class_place s path) d d' text -> pd_wf (PDict d) /\ parse false text = Ok d') ->
  (exists n t, inst (dupdate default_ccfg own) (PStr (last path "")) = Ok (n, t)) ->
  create shared s path None f p = (l, p', o) ->
  exists i', p_items p' = Some i' /\ acceptable parse view inst (final f l) (su_folder s) (su_name s) (su_classes s) i'.
Proof.
  intros W Co L U A Hi NP Nf S (n & t & Hn) H. pose proof (class_of_Some _ _ _ Co) as [Ho1 Ho2]. set (x := hd "" path) in *. set (sub := removelast (tl path)) in *.
  apply (create_class shared s path f p l p' o own Co L) in H as [(-> & -> & _)|(l1 & d & d' & text & K & F & H)]; [now exists i|]. fold x sub in H, F.
  destruct A as (d0 & A1 & A2 & A3 & A4 & A5).
  apply in_split in Ho1 as (cs1 & cs2 & Ecs). rewrite Ecs in A2. apply Forall2_app_inv_l in A2 as (rs1 & rs2' & G1 & G2 & Ers). destruct rs2' as [|r rs2]; [now inversion G2|]. inversion G2 as [|? ? ? ? Gr G3]; subst. clear G2.
  destruct Gr as (m & k & tx & dd & Q1 & Q2 & Q3 & Q4 & Q5 & Q6 & Q7 & Q8). rewrite Ho2 in Q1. injection Q1 as <-.
  assert (Hr : In r (i_specific i)) by (rewrite Ers; apply in_or_app; right; now left).
  assert (Rd : exists rd, registrar_dict p = Ok rd /\ dget x rd = Some (reg_coll r)).
  { destruct p as [pi pr]. cbn in Hi. subst pi. eexists. split; [reflexivity|]. rewrite (registrar_dict_spec i pr _ x eq_refl A4), <- Q8, (find_registrar_In _ r A4 Hr). reflexivity. }
  destruct Rd as (rd & Rd1 & Rd2).
  destruct H as [(_ & _ & e & _ & H)|(i0 & rd0 & c & n0 & t0 & E1 & E2 & E3 & E4 & H)]; [exfalso; exact (H i rd _ _ Hi Rd1 Rd2 Hn)|].
  assert (i0 = i) by congruence. assert (rd0 = rd) by congruence. subst i0 rd0. assert (c = reg_coll r) by congruence. assert (n0 = n /\ t0 = t) as [-> ->] by (rewrite Hn in E4; now injection E4). subst c. clear E1 E2 E3 E4.
  destruct (S d d' text K) as (Wd & P). pose proof K as (K1 & K2 & _). cbn [pl_general pl_file pl_section pl_name class_place new_entry] in K1, K2. fold x sub in K1, K2. unfold load_dict in K1. rewrite Q5, Q6 in K1. injection K1 as ->.
  destruct (C42_tree_update_is_rebuild _ x d (reg_coll r) sub (PStr (last path "")) n t d' Q7 Wd eq_refl Hn U K2) as (c' & R & B).
  assert (Wl : wf (final f l1)) by (apply (entered_wf f (class_place s path) d d' text); [exact W|exact K|exact F]).
  assert (Ft : final f l (dict_file (su_folder s) x) = Some (File text)).
  { refine (proj1 (install_file _ _ _ _ _ _ _ _ _ _ _ _ _ _ _ _ _ text H Wl _) _); [rewrite app_length; pose proof (lengths s x); lia|rewrite F; apply put_eq]. }
  assert (Fc : forall m y, m <> x -> f (dict_file (su_folder s) m) = Some (File y) -> final f l (dict_file (su_folder s) m) = Some (File y)).
  { intros m y Hm Hx. refine (proj1 (install_file _ _ _ _ _ _ _ _ _ _ _ _ _ _ _ _ _ y H Wl _) _); [rewrite app_length; pose proof (lengths s m); lia|]. rewrite F, put_neq; [exact Hx|]. intros Q. now apply dict_file_inj in Q. }
  assert (Np : pipeline_file (su_folder s) <> dict_file (su_folder s) x) by (intros Q; symmetry in Q; apply dict_file_pipeline in Q; contradiction).
  assert (Fp : has_dict parse (final f l) (su_folder s) d0 /\ file_text (final f l) (pipeline_file (su_folder s)) = file_text f (pipeline_file (su_folder s))).
  { destruct A1 as [[A1 ->]|(y & A1 & Y)].
    - assert (Z : final f l (pipeline_file (su_folder s)) = None).
      { refine (proj2 (install_file _ _ _ _ _ _ _ _ _ _ _ _ _ _ _ _ _ "" H Wl _) _ _); [rewrite app_length; pose proof (lengths s x); lia|rewrite F, put_neq; [exact A1|exact Np]|].
        intros w Q. unfold defaults_of, pipeline_file in Q. rewrite <- !app_assoc in Q. apply app_inv_head in Q. cbn in Q. now injection Q. }
      split; [left; now split|]. unfold file_text. now rewrite Z, A1.
    - assert (Z : final f l (pipeline_file (su_folder s)) = Some (File y)).
      { refine (proj1 (install_file _ _ _ _ _ _ _ _ _ _ _ _ _ _ _ _ _ y H Wl _) _); [rewrite app_length; pose proof (lengths s x); lia|rewrite F, put_neq; [exact A1|exact Np]]. }
      split; [right; exists y; now split|]. unfold file_text. now rewrite Z, A1. }
  destruct Fp as [Fp1 Fp2].
  apply install_spec in H as [(e & E & _)|(c1 & l2 & E & -> & I & _)]; [congruence|]. rewrite R in E. injection E as <-. exists (set_specific x c' i). rewrite I, Hi. split; [reflexivity|].
  assert (Nd : ~ In x (map reg_name rs1) /\ ~ In x (map reg_name rs2)).
  { rewrite Ers, map_app in A4. cbn [map] in A4. rewrite Q8 in A4. apply NoDup_remove_2 in A4. rewrite in_app_iff in A4. tauto. }
  assert (Es : i_specific (set_specific x c' i) = rs1 ++ Reg x c' :: rs2).
  { cbn [set_specific i_specific]. rewrite Ers, map_app. cbn [map]. rewrite Q8, String.eqb_refl. rewrite !(set_other x c') by tauto. reflexivity. }
  assert (En : map reg_name (i_specific (set_specific x c' i)) = map reg_name (i_specific i)) by (rewrite Es, Ers, !map_app; cbn [map reg_name]; now rewrite Q8).
  exists d0. split; [exact Fp1|]. split; [|split; [|split]].
  - rewrite Ecs, Es. apply Forall2_app; [|constructor].
    + apply (Forall2_change_r (good_class parse inst f (su_folder s))); [|exact G1]. intros c r0 Hr0 G. apply (good_class_same f); [|exact G]. intros m y Hm. apply Fc. intros ->. destruct G as (m' & ? & ? & ? & M & _ & _ & _ & _ & _ & _ & Mr). apply (proj1 Nd). rewrite in_map_iff. exists r0. split; [congruence|exact Hr0].
    + exists x, k, text, d'. cbn [reg_coll reg_name]. auto 10.
    + apply (Forall2_change_r (good_class parse inst f (su_folder s))); [|exact G3]. intros c r0 Hr0 G. apply (good_class_same f); [|exact G]. intros m y Hm. apply Fc. intros ->. destruct G as (m' & ? & ? & ? & M & _ & _ & _ & _ & _ & _ & Mr). apply (proj2 Nd). rewrite in_map_iff. exists r0. split; [congruence|exact Hr0].
  - rewrite Fp2. exact A3.
  - now rewrite En.
  - intros r0 Hr0. assert (Hn0 : In (reg_name r0) (map reg_name (i_specific i))) by (rewrite <- En; now apply in_map). apply in_map_iff in Hn0 as (r1 & <- & Hr1). now apply A5.
Qed.
End Steps.

(* ------------------------------------------------------------------ *)
(** * Running what was created *)

Lemma tidy_get g p : forall c cc, tidy g c -> coll_get c p = Ok (FColl cc) -> tidy g cc.
Proof.
  induction p as [|x p IH]; intros c cc T H; cbn [coll_get] in H; [now injection H as <-|].
  unfold coll_getattr in H. destruct (mem x coll_reserved); [destruct p; discriminate|].
  destruct (last_entry x (coll_entries c)) as [[m t|c']|] eqn:E; [destruct p; discriminate| |discriminate]. apply last_entry_in in E as [E _]. apply (IH c' cc); [|exact H]. inversion T as [? l _ _ K]; subst. now apply K.
Qed.
Lemma path_parts_of p : p <> [] -> Forall (fun x => has_char dot x = false) p -> path_parts (join sdot p) = p.
Proof. intros N F. unfold path_parts. cbn [sections mk_sp]. unfold section_path_str_to_section_strs. now apply split_join. Qed.

Lemma with_disk_see d r q : see (r_cms (with_disk d r)) q = see (r_cms r) q.
Proof. reflexivity. Qed.
Lemma with_disk_wf d r : disk_wf d -> cms_wf (r_cms r) -> cms_wf (r_cms (with_disk d r)).
Proof.
  intros D [_ W]. split; [exact D|]. intros [|q|q] c; cbn [current]; rewrite ?with_disk_see.
  - apply (W CLocal).
  - destruct (see (r_cms r) q) as [[c0|ref n|? ?|?]|] eqn:E; try discriminate.
    + intros [= <-]. apply (W (CItem q)). cbn [current]. now rewrite E.
    + cbn [with_disk r_cms cs_disk]. destruct (read_file d ref) as [v|] eqn:R; [|discriminate]. intros [= <-]. split; [now apply D in R|constructor].
  - intros H. now apply (W (CSec q)).
Qed.

Section Running.
Variable parse : bool -> string -> res (dict pd).
Variable view : string -> pd -> res (string * thing).
Variable inst : ccfg -> pd -> res (string * thing).
Variable cfg : bool -> string -> thing -> option string -> res string.
Variable config_dir : fs -> ConfigTree_Model.dir.
Variable save : bool -> option string -> string -> dict pd -> res string.
Variable u : user.
Notation create := (pm_create parse inst cfg config_dir save u).

(** what a successful creation leaves *)
Lemma created shared s path n t f p i l p' : wf f -> placed s path (Some (n, t)) (general_place s path n) -> usable_path path -> p_items p = Some i ->
  create shared s path (Some (n, t)) f p = (l, p', Ok tt) ->
  exists c' cc f1 l2 ri r r' text, reg_set (i_general i) path (EItem n t) = Ok c' /\ reg_get c' path = Ok (FColl cc) /\ In (EItem n t) (coll_entries cc) /\
    f1 = put (pipeline_file (su_folder s)) (File text) f /\ wf f1 /\ output_files cfg true (defaults_of s ++ path) cc f1 = (l2, Ok tt) /\ final f l = final f1 l2 /\
    p_runner p = Some (ri, r) /\ p' = PM (Some (set_general c' i)) (Some (if shared then set_general c' ri else ri, r')) /\
    runner_reset (su_config_folder s) u (Some (join sdot (path ++ [n]))) true (with_disk (config_dir (final f l)) r) = (r', Ok tt) /\ exists d d', entered parse save f (general_place s path n) d d' text.
Proof.
  intros W Hp U Hi H. apply create_general in H as [(_ & _ & (e & E) & _)|(l1 & d & d' & text & K & F & H)]; [discriminate| |exact Hp].
  destruct H as [(E & _)|(i0 & E & H)]; [congruence|]. rewrite Hi in E. injection E as <-. apply install_spec in H as [(e & _ & _ & _ & E)|(c' & l2 & R & -> & I & _ & H)]; [discriminate|].
  destruct H as [(e & E & _)|(cc & ri & r & G & O & Pr & Er & r' & Pr')]; [discriminate|]. destruct (reg_set_there _ _ _ _ _ U R) as (cc0 & es & G0 & E0 & _). rewrite G in G0. injection G0 as <-.
  exists c', cc, (final f l1), l2, ri, r, r', text. split; [exact R|]. split; [exact G|]. split; [rewrite E0; apply in_or_app; right; now left|]. split; [exact F|].
  split; [now apply (entered_wf parse save f (general_place s path n) d d' text)|]. split; [exact O|]. split; [apply final_app|]. split; [exact Pr|]. split; [|split].
  - rewrite Hi in I. destruct p' as [pi pr]. cbn in I, Pr'. now subst.
  - now rewrite Pr' in Er.
  - eauto.
Qed.

Lemma create_then_run exec s path n g f p i r l p' i' : wf f -> p = PM (Some i) (Some (i, r)) -> acceptable parse view inst f (su_folder s) (su_name s) (su_classes s) i ->
  placed s path (Some (n, TFunc g)) (general_place s path n) -> usable_path (path ++ [n]) -> path <> [] -> Forall (fun x => has_char dot x = false) (path ++ [n]) ->
  let full := join sdot (path ++ [n]) in let file := defaults_of s ++ path ++ [(n ++ ".py")%string] in
  cms_wf (r_cms r) -> lookup_at (r_cms r) (path ++ [n]) = Raise KeyError -> Forall (fun x => mem x sec_reserved = false) (path ++ [n]) -> dget full (r_loaded r) = None ->
  create true s path (Some (n, TFunc g)) f p = (l, p', Ok tt) -> p_items p' = Some i' -> tidy true (i_general i') ->
  mirrors exec (final f l) (defaults_of s) (config_dir (final f l)) -> (forall rel t v, exec rel t = Ok v -> dwf v) ->
  exists r' text own, p' = PM (Some i') (Some (i', r')) /\ cfg true n (TFunc g) (content f file) = Ok text /\ final f l file = Some (File text) /\ exec (path ++ [(n ++ ".py")%string]) text = Ok own /\
    (forall q, see (r_cms r') q = seen_with (r_cms r) (path ++ [n]) (new_config (path ++ [n]) own) q) /\ r_loaded r' = r_loaded r /\ r_calls r' = r_calls r /\
    forall u', exists r'' kw, run_one i' u' full r' = (r'', match u_call u' (r_calls r) full (LPartial (r_next r) g false kw) with Ok v => Ok (RVal v) | Raise e => Raise e end) /\
      r_calls r'' = r_calls r ++ [(full, LPartial (r_next r) g false kw)] /\ dwf kw /\
      forall k, dget k kw = if mem k (f_args g) then effective (r_cms r) (path ++ [n]) own k else None.
Proof.
  intros W Ep A Hp U Np Nd full file Cw Hl Sr Nl H Hi' T M X.
  assert (U' : usable_path path). { destruct U as [U1 U2]. apply Forall_app in U2 as [U2 _]. destruct path; [congruence|]. now split. }
  assert (Rn : mem n coll_reserved = false) by (destruct U as [_ U2]; apply Forall_app in U2 as [_ U2]; now inversion U2).
  destruct (created true s path n (TFunc g) f p i l p' W Hp U') as (c' & cc & f1 & l2 & ri & r0 & r' & dtext & R & G & Ic & Ef1 & W1 & O & Ef & Pr & -> & Er & _); [now subst p|exact H|].
  subst p. cbn [p_runner] in Pr. injection Pr as <- <-. cbn [p_items] in Hi'. injection Hi' as <-. cbn [set_general i_general] in T.
  assert (Pp : path_parts full = path ++ [n]) by (apply path_parts_of; [now destruct path|exact Nd]).
  (* the file *)
  rewrite output_files_acts in O. destruct (run_ok cfg _ f1 l2 W1 O) as [Ru Wl]. rewrite <- Ef in Ru, Wl.
  rewrite (reg_get_usable c' path U') in G.
  assert (It : In (AUpd true file n (TFunc g)) (coll_acts true (defaults_of s ++ path) cc)).
  { apply acts_items. split; [reflexivity|]. unfold file. rewrite app_assoc. now apply item_here. }
  destruct (runs_item cfg f1 _ (final f l) true file n (TFunc g) (tidy_separate true cc (tidy_get true path c' cc T G) _) Ru It) as (text & Et & Eg).
  assert (Ec : content f1 file = content f file).
  { unfold content. rewrite Ef1, put_neq; [reflexivity|]. unfold file, pipeline_file, defaults_of. rewrite <- app_assoc. intros Q. apply app_inv_head in Q. cbn in Q. injection Q as _ Q. destruct path; [congruence|discriminate]. }
  rewrite Ec in Et.
  assert (Dr : final f l (defaults_of s ++ path) = Some Dir) by (apply (proj2 Wl _ (n ++ ".py")%string); rewrite <- app_assoc; unfold file in Eg; congruence).
  (* its config *)
  assert (Rf : read_file (config_dir (final f l)) (item_file (path ++ [n])) = exec (path ++ [(n ++ ".py")%string]) text).
  { unfold item_file, read_file. cbn [fst snd]. rewrite removelast_last, last_last. destruct M as (_ & M2 & M3). destruct (proj2 (M2 path) Dr) as (d1 & F1). rewrite F1. rewrite (proj2 (M3 path d1 (n ++ ".py")%string (exec (path ++ [(n ++ ".py")%string]) text) F1)); [reflexivity|]. exists text. now split. }
  pose proof (runner_reset_new (su_config_folder s) u (with_disk (config_dir (final f l)) r) full) as Q. rewrite Pp in Q. cbn [with_disk r_cms cs_disk r_loaded r_next r_calls cs_local cs_trace] in Q. specialize (Q Hl Sr). rewrite Rf in Q.
  destruct (exec (path ++ [(n ++ ".py")%string]) text) as [own|e] eqn:Ex; [|fold full in Er; rewrite Q in Er; discriminate].
  destruct (Q Nl) as (r1 & Er1 & Q1 & Q2 & Q3 & Q4 & Q5 & Q6 & Q7). fold full in Er. rewrite Er1 in Er. injection Er as <-. clear Q.
  assert (Qs : forall q, see (r_cms r1) q = seen_with (r_cms r) (path ++ [n]) (new_config (path ++ [n]) own) q) by exact Q7.
  exists r1, text, own. split; [reflexivity|]. split; [exact Et|]. split; [exact Eg|]. split; [exact Ex|]. split; [exact Qs|]. split; [exact Q1|]. split; [exact Q3|].
  intros u'.
  assert (Cw' : cms_wf (r_cms r1)).
  { apply (new_wf (r_cms (with_disk (config_dir (final f l)) r)) (r_cms r1) (path ++ [n]) own); [apply with_disk_wf; [now apply (mirrors_wf exec (final f l) (defaults_of s))|exact Cw]|now apply X in Ex|exact Q7|exact Q5|exact Q4]. }
  assert (Ov : own_values (r_cms r1) (path_parts full) = Some own).
  { unfold own_values. rewrite Pp, Qs. unfold seen_with. destruct (list_eq_dec string_dec (path ++ [n]) (path ++ [n])); [reflexivity|congruence]. }
  assert (If : is_func (set_general c' i) full g).
  { exists false. unfold get_func_or_collection. rewrite Pp. cbn [set_general i_specific i_general].
    destruct (reg_set_there _ _ _ _ _ U' R) as (_ & _ & _ & _ & Gt). specialize (Gt Rn).
    destruct (C51_registrar_finds_the_same c' (path ++ [n]) U) as [_ K]. specialize (K _ Gt).
    destruct path as [|x path]; [congruence|]. cbn [app] in K |- *. rewrite (find_registrar_None (i_specific i) x).
    - now rewrite K by discriminate.
    - intros Z. apply in_map_iff in Z as (rr & Z1 & Z2). destruct A as (_ & _ & A2 & _). destruct (Forall2_right A2 Z2) as (c & Hc & m & k & tx & dd & Mn & _ & _ & _ & _ & _ & _ & Mr). inversion Hp as [? ? N|]; subst. apply (N c Hc). cbn [hd]. congruence. }
  destruct (run_first_func (set_general c' i) u' r1 full own g Cw' Ov If) as (r'' & kw & E1 & E2 & E3 & E4); [now rewrite Q1|]. rewrite Q2, Q3 in E1, E2. exists r'', kw. split; [exact E1|]. split; [exact E2|]. split; [exact E3|].
  intros k. rewrite E4, Pp. destruct (mem k (f_args g)); [|reflexivity]. apply (effective_new (r_cms r) (r_cms r1) (path ++ [n]) (new_config (path ++ [n]) own)); [now destruct path|exact Qs|exact Q5].
Qed.
End Running.
