(** Well-formedness of the dicts in the config tree, as an invariant of every operation. *)
From Verif Require Import ConfigTree_Model ConfigTree_Spec Config_Proofs ConfigTree_Proofs ConfigOps_Proofs ConfigLoad_Proofs.
Local Open Scope list_scope.
Local Open Scope monad_scope.

Inductive node_ok : node -> Prop :=
| OkConf c : cfg_wf c -> node_ok (NConf c)
| OkFile r x : node_ok (NFile r x)
| OkSelf : node_ok NSelf
| OkSec s : sec_ok s -> node_ok (NSec s)
with sec_ok : sec -> Prop :=
| OkS n cfg attrs its : (forall c, cfg = Some c -> cfg_wf c) -> (forall x v, In (x, v) attrs -> node_ok v) ->
    (forall v, In v its -> node_ok v) -> sec_ok (Sec n cfg attrs its).

Definition disk_ok (d : dir) : Prop := dir_ok d /\ disk_wf d.
Definition tree_wf (st : cms) : Prop := sec_ok (cs_root st) /\ cfg_wf (cs_local st) /\ disk_ok (cs_disk st).

Definition lookup_ok (l : lookup) : Prop :=
  match l with LConf c | LSelf c => cfg_wf c | LSec s => sec_ok s | _ => True end.

Lemma last_named_In x l n : last_named x l = Some n -> In n l.
Proof.
  induction l as [|m l IH]; cbn; [discriminate|]. destruct (last_named x l) as [k|].
  - intros [= ->]. right. now apply IH.
  - destruct (has_name x m); [|discriminate]. intros [= ->]. now left.
Qed.

Lemma sec_ok_inv s : sec_ok s -> (forall c, s_cfg s = Some c -> cfg_wf c) /\
  (forall x v, In (x, v) (s_attrs s) -> node_ok v) /\ (forall v, In v (s_items s) -> node_ok v).
Proof. intros []; auto. Qed.

Lemma node_lookup_ok own n : (forall c, own = Some c -> cfg_wf c) -> node_ok n -> lookup_ok (node_lookup own n).
Proof. intros Ho []; cbn; auto. destruct own; cbn; auto. Qed.

Lemma sec_getattr_ok r s x l : sec_ok s -> sec_getattr r s x = Ok l -> lookup_ok l.
Proof.
  intros Hs. apply sec_ok_inv in Hs as (H1 & H2 & H3). unfold sec_getattr.
  destruct (mem x r); [now intros [= <-]|]. destruct (dget x (s_attrs s)) as [n|] eqn:E.
  { intros [= <-]. apply dget_Some_In in E. eapply node_lookup_ok; eauto. }
  unfold own_config_named. destruct (s_cfg s) as [c|].
  - destruct (match c_name c with Some n => String.eqb x n | None => false end).
    + intros [= <-]. cbn. auto.
    + destruct (last_named x (s_items s)) as [n|] eqn:E2; [|discriminate]. intros [= <-].
      apply last_named_In in E2. eapply node_lookup_ok; eauto.
  - destruct (last_named x (s_items s)) as [n|] eqn:E2; [|discriminate]. intros [= <-].
    apply last_named_In in E2. eapply node_lookup_ok; eauto.
Qed.

Lemma leaf_getattrs_ok l p l' : lookup_ok l -> leaf_getattrs l p = Ok l' -> lookup_ok l'.
Proof.
  revert l. induction p as [|y p IH]; cbn; intros l Hl; [now intros [= <-]|].
  destruct l; try discriminate; destruct (_ || _) + destruct (mem y file_reserved); try discriminate; apply IH; exact I.
Qed.

Lemma get_nested_ok p : forall r s l, sec_ok s -> get_nested r s p = Ok l -> lookup_ok l.
Proof.
  induction p as [|x p IH]; cbn; intros r s l Hs; [now intros [= <-]|].
  destruct (sec_getattr r s x) as [m|] eqn:E; [|discriminate]. apply sec_getattr_ok in E; [|exact Hs].
  destruct m; try (apply leaf_getattrs_ok; exact E). now apply IH.
Qed.

Lemma tree_cms_wf st : tree_wf st -> cms_wf st.
Proof.
  intros (T1 & T2 & T3). split; [exact (proj2 T3)|]. intros r c. assert (L : forall p l, lookup_at st p = Ok l -> lookup_ok l)
    by (intros p l; now apply get_nested_ok).
  destruct r as [|p|p]; cbn [current]; unfold see.
  - now intros [= <-].
  - destruct (lookup_at st p) as [[]|] eqn:E; try discriminate; apply L in E; cbn in E.
    + now intros [= <-].
    + destruct (read_file (cs_disk st) ref) as [d|] eqn:Ef; [|discriminate]. intros [= <-]. apply (proj2 T3) in Ef.
      now apply loaded_config_wf.
  - destruct (lookup_at st p) as [[]|] eqn:E; try discriminate; apply L in E; cbn in E.
    intro Hc. apply sec_ok_inv in E. now apply E.
Qed.

Lemma In_dset {A} (d : dict A) k v x w : In (x, w) (dset k v d) -> w = v \/ In (x, w) d.
Proof.
  induction d as [|[k' v'] d IH]; cbn.
  - intros [[= <- <-]|[]]. auto.
  - destruct (String.eqb k k').
    + intros [[= <- <-]|H]; auto.
    + intros [H|H]; auto. destruct (IH H); auto.
Qed.

Lemma set_attr_ok s x v : sec_ok s -> node_ok v -> sec_ok (set_attr s x v).
Proof.
  intros Hs Hv. apply sec_ok_inv in Hs as (H1 & H2 & H3). constructor; auto.
  intros y w Hw. apply In_dset in Hw as [->|Hw]; eauto.
Qed.

Lemma replace_last_In x v l n : In n (replace_last_named x v l) -> n = v \/ In n l.
Proof.
  induction l as [|m l IH]; cbn; [auto|]. destruct (last_named x l).
  - intros [->|H]; auto. destruct (IH H); auto.
  - destruct (has_name x m); intros [->|H]; auto.
Qed.

Lemma replace_child_ok s x s' : sec_ok s -> sec_ok s' -> sec_ok (replace_child s x s').
Proof.
  intros Hs Hs'. unfold replace_child. destruct (dmem x (s_attrs s)); [apply set_attr_ok; auto; now constructor|].
  apply sec_ok_inv in Hs as (H1 & H2 & H3). constructor; auto. intros w Hw.
  apply replace_last_In in Hw as [->|Hw]; [now constructor|auto].
Qed.

Lemma set_nested_keeps p : forall r s v s', sec_ok s -> node_ok v -> set_nested r s p v = Ok s' -> sec_ok s'.
Proof.
  induction p as [|x p IH]; intros r s v s' Hs Hv; [discriminate|]. destruct p as [|y p].
  - cbn. intros [= <-]. now apply set_attr_ok.
  - rewrite set_nested_cons. destruct (sec_getattr r s x) as [l|] eqn:E; [|discriminate].
    apply sec_getattr_ok in E; [|exact Hs]. destruct l; try discriminate.
    destruct (set_nested sec_reserved s0 (y :: p) v) as [s1|] eqn:E1; [|discriminate]. intros [= <-].
    apply replace_child_ok; [exact Hs|]. eapply IH; eassumption.
Qed.

Lemma sec_append_ok s v : sec_ok s -> node_ok v -> sec_ok (sec_append s v).
Proof.
  intros Hs Hv. apply sec_ok_inv in Hs as (H1 & H2 & H3). constructor; auto. intros w Hw.
  apply in_app_iff in Hw as [Hw|[<-|[]]]; auto.
Qed.

Lemma append_nested_keeps p : forall r s v s', sec_ok s -> node_ok v -> append_nested r s p v = Ok s' -> sec_ok s'.
Proof.
  induction p as [|x p IH]; intros r s v s' Hs Hv; [discriminate|]. destruct p as [|y p].
  - cbn. intros [= <-]. now apply sec_append_ok.
  - rewrite append_nested_cons. destruct (sec_getattr r s x) as [l|[]] eqn:E; try discriminate.
    + apply sec_getattr_ok in E; [|exact Hs]. destruct l; try discriminate.
      destruct (append_nested sec_reserved s0 (y :: p) v) as [s1|] eqn:E1; [|discriminate]. intros [= <-].
      apply replace_child_ok; [exact Hs|]. eapply IH; eassumption.
    + destruct (append_nested sec_reserved (Sec x None [] []) (y :: p) v) as [s1|] eqn:E1; [|discriminate].
      intros [= <-]. apply sec_append_ok; [exact Hs|]. constructor. eapply IH; [|exact Hv|exact E1].
      constructor; [discriminate|intros ? ? []|intros ? []].
Qed.

Lemma map_sec_keeps p f : (forall s, sec_ok s -> sec_ok (f s)) -> forall r s, sec_ok s -> sec_ok (map_sec r f s p).
Proof.
  intro Hf. induction p as [|x p IH]; cbn; intros r s Hs; [auto|].
  destruct (sec_getattr r s x) as [l|] eqn:E; [|exact Hs]. apply sec_getattr_ok in E; [|exact Hs].
  destruct l; try exact Hs. apply replace_child_ok; auto.
Qed.

(** every successful operation of the state monad keeps the invariant, exceptions included *)
Definition keepsW {A} (m : M cms A) : Prop := forall st, tree_wf st -> tree_wf (fst (m st)).

Lemma keepsW_ret {A} (a : A) : keepsW (ret a). Proof. intros st H. exact H. Qed.
Lemma keepsW_raise {A} e : keepsW (@raise cms A e). Proof. intros st H. exact H. Qed.
Lemma keepsW_lift {A} (r : res A) : keepsW (lift r). Proof. intros st H. exact H. Qed.
Lemma keepsW_gets {A} (f : cms -> A) : keepsW (gets f). Proof. intros st H. exact H. Qed.
Lemma keepsW_bind {A B} (m : M cms A) (k : A -> M cms B) : keepsW m -> (forall a, keepsW (k a)) -> keepsW (bind m k).
Proof.
  intros Hm Hk st H. unfold bind. specialize (Hm st H). destruct (m st) as [s1 [a|e]]; [|exact Hm].
  now apply Hk.
Qed.
Lemma keepsW_mapM {A B} (f : A -> M cms B) l : (forall a, keepsW (f a)) -> keepsW (mapM f l).
Proof.
  intro Hf. induction l as [|a l IH]; [apply keepsW_ret|]. cbn [mapM]. apply keepsW_bind; [apply Hf|].
  intro. apply keepsW_bind; [exact IH|]. intro. apply keepsW_ret.
Qed.
Lemma keepsW_iterM {A} (f : A -> M cms unit) l : (forall a, keepsW (f a)) -> keepsW (iterM f l).
Proof.
  intro Hf. induction l as [|a l IH]; [apply keepsW_ret|]. cbn [iterM]. apply keepsW_bind; [apply Hf|]. intro. exact IH.
Qed.
Lemma keepsW_emit e : keepsW (emit e). Proof. intros st H. exact H. Qed.

Lemma set_item_keeps p v : node_ok v -> keepsW (set_item p v).
Proof.
  intros Hv st W. assert (W' := W). destruct W' as (H1 & H2 & H3). unfold set_item.
  destruct (set_nested mgr_reserved (cs_root st) p v) eqn:E; cbn; [|exact W].
  split; [|split; [exact H2|exact H3]]. cbn. eapply set_nested_keeps; [exact H1|exact Hv|exact E].
Qed.

Lemma write_cref_keeps r c : cfg_wf c -> keepsW (write_cref r c).
Proof.
  intros Hc. destruct r as [|p|p]; cbn [write_cref].
  - intros st (H1 & H2 & H3). split; [exact H1|]. split; [exact Hc|exact H3].
  - apply set_item_keeps. now constructor.
  - intros st (H1 & H2 & H3). cbn. split; [|auto]. cbn. apply map_sec_keeps; [|exact H1].
    intros s Hs. apply sec_ok_inv in Hs as (A1 & A2 & A3). constructor; auto. now intros c' [= <-].
Qed.

Lemma gf_keeps p : keepsW (get_func_or_section_configs p).
Proof.
  intros st W. assert (W' := W). destruct W' as (H1 & H2 & H3). unfold get_func_or_section_configs.
  destruct (lookup_at st p) as [l|] eqn:E; [|exact W]. assert (L : lookup_ok l) by (eapply get_nested_ok; eassumption).
  destruct l; try exact W; cbn in L.
  - apply keepsW_bind; [apply set_item_keeps; now constructor|intro; apply keepsW_ret|exact W].
  - apply keepsW_bind; [apply set_item_keeps; now constructor|intro; apply keepsW_ret|exact W].
  - unfold bind at 1, lift. destruct (read_file (cs_disk st) ref) as [content|] eqn:Ef; [|exact W].
    apply keepsW_bind; [apply set_item_keeps; constructor; apply loaded_config_wf; eapply (proj2 H3); exact Ef|intro; apply keepsW_ret|exact W].
Qed.

Lemma deref_bind_keeps {B} r (k : config -> M cms B) : (forall c, cfg_wf c -> keepsW (k c)) -> keepsW (bind (deref r) k).
Proof.
  intros Hk st W. unfold bind, deref. destruct (read_cref st r) as [c|] eqn:E; [|exact W].
  apply Hk; [|exact W]. apply read_current in E. eapply (proj2 (tree_cms_wf _ W)). exact E.
Qed.

Lemma stored_keeps path : keepsW (stored_config path).
Proof. destruct path; [apply gf_keeps|apply keepsW_ret]. Qed.

Lemma cm_update_keeps d path persist kw : keepsW (cm_update d path persist kw).
Proof.
  apply keepsW_bind; [apply stored_keeps|]. intros [r|]; [|apply keepsW_raise].
  apply deref_bind_keeps. intros c Hc. destruct (dmem "config_" kw); [apply keepsW_raise|].
  apply keepsW_bind; [apply keepsW_lift|]. intros []; [|apply keepsW_ret].
  apply keepsW_bind; [destruct path; [apply keepsW_emit|apply keepsW_ret]|]. intros _.
  destruct (dmem "E" kw); [apply keepsW_raise|]. apply keepsW_bind; [apply write_cref_keeps, cfg_update_wf, Hc|].
  intro. apply keepsW_ret.
Qed.

Lemma reread_keeps c : keepsW (reread c).
Proof. intros st H. unfold reread. now destruct (c_file c). Qed.

Lemma cm_refresh_keeps path : keepsW (cm_refresh path).
Proof.
  apply keepsW_bind; [apply stored_keeps|]. intros [r|]; [|apply keepsW_raise].
  apply deref_bind_keeps. intros c Hc. apply keepsW_bind; [apply reread_keeps|]. intro content.
  apply keepsW_bind; [apply keepsW_lift|]. intros [|]; [apply keepsW_ret|].
  apply keepsW_bind; [apply keepsW_emit|]. intro. intros st W. unfold bind at 1, lift.
  destruct (cfg_refresh c content) as [[c' us]|] eqn:E; [|exact W].
  apply keepsW_bind; [apply write_cref_keeps; cbn; eapply cfg_refresh_wf; eassumption|intro; apply keepsW_ret|exact W].
Qed.

Lemma update_from_keeps r src : keepsW (update_from r src).
Proof.
  intros st W. unfold update_from. destruct (read_cref st r) as [c|] eqn:E; [|exact W].
  apply write_cref_keeps; [|exact W]. apply cfg_update_wf. apply read_current in E. eapply (proj2 (tree_cms_wf _ W)). exact E.
Qed.

Lemma cm_get_keeps path : keepsW (cm_get path).
Proof.
  unfold cm_get. apply keepsW_bind; [apply gf_keeps|]. intro cfg. apply keepsW_bind; [apply keepsW_gets|]. intro proj.
  apply keepsW_bind; [apply keepsW_mapM; intro; apply gf_keeps|]. intro secs. apply keepsW_bind.
  - intros st W. destruct (lookup_at st (path_parts path)) as [[]|]; try exact W.
    apply keepsW_bind; [apply gf_keeps|intro; apply keepsW_ret|exact W].
  - intro own. destruct cfg as [r|]; [|apply keepsW_ret]. apply deref_bind_keeps. intros c Hc.
    destruct (c_vals c); [apply keepsW_ret|]. apply keepsW_bind; [apply keepsW_iterM; intro; apply update_from_keeps|].
    intro. apply keepsW_bind; [apply update_from_keeps|]. intro. apply keepsW_ret.
Qed.

Lemma cm_pop_keeps key path : keepsW (cm_pop key path).
Proof.
  apply keepsW_bind; [apply stored_keeps|]. intros [r|]; [|apply keepsW_raise].
  apply deref_bind_keeps. intros c [Hc Ha]. destruct (dget key (c_vals c)); [|apply keepsW_raise].
  apply keepsW_bind; [|intro; apply keepsW_ret]. apply write_cref_keeps. split; cbn; [now apply ddel_wf|exact Ha].
Qed.

(** the tree read from files *)
Lemma disk_ok_sub files subs n d : disk_ok (Dir files subs) -> dget n subs = Some d -> disk_ok d.
Proof.
  intros [H1 H2] E. inversion H1; subst. split.
  - apply dget_Some_In in E. eauto.
  - intros [folders f] content Hr. apply (H2 (n :: folders, f) content). unfold read_file in *. cbn [fst snd find_dir dir_subs] in *.
    now rewrite E.
Qed.

Lemma find_dir_ok p : forall d d', disk_ok d -> find_dir d p = Some d' -> disk_ok d'.
Proof.
  induction p as [|x p IH]; cbn; intros [files subs] d' Hd; [now intros [= <-]|]. cbn [dir_subs].
  destruct (dget x subs) as [d1|] eqn:E; [|discriminate]. apply IH. eapply disk_ok_sub; eassumption.
Qed.

Lemma folder_config_wf name rel d c : disk_ok d -> folder_config name rel d = Some c -> cfg_wf c.
Proof.
  intros [_ H] E. unfold folder_config in E. destruct (dget "section.py" (dir_files d)) as [[content|]|] eqn:Eg; try discriminate.
  injection E as <-. apply loaded_config_wf. apply (H ([], "section.py"%string)). unfold read_file. cbn [find_dir fst snd].
  now rewrite Eg.
Qed.

Lemma from_files_keeps : forall d name rel s, disk_ok d -> from_files name rel d = Ok s -> sec_ok s.
Proof.
  fix IH 1. intros [files subs] name rel s Hd H. apply from_files_inv in H as (secs & Hs & ->).
  constructor.
  - intros c Hc. eapply folder_config_wf; eassumption.
  - intros x v [].
  - intros v Hv. apply in_app_iff in Hv as [Hv|Hv].
    + unfold file_nodes in Hv. apply in_map_iff in Hv as (f & <- & _). constructor.
    + cbn [dir_subs] in Hs. assert (Hall : forall n d, In (n, d) subs -> disk_ok d).
      { intros n d Hin. eapply disk_ok_sub; [exact Hd|]. apply In_dget; [|exact Hin]. destruct Hd as [Hd _].
        inversion Hd; subst. assumption. }
      clear Hd. revert secs Hs Hv. induction subs as [|[n d'] subs IHs]; intros secs Hs Hv.
      * injection Hs as <-. destruct Hv.
      * rewrite sub_sections_cons in Hs. destruct (hidden n).
        -- eapply IHs; eauto. intros. eapply Hall. right. eassumption.
        -- destruct (from_files n (rel ++ [n]) d') as [s'|] eqn:Ef; [|discriminate].
           destruct (sub_sections rel subs) as [l'|] eqn:Esub; [|discriminate]. injection Hs as <-.
           destruct Hv as [<-|Hv].
           ++ constructor. apply (IH d' n (rel ++ [n])); [|exact Ef]. eapply Hall. left. reflexivity.
           ++ eapply IHs; eauto. intros. eapply Hall. right. eassumption.
Qed.

Lemma from_files_at_keeps base d p s : disk_ok d -> from_files_at base d p = Ok s -> sec_ok s.
Proof.
  intros Hd. unfold from_files_at. destruct (find_dir d p) as [d'|] eqn:E.
  - apply from_files_keeps. eapply find_dir_ok; eassumption.
  - intros [= <-]. constructor; [discriminate|intros ? ? []|intros ? []].
Qed.

Lemma cm_load_tree base disk st : disk_ok disk -> cm_load base disk = Ok st -> tree_wf st.
Proof.
  intros Hd. unfold cm_load. destruct (from_files_at base disk []) as [s|] eqn:E; [|discriminate]. intros [= <-].
  split; cbn; [eapply from_files_at_keeps; eassumption|]. split; [|exact Hd]. split; apply dwf_nil.
Qed.

Lemma default_ok base st p create v : tree_wf st -> default_for base st p create = Ok v -> node_ok (default_node v).
Proof.
  intros (H1 & H2 & H3). unfold default_for.
  assert (F : match read_file (cs_disk st) (item_file p) with
              | Ok content => Ok (DConf (loaded_config (last p "") (item_file p) content))
              | Raise e => Raise e end = Ok v -> node_ok (default_node v)).
  { destruct (read_file (cs_disk st) (item_file p)) as [content|] eqn:E; [|discriminate]. intros [= <-].
    constructor. apply loaded_config_wf. eapply (proj2 H3). exact E. }
  destruct (lookup_at st p) as [[]|[]]; try discriminate; try exact F.
  - destruct (from_files_at base (cs_disk st) p) as [s1|] eqn:E; [|discriminate]. intros [= <-]. constructor.
    eapply from_files_at_keeps; eassumption.
  - destruct create; [exact F|discriminate].
Qed.

Lemma set_config_keeps p v b : node_ok (default_node v) -> keepsW (set_func_or_section_config p v b).
Proof.
  intro Hv. unfold set_func_or_section_config. destruct b; [|now apply set_item_keeps].
  intros st W. assert (W' := W). destruct W' as (H1 & H2 & H3).
  destruct (append_nested mgr_reserved (cs_root st) p (default_node v)) as [s|] eqn:E; [|exact W].
  cbn. split; [|auto]. cbn. eapply append_nested_keeps; eassumption.
Qed.

Lemma cm_set_keeps path v b : node_ok (default_node v) -> keepsW (cm_set path v b).
Proof.
  intros Hv st W. unfold cm_set. assert (G := gf_keeps (path_parts path) st W).
  destruct (get_func_or_section_configs (path_parts path) st) as [s1 r]. cbn [fst] in G.
  assert (C : keepsW (set_func_or_section_config (path_parts path) v b ;;; ret true))
    by (apply keepsW_bind; [now apply set_config_keeps|intro; apply keepsW_ret]).
  destruct r as [[r|]|e].
  - destruct v as [value|]; [|exact G]. apply deref_bind_keeps; [|exact G]. intros c _.
    apply keepsW_bind; [apply keepsW_lift|]. intro ups. apply keepsW_bind; [apply keepsW_lift|]. intros [|]; [|apply keepsW_ret].
    apply keepsW_bind; [apply keepsW_emit|]. intro. exact C.
  - now apply C.
  - destruct e; try exact G. now apply C.
Qed.

Lemma cm_reset_keeps base path b : keepsW (cm_reset base path b).
Proof.
  destruct path as [p|]; cbn [cm_reset].
  - intros st W. unfold bind at 1. destruct (default_for base st (path_parts p) b) as [v|] eqn:E; [|exact W].
    apply keepsW_bind; [|intro; apply keepsW_ret|exact W]. apply cm_set_keeps. eapply default_ok; eassumption.
  - intros st (H1 & H2 & H3). split; [exact H1|]. split; [split; apply dwf_nil|exact H3].
Qed.

Lemma cop_keeps base st op : tree_wf st -> tree_wf (cop_run base st op).
Proof.
  intro W. destruct op; cbn [cop_run].
  - now apply cm_update_keeps.
  - now apply cm_refresh_keeps.
  - now apply cm_reset_keeps.
  - now apply cm_get_keeps.
  - now apply cm_pop_keeps.
Qed.

(** so every state reached from a load by public operations is well-formed *)
Lemma reachable_wf base disk st ops : disk_ok disk -> cm_load base disk = Ok st ->
  tree_wf (fold_left (cop_run base) ops st).
Proof.
  intros Hd Hl. apply cm_load_tree in Hl; [|exact Hd]. revert st Hl. induction ops as [|op ops IH]; cbn; intros st W; [exact W|].
  apply IH. now apply cop_keeps.
Qed.
