(** Proofs about dir(). *)
From Verif Require Import Dir_Spec Selector_Proofs GetAttr_Proofs.
From Verif Require Import ConfigWf_Proofs.
Local Open Scope string_scope.
Local Open Scope list_scope.

Lemma coll_dir_in c x : In x (coll_dir c) <-> entry_of c x.
Proof. unfold coll_dir, entry_of. rewrite nodup_In, in_map_iff. firstorder. Qed.

Lemma last_entry_of c x : last_entry x (coll_entries c) <> None <-> entry_of c x.
Proof.
  unfold entry_of. induction (coll_entries c) as [|e l IH]; cbn [last_entry]; [split; [congruence|now intros (? & [] & _)]|].
  destruct (last_entry x l) as [e'|] eqn:El.
  - split; [|discriminate]. intros _. destruct (proj1 IH ltac:(discriminate)) as (e2 & H1 & H2). exists e2. split; [now right|exact H2].
  - destruct (String.eqb_spec x (entry_name e)) as [E|E].
    + split; [|discriminate]. intros _. exists e. split; [now left|congruence].
    + split; [congruence|]. intros (e2 & [H1|H1] & H2); [congruence|]. apply (proj2 IH). eauto.
Qed.

Lemma reg_dir_in c x : In x (reg_dir c) <-> In x reg_exposed \/ entry_of c x.
Proof.
  unfold reg_dir. rewrite in_app_iff, filter_In, coll_dir_in. destruct (mem x reg_exposed) eqn:E; cbn.
  - apply mem_In in E. tauto.
  - intuition.
Qed.

Lemma times_app x l1 l2 : times x (l1 ++ l2) = times x l1 + times x l2.
Proof. unfold times. apply count_occ_app. Qed.
Lemma times_filter x f l : times x (filter f l) = if f x then times x l else 0.
Proof.
  unfold times. induction l as [|y l IH]; cbn [filter]; [cbn; now destruct (f x)|].
  destruct (f y) eqn:Ey; cbn [count_occ]; destruct (string_dec y x) as [->|N]; rewrite ?IH, ?Ey; try reflexivity.
Qed.
Lemma times_nodup x l : NoDup l -> times x l = if mem x l then 1 else 0.
Proof.
  intros N. unfold times. destruct (mem x l) eqn:E.
  - apply mem_In in E. now apply NoDup_count_occ'.
  - apply mem_false in E. now apply count_occ_not_In.
Qed.
Lemma nodup_disjoint (l1 l2 : list string) : NoDup l1 -> NoDup l2 -> (forall x, In x l1 -> ~ In x l2) -> NoDup (l1 ++ l2).
Proof.
  intros N1 N2. induction N1 as [|y r Hy N1 IH]; intros D; cbn; [exact N2|]. constructor; [|apply IH; intros x Hx; apply D; now right].
  rewrite in_app_iff. intros [H|H]; [contradiction|]. exact (D y (or_introl eq_refl) H).
Qed.
Lemma reg_dir_nodup c : NoDup (reg_dir c).
Proof.
  unfold reg_dir. apply nodup_disjoint; [repeat constructor; cbn; intuition discriminate|apply NoDup_filter, NoDup_nodup|].
  intros x H1 H2. apply filter_In in H2 as [_ H2]. apply mem_In in H1. rewrite H1 in H2. discriminate.
Qed.

Lemma pm_dir_eq m i l : g_items m = Some i -> pm_dir m = Ok l -> l = pm_exposed m i ++ filter (fun a => negb (mem a (pm_exposed m i ++ pm_skip))) (reg_dir (i_general i)).
Proof. intros H. unfold pm_dir. rewrite H. cbv zeta. intros K. now inversion K. Qed.

(** * Lookups *)
Lemma path_parts_one x : has_char dot x = false -> path_parts x = [x].
Proof. intros H. unfold path_parts, mk_sp. cbn [sections]. unfold section_path_str_to_section_strs. now apply split_no_sep. Qed.

Lemma find_registrar_some x l : In x (map reg_name l) <-> exists r, find_registrar x l = Some r.
Proof.
  unfold find_registrar. induction l as [|r l IH]; cbn; [split; [tauto|now intros (? & ?)]|].
  destruct (String.eqb_spec (reg_name r) x) as [E|E]; [split; eauto|]. rewrite <- IH. intuition.
Qed.

Lemma lookup_one its x : has_char dot x = false ->
  get_func_or_collection its x =
    match find_registrar x (i_specific its) with
    | Some r => Ok (true, FColl (reg_coll r))
    | None => if String.eqb x "collection" then Ok (false, FColl (i_general its))
              else if mem x reg_reserved || mem x coll_reserved then Raise AttributeError
              else match last_entry x (coll_entries (i_general its)) with
                   | Some (EItem _ (TBroken e)) => Raise e
                   | Some (EItem _ t) => Ok (false, FThing t)
                   | Some (EColl c) => Ok (false, FColl c)
                   | None => Raise AttributeError
                   end
    end.
Proof.
  intros H. unfold get_func_or_collection. rewrite (path_parts_one x H). cbn [join]. destruct (find_registrar x (i_specific its)); [reflexivity|].
  unfold general_get, reg_get. destruct (String.eqb x "collection"); [reflexivity|]. destruct (mem x reg_reserved); [reflexivity|]. cbn [orb coll_get]. unfold coll_getattr.
  destruct (mem x coll_reserved); [reflexivity|]. destruct (last_entry x (coll_entries (i_general its))) as [[n [f|k| |e|k]|c]|]; reflexivity.
Qed.

(** * Views *)
Lemma coll_get_snoc parts : forall c c' x, coll_get c parts = Ok (FColl c') -> coll_get c (parts ++ [x]) = coll_get c' [x].
Proof.
  induction parts as [|y parts IH]; intros c c' x H; [cbn [coll_get] in H; injection H as ->; reflexivity|].
  cbn [app coll_get] in *. destruct (coll_getattr c y) as [[c2|t|]|e]; [now apply IH| | |discriminate]; destruct parts; discriminate.
Qed.
Lemma nested_names parts : forall c l, nested_dir c parts = Ok (Names l) -> exists c', coll_get c parts = Ok (FColl c') /\ l = coll_dir c'.
Proof.
  induction parts as [|x parts IH]; intros c l H; cbn [nested_dir coll_get] in *; [injection H as <-; eauto|].
  destruct (coll_getattr c x) as [[c2|[f|k| |e|k]|]|e]; try discriminate; try (destruct parts; discriminate). now apply IH.
Qed.
Lemma locate_root sel ms path c x : locate sel ms path = Ok (LRoot (Some c)) -> has_char dot x = false -> locate sel ms (path ++ "." ++ x)%string = Ok (LIn false c [x]).
Proof.
  unfold locate. intros H Hx. rewrite (parts_snoc path x _ eq_refl Hx). destruct (path_parts path) as [|n below] eqn:Ep; [discriminate|]. cbn [app].
  destruct (dget n ms) as [m|]; [|discriminate]. destruct below as [|y rest]; [discriminate|]. cbn [app].
  destruct (mem y (g_names m)).
  - destruct rest as [|z rest]; cbn [app].
    + destruct (dget n sel) as [d|]; [|discriminate]. destruct (dget y d) as [c2|]; [|discriminate]. injection H as ->. now rewrite (parts_join [x]) by (try discriminate; repeat constructor; exact Hx).
    + destruct (dget n sel) as [d|]; [|discriminate]. destruct (dget y d) as [c2|]; discriminate.
  - destruct (dget n sel) as [d|]; [|discriminate]. destruct (dget general_name d) as [c2|]; discriminate.
Qed.
Lemma locate_in sel ms path g c parts x : locate sel ms path = Ok (LIn g c parts) -> has_char dot x = false -> locate sel ms (path ++ "." ++ x)%string = Ok (LIn g c (parts ++ [x])).
Proof.
  unfold locate. intros H Hx. rewrite (parts_snoc path x _ eq_refl Hx). destruct (path_parts path) as [|n below] eqn:Ep; [discriminate|]. cbn [app].
  pose proof (parts_of_tail path n below Ep) as F. destruct (dget n ms) as [m|]; [|discriminate]. destruct below as [|y rest]; [discriminate|]. cbn [app].
  destruct (mem y (g_names m)).
  - destruct rest as [|z rest]; cbn [app].
    + destruct (dget n sel) as [d|]; [|discriminate]. destruct (dget y d) as [c2|]; discriminate.
    + destruct (dget n sel) as [d|]; [|discriminate]. destruct (dget y d) as [c2|]; [|discriminate]. inversion F as [|? ? F1 F2]; subst.
      rewrite (parts_join (z :: rest)) in H by (try discriminate; exact F2). injection H as <- <- <-.
      change (z :: rest ++ [x]) with ((z :: rest) ++ [x]). rewrite parts_join; [reflexivity|discriminate|]. apply Forall_app. split; [exact F2|repeat constructor; exact Hx].
  - destruct (dget n sel) as [d|]; [|discriminate]. destruct (dget general_name d) as [c2|]; [|discriminate]. rewrite (parts_join (y :: rest)) in H by (try discriminate; exact F). injection H as <- <- <-.
    change (y :: rest ++ [x]) with ((y :: rest) ++ [x]). rewrite parts_join; [reflexivity|discriminate|]. apply Forall_app. split; [exact F|repeat constructor; exact Hx].
Qed.

Lemma one_in_collection c x : ~ In x coll_reserved -> coll_get c [x] = match last_entry x (coll_entries c) with Some (EItem _ t) => Ok (FThing t) | Some (EColl c') => Ok (FColl c') | None => Raise AttributeError end.
Proof.
  intros H. apply mem_false in H. cbn [coll_get]. unfold coll_getattr. rewrite H. destruct (last_entry x (coll_entries c)) as [[n t|c']|]; reflexivity.
Qed.
Lemma reserved_in_collection c x : In x coll_reserved -> coll_get c [x] = Ok FOther.
Proof. intros H. apply mem_In in H. cbn [coll_get]. unfold coll_getattr. now rewrite H. Qed.

(** a name looked up below a section *)
Lemma view_below sel ms path x g c parts c' : locate sel ms (path ++ "." ++ x)%string = Ok (LIn g c (parts ++ [x])) -> coll_get c parts = Ok (FColl c') -> mem x view_names = false ->
  iv_getattr sel ms path x = Ok (if (if mem x coll_reserved then coll_callable g x else mem x (coll_dir c')) then View (path ++ "." ++ x)%string else OfRealItem path x).
Proof.
  intros L G Hi. unfold iv_getattr. change iv_attrs with view_names. rewrite Hi. cbn [sel_contains]. rewrite L, (coll_get_snoc _ _ _ x G). destruct (mem x coll_reserved) eqn:Er.
  - rewrite reserved_in_collection by now apply mem_In. rewrite last_last. cbv zeta. now destruct (coll_callable g x).
  - rewrite one_in_collection by now apply mem_false. destruct (last_entry x (coll_entries c')) as [[n t|c2]|] eqn:El.
    + assert (M : mem x (coll_dir c') = true) by (apply mem_In, coll_dir_in, last_entry_of; congruence). now rewrite M.
    + assert (M : mem x (coll_dir c') = true) by (apply mem_In, coll_dir_in, last_entry_of; congruence). now rewrite M.
    + assert (M : mem x (coll_dir c') = false) by (apply mem_false; rewrite coll_dir_in, <- last_entry_of; tauto). now rewrite M.
Qed.

Lemma dir_for_below sel ms path n y rest l : path_parts path = n :: y :: rest -> dir_for sel ms path = Ok (Names l) ->
  exists g c parts c', (forall x, has_char dot x = false -> locate sel ms (path ++ "." ++ x)%string = Ok (LIn g c (parts ++ [x]))) /\ coll_get c parts = Ok (FColl c') /\ l = coll_dir c'.
Proof.
  intros Hp H. unfold dir_for in H. destruct (locate sel ms path) as [[[c|]|g c parts]|e] eqn:L; try discriminate.
  - injection H as <-. exists false, c, [], c. split; [intros x Hx; cbn [app]; now apply locate_root|]. split; reflexivity.
  - exfalso. unfold locate in L. rewrite Hp in L. destruct (dget n ms) as [m|]; [|discriminate]. destruct (mem y (g_names m)).
    + destruct rest; (destruct (dget n sel) as [d|]; [|discriminate]; destruct (dget y d); discriminate).
    + destruct (dget n sel) as [d|]; [|discriminate]; destruct (dget general_name d); discriminate.
  - apply nested_names in H. destruct H as (c' & G & ->). exists g, c, parts, c'. split; [intros x Hx; now apply locate_in|]. auto.
Qed.

(** * Configs *)
Lemma node_names_in l x : In x (node_names l) <-> last_named x l <> None.
Proof.
  unfold node_names. induction l as [|n l IH]; cbn [flat_map last_named]; [split; [contradiction|congruence]|]. rewrite in_app_iff, IH. destruct (last_named x l) as [k|]; [split; [discriminate|right; discriminate]|].
  unfold has_name. destruct (node_name n) as [y|]; [|cbn; intuition]. destruct (String.eqb_spec x y) as [->|N]; cbn; intuition congruence.
Qed.
Lemma sec_dir_in s x : In x (sec_dir s) <-> last_named x (s_items s) <> None.
Proof. unfold sec_dir. now rewrite nodup_In, node_names_in. Qed.

Lemma d_mgrs_ok : mgrs_ok d_mgrs.
Proof.
  split; [repeat constructor; cbn; tauto|]. intros n m H. cbn in H. destruct (String.eqb n "p"); [|discriminate]. injection H as <-. exists d_items.
  repeat split; [repeat constructor; cbn; tauto|]. cbn. intuition discriminate.
Qed.

Lemma leaf_no_section rest : forall m s, leaf_getattrs m rest = Ok (LSec s) -> m = LSec s.
Proof.
  induction rest as [|y rest IH]; intros m s H; cbn [leaf_getattrs] in H; [congruence|].
  destruct m; try discriminate; destruct (_ || _) in H || destruct (mem _ _) in H; try discriminate; apply IH in H; discriminate.
Qed.
Lemma nested_step q : forall l t s x, q <> [] -> get_nested l t q = Ok (LSec s) -> get_nested l t (q ++ [x]) = get_nested sec_reserved s [x].
Proof.
  induction q as [|y q IH]; intros l t s x N L; [contradiction|]. cbn [app get_nested] in L |- *.
  destruct (sec_getattr l t y) as [m|]; [|discriminate]. destruct q as [|z q].
  - destruct m; try discriminate. now injection L as ->.
  - destruct m; try (apply leaf_no_section in L; discriminate). now apply IH.
Qed.
Lemma nested_own l s x : no_own_entry s -> (get_nested l s [x] = Ok ConfigTree_Model.LOther <-> In x l).
Proof.
  intros [H1 H2]. cbn [get_nested]. unfold sec_getattr. destruct (mem x l) eqn:M; [apply mem_In in M; cbn [leaf_getattrs]; tauto|]. apply mem_false in M.
  split; [|tauto]. destruct (dget x (s_attrs s)) as [n|] eqn:D.
  - destruct n; cbn [node_lookup leaf_getattrs get_nested]; try discriminate. now elim (H1 x).
  - destruct (own_config_named s x); [discriminate|]. destruct (last_named x (s_items s)) as [n|] eqn:L; [|discriminate].
    apply last_named_In in L. destruct n; cbn [node_lookup leaf_getattrs get_nested]; try discriminate. contradiction.
Qed.

Lemma manager_lists : forall m i l x, g_items m = Some i -> pm_dir m = Ok l ->
  (In x l <-> In x pm_methods \/ x = "name" \/ In x (g_names m) \/ In x (map reg_name (i_specific i)) \/
              entry_of (i_general i) x /\ x <> "scaffold_config" /\ x <> "basepath").
Proof.
  intros m i l x Hi Hl. rewrite (pm_dir_eq m i l Hi Hl). rewrite in_app_iff, filter_In, reg_dir_in.
  assert (E : In x (pm_exposed m i) <-> In x pm_methods \/ x = "name" \/ In x (g_names m) \/ In x (map reg_name (i_specific i))).
  { unfold pm_exposed. rewrite !in_app_iff. cbn [In]. intuition. }
  rewrite E. destruct (mem x (pm_exposed m i ++ pm_skip)) eqn:M; cbn [negb].
  - apply mem_In in M. rewrite in_app_iff in M. destruct M as [M|M].
    + apply E in M. tauto.
    + cbn in M. intuition congruence.
  - apply mem_false in M. rewrite in_app_iff in M. cbn [In pm_skip] in M. split; [|intuition congruence]. intros [H|[[H|H] _]]; [tauto| |intuition congruence].
    exfalso. cbn in H. destruct H as [<-|[<-|[<-|[<-|[]]]]]; try (apply M; right; tauto); apply M; left; apply E; unfold pm_methods; cbn; tauto.
Qed.
