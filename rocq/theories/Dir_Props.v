(** C82: the names dir() lists and the names that can be accessed. *)
From Verif Require Import GetAttr_Spec Dir_Spec Dir_Proofs Selector_Proofs GetAttr_Proofs Runner_Example.
Local Open Scope string_scope.
Local Open Scope list_scope.

(** * The manager *)
(** Before the first load dir() of a manager raises, and afterwards it does not. *)
Theorem C82_manager_needs_loading : forall m, (g_items m = None -> pm_dir m = Raise TypeError) /\ (g_items m <> None -> exists l, pm_dir m = Ok l).
Proof. intros m. unfold pm_dir. destruct (g_items m); split; try congruence; eauto. Qed.

(** What is listed: nine methods, [name], the class dicts, and all top-level sections and items except those with two names. *)
Theorem C82_manager_lists : forall m i l x, g_items m = Some i -> pm_dir m = Ok l ->
  (In x l <-> In x methods_listed \/ x = "name" \/ In x (g_names m) \/ In x (map reg_name (i_specific i)) \/
              entry_of (i_general i) x /\ x <> "scaffold_config" /\ x <> "basepath").
Proof.
  intros m i l x Hi Hl. assert (L : In x methods_listed <-> In x pm_methods) by (cbn; tauto). rewrite L. exact (manager_lists m i l x Hi Hl).
Qed.

(** How often: class dicts are listed twice, everything else once (a class dict named like a method three times). *)
Theorem C82_how_often : forall m i l x, mgr_ok m -> g_items m = Some i -> pm_dir m = Ok l -> In x l ->
  times x l = (if mem x ("name" :: pm_methods) then 1 else 0) + (if mem x (g_names m) then 2 else if mem x ("name" :: pm_methods) then 0 else 1).
Proof.
  intros m i l x (i' & Hi' & Hn & Nd & _) Hi Hl Hx. assert (i' = i) by congruence. subst i'. pose proof (proj1 (manager_lists m i l x Hi Hl) Hx) as K.
  rewrite (pm_dir_eq m i l Hi Hl). rewrite times_app, times_filter, (times_nodup x (reg_dir _)) by apply reg_dir_nodup.
  assert (E : times x (pm_exposed m i) = (if mem x ("name" :: pm_methods) then 1 else 0) + 2 * (if mem x (g_names m) then 1 else 0)).
  { unfold pm_exposed. rewrite Hn. rewrite !times_app. change ("name" :: g_names m) with (["name"] ++ g_names m). rewrite times_app, (times_nodup x (g_names m) Nd).
    assert (F : times x pm_methods + times x ["name"] = if mem x ("name" :: pm_methods) then 1 else 0).
    { rewrite <- times_app. assert (N : NoDup (pm_methods ++ ["name"])) by (repeat constructor; cbn; intuition discriminate). rewrite (times_nodup x _ N).
      destruct (mem x (pm_methods ++ ["name"])) eqn:E1, (mem x ("name" :: pm_methods)) eqn:E2; try reflexivity; exfalso.
      - apply mem_In in E1. apply mem_false in E2. apply E2. rewrite in_app_iff in E1. destruct E1 as [E1|[<-|[]]]; [now right|now left].
      - apply mem_In in E2. apply mem_false in E1. apply E1. rewrite in_app_iff. destruct E2 as [<-|E2]; [right; now left|now left]. }
    destruct (mem x (g_names m)); lia. }
  rewrite E. destruct (mem x (g_names m)) eqn:G.
  - assert (M : mem x (pm_exposed m i ++ pm_skip) = true). { apply mem_In. apply mem_In in G. unfold pm_exposed. rewrite !in_app_iff. left. right. left. now right. }
    rewrite M. cbn [negb]. lia.
  - destruct (mem x ("name" :: pm_methods)) eqn:P.
    + assert (M : mem x (pm_exposed m i ++ pm_skip) = true). { apply mem_In. apply mem_In in P. unfold pm_exposed. rewrite !in_app_iff. left. destruct P as [<-|P]; [right; left; now left|now left]. }
      rewrite M. cbn [negb]. lia.
    + apply mem_false in G. apply mem_false in P. rewrite Hn in K. cbn [In] in P. assert (K' : entry_of (i_general i) x /\ x <> "scaffold_config" /\ x <> "basepath") by intuition congruence.
      assert (M : mem x (pm_exposed m i ++ pm_skip) = false). { apply mem_false. unfold pm_exposed. rewrite !in_app_iff, Hn. cbn [In pm_skip]. intuition congruence. }
      rewrite M. cbn [negb]. assert (R : mem x (reg_dir (i_general i)) = true) by (apply mem_In, reg_dir_in; tauto). rewrite R. lia.
Qed.
Example C82_how_often_example : exists l, pm_dir d_mgr = Ok l /\ times "kls" l = 2 /\ times "sec" l = 1 /\ times "run" l = 1 /\ times "scaffold_config" l = 0.
Proof. eexists. split; [reflexivity|]. repeat split. Qed.

(** Listed sections, items and class dicts are found when they are accessed - if importing them does not raise -, unless
    collections or registrars use the name themselves. *)
Theorem C82_listed_is_found : forall m i l x, mgr_ok m -> g_items m = Some i -> pm_dir m = Ok l -> In x l -> ~ In x pm_methods -> ~ taken x -> has_char dot x = false ->
  (exists b f, get_func_or_collection i x = Ok (b, f)) \/ (exists n e, last_entry x (coll_entries (i_general i)) = Some (EItem n (TBroken e)) /\ get_func_or_collection i x = Raise e).
Proof.
  intros m i l x (i' & Hi' & Hn & _) Hi Hl Hx Hm Ht Hd. assert (i' = i) by congruence. subst i'. apply (manager_lists m i l x Hi Hl) in Hx. rewrite (lookup_one i x Hd).
  unfold taken in Ht. destruct (find_registrar x (i_specific i)) as [r|] eqn:F; [left; eauto|].
  assert (NF : ~ In x (map reg_name (i_specific i))) by (intros H; apply find_registrar_some in H; destruct H; congruence).
  destruct (String.eqb_spec x "collection") as [->|_]; [tauto|]. assert (R1 : mem x reg_reserved = false) by (apply mem_false; tauto). assert (R2 : mem x coll_reserved = false) by (apply mem_false; tauto).
  rewrite R1, R2. cbn [orb]. assert (En : entry_of (i_general i) x).
  { destruct Hx as [H|[H|[H|[H|[H _]]]]]; try tauto; exfalso; [subst x; apply Ht; right; left; cbn; tauto|rewrite <- Hn in H; tauto]. }
  apply last_entry_of in En. destruct (last_entry x (coll_entries (i_general i))) as [[n [f|k| |e|k]|c]|] eqn:El; try (left; eauto; fail); [right; eauto|congruence].
Qed.
(** The converse: every top-level name that can be accessed is listed, except [collection]. *)
Theorem C82_found_is_listed : forall m i l x, mgr_ok m -> g_items m = Some i -> pm_dir m = Ok l -> has_char dot x = false ->
  (exists b f, get_func_or_collection i x = Ok (b, f)) -> In x l \/ x = "collection".
Proof.
  intros m i l x (i' & Hi' & Hn & _) Hi Hl Hd (b & f & H). assert (i' = i) by congruence. subst i'. rewrite (lookup_one i x Hd) in H.
  destruct (find_registrar x (i_specific i)) as [r|] eqn:F.
  - left. apply (manager_lists m i l x Hi Hl). right; right; right; left. apply find_registrar_some. eauto.
  - destruct (String.eqb_spec x "collection") as [->|_]; [now right|]. left. destruct (mem x reg_reserved || mem x coll_reserved) eqn:R; [discriminate|].
    apply orb_false_iff in R. destruct R as [R1 R2]. apply mem_false in R1. apply (manager_lists m i l x Hi Hl). right; right; right; right. split.
    + apply last_entry_of. destruct (last_entry x (coll_entries (i_general i))); [discriminate|discriminate].
    + split; intros ->; apply R1; cbn; tauto.
Qed.
Example C82_found_example : exists l, pm_dir d_mgr = Ok l /\ In "g" l /\ ~ In "g" pm_methods /\ ~ taken "g" /\ mgr_ok d_mgr /\ exists f, get_func_or_collection d_items "g" = Ok (false, f).
Proof.
  eexists. split; [reflexivity|]. split; [cbn; tauto|]. split; [cbn; intuition discriminate|]. split; [unfold taken; cbn; intuition discriminate|]. split; [|eexists; reflexivity].
  apply (proj2 d_mgrs_ok "p"). reflexivity.
Qed.

(** Not every listed item can be accessed: one named like an attribute of collections raises AttributeError. *)
Theorem C82_listed_can_be_accessed_refuted : exists m i l x, mgr_ok m /\ g_items m = Some i /\ pm_dir m = Ok l /\ In x l /\ entry_of (i_general i) x /\
  forall u s, g_full s = "" -> snd (do_access i u (OnManager x) s) = Raise AttributeError.
Proof.
  exists d_mgr, d_items. eexists. exists "klass". split; [apply (proj2 d_mgrs_ok "p"); reflexivity|]. split; [reflexivity|]. split; [reflexivity|]. split; [cbn; tauto|].
  split; [exists (EItem "klass" (TFunc d_fn)); cbn; tauto|]. intros u s Hs. cbn [do_access mem pm_attrs runner_attrs existsb]. unfold runner_getattr. rewrite Hs. reflexivity.
Qed.
(** Not everything listed is what is accessed: an item named like an unlisted method is listed, and the method is accessed. *)
Theorem C82_listed_is_what_is_accessed_refuted : exists m i l x, mgr_ok m /\ g_items m = Some i /\ pm_dir m = Ok l /\ In x l /\ entry_of (i_general i) x /\ ~ In x pm_methods /\
  forall u s, do_access i u (OnManager x) s = (s, Ok ADefined).
Proof.
  exists d_mgr, d_items. eexists. exists "create". split; [apply (proj2 d_mgrs_ok "p"); reflexivity|]. split; [reflexivity|]. split; [reflexivity|]. split; [cbn; tauto|].
  split; [exists (EItem "create" (TFunc d_fn)); cbn; tauto|]. split; [cbn; intuition discriminate|]. reflexivity.
Qed.
(** Not every method is listed. *)
Theorem C82_methods_listed_refuted : exists m l, pm_dir m = Ok l /\ forall x, In x ["update_batch"; "create"; "config"; "folder"] -> In x own_names_of_managers /\ ~ In x l.
Proof.
  exists (SMgr [] (Some (Items [] (Coll "p" [])))). eexists. split; [reflexivity|]. intros x [<-|[<-|[<-|[<-|[]]]]]; (split; [cbn; tauto|cbn; intuition discriminate]).
Qed.

(** Sections: whatever the section, what is listed are the attributes of the runner. *)
Theorem C82_sections_of_manager : forall i u x s s' a, do_access i u (OnManager x) s = (s', Ok a) -> forall l, attr_dir a = Some l -> l = own_names_of_runners.
Proof. intros i u x s s' [| |] _ l H; cbn [attr_dir] in H; try discriminate. now injection H as <-. Qed.
Theorem C82_items_of_sections_listed_refuted : exists i u s x y l, g_full s = "" /\ snd (do_access i u (OnManager x) s) = Ok ASelf /\ attr_dir ASelf = Some l /\
  get_func_or_collection i (x ++ "." ++ y) = Ok (false, FThing (TFunc d_fn)) /\ ~ In y l.
Proof.
  exists d_items, ex_user, (GS "" ex_rs), "sec", "f". eexists. split; [reflexivity|]. split; [reflexivity|]. split; [reflexivity|]. split; [reflexivity|]. cbn. intuition discriminate.
Qed.

(** * The selector and its views *)
(** The selector lists all managers there are now; each of them gives a view, unless the selector uses the name itself. *)
Theorem C82_selector : forall ms x, In x (sel_dir ms) -> selector_getattr x = OwnAttr \/ dmem x ms = true /\ selector_getattr x = View x.
Proof.
  intros ms x [<-|H]; [now left|]. unfold selector_getattr. destruct (mem x selector_attrs); [now left|right]. split; [|reflexivity]. now apply dmem_In.
Qed.
(** A view of a section: the listed names are those whose access gives a view, except for names that collections use
    themselves, which give a view exactly if they are callable, and [type] and [item]. *)
Theorem C82_view_of_section : forall sel ms path n y rest l x, path_parts path = n :: y :: rest -> iv_dir sel ms path = Ok (Some l) -> dir_for sel ms path <> Ok OfObjectView -> accessible x ->
  ~ In x coll_reserved ->
  iv_getattr sel ms path x = Ok (if mem x l then View (path ++ "." ++ x)%string else OfRealItem path x).
Proof.
  intros sel ms path n y rest l x Hp Hl Hv [Hd Hi] Hr. unfold iv_dir in Hl. destruct (dir_for sel ms path) as [[l'| |]|e] eqn:D; try discriminate; [|congruence].
  cbn in Hl. injection Hl as <-. destruct (dir_for_below sel ms path n y rest l' Hp D) as (g & c & parts & c' & L & G & ->).
  rewrite (view_below sel ms path x g c parts c' (L x Hd) G Hi). apply mem_false in Hr. rewrite Hr.
  assert (E : mem x ("type" :: "item" :: coll_dir c') = mem x (coll_dir c')); [|now rewrite E].
  apply mem_false in Hi. cbn [mem existsb]. destruct (String.eqb_spec x "type") as [->|_]; [exfalso; apply Hi; cbn; tauto|]. destruct (String.eqb_spec x "item") as [->|_]; [exfalso; apply Hi; cbn; tauto|]. reflexivity.
Qed.
Example C82_view_of_section_example : iv_dir d_sel d_mgrs "p.sec" = Ok (Some ["type"; "item"; "f"]) /\ iv_getattr d_sel d_mgrs "p.sec" "f" = Ok (View "p.sec.f") /\
  iv_dir d_sel d_mgrs "p.kls" = Ok (Some ["type"; "item"; "one"]) /\ iv_getattr d_sel d_mgrs "p.sec" "nope" = Ok (OfRealItem "p.sec" "nope").
Proof. repeat split. Qed.

(** A view of a manager, with a selector made after the managers were loaded: sections, items and class dicts give views, the
    manager's own methods are its own. *)
Theorem C82_view_of_manager : forall ms sel n m i l x, mgrs_ok ms -> new_selector ms = Ok sel -> has_char dot n = false -> dget n ms = Some m -> g_items m = Some i -> pm_dir m = Ok l ->
  accessible x -> ~ In x coll_reserved ->
  iv_dir sel ms n = Ok (Some ("type" :: "item" :: l)) /\
  iv_getattr sel ms n x = Ok (if mem x (g_names m) || mem x (coll_dir (i_general i)) then View (n ++ "." ++ x)%string else OfRealItem n x) /\
  (In x l -> iv_getattr sel ms n x = Ok (View (n ++ "." ++ x)%string) \/ In x pm_methods) /\
  (iv_getattr sel ms n x = Ok (View (n ++ "." ++ x)%string) -> In x l \/ x = "scaffold_config").
Proof.
  intros ms sel n m i l x Hms Hs Hn Hm Hi Hl [Hd Hv] Hr. destruct (proj2 Hms n m Hm) as (i' & Hi' & Hg & Nd & Ng). assert (i' = i) by congruence. subst i'.
  assert (D : iv_dir sel ms n = Ok (Some ("type" :: "item" :: l))).
  { unfold iv_dir, dir_for, locate. rewrite (path_parts_one n Hn), Hm, Hl. reflexivity. }
  assert (Ns : dget n sel = Some (manager_dict i)) by (rewrite (new_selector_get ms sel n m (proj1 Hms) Hs Hm), Hi; reflexivity).
  assert (V : iv_getattr sel ms n x = Ok (if mem x (g_names m) || mem x (coll_dir (i_general i)) then View (n ++ "." ++ x)%string else OfRealItem n x)).
  { pose proof (parts_snoc n x _ (path_parts_one n Hn) Hd) as Hp. cbn [app] in Hp. destruct (mem x (g_names m)) eqn:G.
    - unfold iv_getattr. change iv_attrs with view_names. rewrite Hv. cbn [sel_contains]. unfold locate. rewrite Hp, Hm, G, Ns. apply mem_In in G. rewrite <- Hg in G.
      destruct (manager_dict_some i x G) as [c Hc]. rewrite Hc. reflexivity.
    - assert (L : locate sel ms (n ++ "." ++ x)%string = Ok (LIn true (i_general i) [x])).
      { unfold locate. rewrite Hp, Hm, G, Ns, manager_dict_general by (rewrite Hg; exact Ng). cbn [join]. rewrite (path_parts_one x Hd). reflexivity. }
      rewrite (view_below sel ms n x true (i_general i) [] (i_general i) L eq_refl Hv). apply mem_false in Hr. now rewrite Hr. }
  split; [exact D|]. split; [exact V|]. rewrite V. rewrite (manager_lists m i l x Hi Hl), Hg. split.
  - intros H. destruct (mem x (g_names m)) eqn:G; [now left|]. apply mem_false in G. cbn [orb]. destruct H as [H|[H|[H|[H|[H _]]]]]; try tauto.
    + subst x. exfalso. apply Hr. cbn. tauto.
    + left. apply coll_dir_in, mem_In in H. now rewrite H.
  - destruct (mem x (g_names m)) eqn:G; [apply mem_In in G; tauto|]. cbn [orb]. destruct (mem x (coll_dir (i_general i))) eqn:K; [|discriminate]. intros _.
    apply mem_In, coll_dir_in in K. destruct (string_dec x "scaffold_config") as [->|N]; [now right|left]. right; right; right; right. repeat split; auto.
    intros ->. apply Hr. cbn. tauto.
Qed.
Example C82_view_of_manager_example : mgrs_ok d_mgrs /\ new_selector d_mgrs = Ok d_sel /\ iv_getattr d_sel d_mgrs "p" "sec" = Ok (View "p.sec") /\ iv_getattr d_sel d_mgrs "p" "run" = Ok (OfRealItem "p" "run").
Proof. split; [exact d_mgrs_ok|]. repeat split. Qed.
(** The manager's method [get] is listed, but its access gives a view of a path that no item has. *)
Theorem C82_view_of_get_refuted : exists ms sel l, mgrs_ok ms /\ new_selector ms = Ok sel /\ iv_dir sel ms "p" = Ok (Some l) /\ In "get" l /\ iv_getattr sel ms "p" "get" = Ok (View "p.get") /\
  forall i m, dget "p" ms = Some m -> g_items m = Some i -> ~ entry_of (i_general i) "get" /\ ~ In "get" (g_names m).
Proof.
  exists d_mgrs, d_sel. eexists. split; [exact d_mgrs_ok|]. split; [reflexivity|]. split; [reflexivity|]. split; [cbn; tauto|]. split; [reflexivity|].
  intros i m [= <-] [= <-]. split; [|cbn; intuition discriminate]. intros (e & He & Hn). cbn in He. destruct He as [<-|[<-|[<-|[<-|[<-|[]]]]]]; discriminate Hn.
Qed.
(** After the manager was loaded again the view lists the new names, but they do not give views. *)
Theorem C82_view_after_reload_refuted : exists ms sel ms' l x, mgrs_ok ms /\ new_selector ms = Ok sel /\ mgrs_ok ms' /\ iv_dir sel ms' "p" = Ok (Some l) /\ In x l /\
  iv_getattr sel ms' "p" x = Ok (OfRealItem "p" x) /\ exists sel', new_selector ms' = Ok sel' /\ iv_getattr sel' ms' "p" x = Ok (View ("p." ++ x)).
Proof.
  exists d_mgrs, d_sel, [("p", d_mgr2)]. eexists. exists "new". split; [exact d_mgrs_ok|]. split; [reflexivity|]. split.
  - split; [repeat constructor; cbn; tauto|]. intros n m H. cbn in H. destruct (String.eqb n "p"); [|discriminate]. injection H as <-. eexists. split; [reflexivity|]. repeat split; [repeat constructor; cbn; tauto|]. cbn. intuition discriminate.
  - split; [reflexivity|]. split; [cbn; tauto|]. split; [reflexivity|]. eexists. split; reflexivity.
Qed.
(** A view of a function or class lists the attributes of the library's own placeholder object, whatever the function or class. *)
Theorem C82_view_of_item : forall sel ms path g c parts t, locate sel ms path = Ok (LIn g c parts) -> coll_get c parts = Ok (FThing t) -> (forall k, t <> TInst k) ->
  iv_dir sel ms path = Ok (Some ("type" :: "item" :: placeholder_names)).
Proof.
  intros sel ms path g c parts t L G Ht. unfold iv_dir, dir_for. rewrite L. assert (N : nested_dir c parts = Ok OfObjectView); [|now rewrite N].
  clear L. revert c G. induction parts as [|x parts IH]; intros c G; cbn [coll_get nested_dir] in *; [discriminate|].
  destruct (coll_getattr c x) as [[c2|t'|]|e]; [now apply IH| | |discriminate]; destruct parts; try discriminate. injection G as ->. destruct t; try reflexivity. now destruct (Ht k).
Qed.
Example C82_view_of_item_example : exists c parts t, locate d_sel d_mgrs "p.sec.f" = Ok (LIn true c parts) /\ coll_get c parts = Ok (FThing t) /\ forall k, t <> TInst k.
Proof. eexists. eexists. eexists. split; [reflexivity|]. split; [reflexivity|]. discriminate. Qed.
(** Below a function or class nothing is known: what is listed are attributes of an attribute of the placeholder object. *)
Theorem C82_view_below_item : forall sel ms path g c parts x rest t, locate sel ms path = Ok (LIn g c (parts ++ x :: rest)) -> coll_get c parts = Ok (FThing t) ->
  dir_for sel ms path = Ok OfObject /\ iv_dir sel ms path = Ok None.
Proof.
  intros sel ms path g c parts x rest t L G. assert (D : dir_for sel ms path = Ok OfObject); [|unfold iv_dir; now rewrite D]. unfold dir_for. rewrite L.
  clear L. revert c G. induction parts as [|y parts IH]; intros c G; cbn [coll_get nested_dir app] in *; [discriminate|].
  destruct (coll_getattr c y) as [[c2|t'|]|e]; [now apply IH| |reflexivity|discriminate]; destruct parts; try discriminate. injection G as ->. now destruct t.
Qed.
Example C82_view_below_item_example : exists c t, locate d_sel d_mgrs "p.sec.f.x" = Ok (LIn true c (["sec"; "f"] ++ ["x"])) /\ coll_get c ["sec"; "f"] = Ok (FThing t).
Proof. eexists. eexists. split; reflexivity. Qed.
(** A view of a manager that does not exist has no names. *)
Theorem C82_view_of_unknown_manager : forall sel ms path n rest, path_parts path = n :: rest -> dget n ms = None -> iv_dir sel ms path = Raise KeyError.
Proof. intros sel ms path n rest P N. unfold iv_dir, dir_for, locate. now rewrite P, N. Qed.

(** * Configs *)
(** A section of configs: every listed name can be accessed; what can be accessed otherwise are the section's own attributes, those
    set on it, and its own config. *)
Theorem C82_config_section : forall s x, (exists r, sec_getattr sec_reserved s x = Ok r) <->
  In x (sec_dir s) \/ In x sec_reserved \/ dmem x (s_attrs s) = true \/ own_config_named s x <> None.
Proof.
  intros s x. rewrite sec_dir_in. unfold sec_getattr. destruct (mem x sec_reserved) eqn:R.
  - apply mem_In in R. split; [tauto|eauto].
  - apply mem_false in R. unfold dmem. destruct (dget x (s_attrs s)) as [v|]; [split; [intros _; right; right; now left|eauto]|].
    destruct (own_config_named s x) as [c|]; [split; [intros _; right; right; right; discriminate|eauto]|].
    destruct (last_named x (s_items s)) as [v|]; [split; [intros _; left; discriminate|eauto]|]. split; [now intros (r & H)|]. intuition congruence.
Qed.
(** The config manager: before load dir() raises AttributeError, afterwards the same holds for it. *)
Theorem C82_config_manager : forall root, (root = None -> cm_dir root = Raise AttributeError) /\
  forall s l x, root = Some s -> cm_dir root = Ok l -> (In x l <-> In x ["load"; "get"; "update"; "basepath"; "pipeline_manager_name"] \/ In x (sec_dir s)) /\ (In x l -> exists r, sec_getattr mgr_reserved s x = Ok r).
Proof.
  intros root. split; [now intros ->|]. intros s l x -> Hl. assert (E : l = cm_exposed ++ sec_dir s) by (cbv [cm_dir] in Hl; congruence). subst l. rewrite in_app_iff. split; [reflexivity|]. intros H. unfold sec_getattr. destruct (mem x mgr_reserved) eqn:R; [eauto|].
  destruct (dget x (s_attrs s)); [eauto|]. destruct (own_config_named s x); [eauto|]. destruct H as [H|H].
  - exfalso. apply mem_false in R. apply R. unfold mgr_reserved. rewrite in_app_iff. left. cbn in *. tauto.
  - apply sec_dir_in in H. destruct (last_named x (s_items s)); [eauto|congruence].
Qed.
(** Which names lead to a method or attribute of the tree itself instead of to an entry. *)
Theorem C82_own_names_of_collections : forall c x,
  (coll_get c [x] = Ok FOther <-> In x own_names_of_collections) /\
  (x <> "collection" -> (reg_get c [x] = Ok FOther <-> In x own_names_of_registrars \/ In x own_names_of_collections)).
Proof.
  intros c x. assert (A : coll_get c [x] = Ok FOther <-> In x own_names_of_collections).
  { cbn [coll_get]. unfold coll_getattr. change coll_reserved with own_names_of_collections. destruct (mem x own_names_of_collections) eqn:M.
    - apply mem_In in M. tauto.
    - apply mem_false in M. destruct (last_entry x (coll_entries c)) as [[n t|c']|]; split; try discriminate; tauto. }
  split; [exact A|]. intros N. unfold reg_get. apply eqb_neq_s in N. rewrite N. change reg_reserved with own_names_of_registrars.
  destruct (mem x own_names_of_registrars) eqn:M; [apply mem_In in M; tauto|]. apply mem_false in M. tauto.
Qed.
Theorem C82_own_names_of_config_tree : forall st x,
  (no_own_entry (cs_root st) ->
   (lookup_at st [x] = Ok ConfigTree_Model.LOther <-> In x own_names_of_the_config_manager \/ In x own_names_of_config_sections)) /\
  (forall q s, q <> [] -> lookup_at st q = Ok (LSec s) -> no_own_entry s ->
   (lookup_at st (q ++ [x]) = Ok ConfigTree_Model.LOther <-> In x own_names_of_config_sections)).
Proof.
  intros st x. split.
  - intros H. rewrite <- in_app_iff. now apply nested_own.
  - intros q s N L H. unfold lookup_at. rewrite (nested_step q _ _ s x N L). now apply nested_own.
Qed.
Example C82_own_names_example :
  coll_get (i_general d_items) ["append"] = Ok FOther /\ no_own_entry (Sec "base" None [] [NSec (Sec "s" None [] [])]) /\
  lookup_at (CMS (Sec "base" None [] [NSec (Sec "s" None [] [])]) empty_config (Dir [] []) []) ["s"] = Ok (LSec (Sec "s" None [] [])) /\
  lookup_at (CMS (Sec "base" None [] [NSec (Sec "s" None [] [])]) empty_config (Dir [] []) []) ["s"; "append"] = Ok ConfigTree_Model.LOther.
Proof. repeat split; try reflexivity; cbn; intros; intuition discriminate. Qed.
(** A config: its keys are listed, and accessing them as attributes gives None (or an attribute of the config), whatever the value. *)
Theorem C82_config_attributes : forall c x, ~ In x conf_reserved -> (In x (conf_dir c) -> conf_getattr c x = Ok (CVal VNone)) /\ (~ In x (conf_dir c) -> conf_getattr c x = Raise AttributeError).
Proof.
  intros c x R. apply mem_false in R. unfold conf_getattr, conf_dir. rewrite R. split; intros H.
  - apply dmem_In in H. now rewrite H.
  - apply dmem_false in H. now rewrite H.
Qed.
Theorem C82_config_values_refuted : exists c x v, dget x (c_vals c) = Some v /\ v <> VNone /\ In x (conf_dir c) /\ conf_getattr c x = Ok (CVal VNone).
Proof. exists d_conf, "a", (VInt 5). repeat split; [discriminate|now left]. Qed.

Print Assumptions C82_manager_needs_loading.
Print Assumptions C82_manager_lists.
Print Assumptions C82_how_often.
Print Assumptions C82_listed_is_found.
Print Assumptions C82_found_is_listed.
Print Assumptions C82_listed_can_be_accessed_refuted.
Print Assumptions C82_listed_is_what_is_accessed_refuted.
Print Assumptions C82_methods_listed_refuted.
Print Assumptions C82_sections_of_manager.
Print Assumptions C82_items_of_sections_listed_refuted.
Print Assumptions C82_selector.
Print Assumptions C82_view_of_section.
Print Assumptions C82_view_of_manager.
Print Assumptions C82_view_of_get_refuted.
Print Assumptions C82_view_after_reload_refuted.
Print Assumptions C82_view_of_item.
Print Assumptions C82_view_below_item.
Print Assumptions C82_view_of_unknown_manager.
Print Assumptions C82_config_section.
Print Assumptions C82_config_manager.
Print Assumptions C82_config_attributes.
Print Assumptions C82_config_values_refuted.
Print Assumptions C82_own_names_of_collections.
Print Assumptions C82_own_names_of_config_tree.
