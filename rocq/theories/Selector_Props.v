(** C54: what the selector contains. *)
From Verif Require Import Selector_Model Selector_Spec Selector_Proofs.
Local Open Scope string_scope.
Local Open Scope list_scope.

(** With loaded managers a path is contained exactly if it stands for the manager, one of its class dicts, a section, an item or
    a method of a section; the loading config is recorded as depending on it exactly for the last two. For a known manager the
    question never raises. *)
Theorem C54_contains : forall ms sel path n below m b, mgrs_ok ms -> new_selector ms = Ok sel -> path_parts path = n :: below -> dget n ms = Some m ->
  (sel_contains sel ms (IStr path) = Ok (true, b) <-> stands_for m below b) /\
  ((forall b', ~ stands_for m below b') -> sel_contains sel ms (IStr path) = Ok (false, false)).
Proof.
  intros ms sel path n below m b H1 H2 H3 H4. split; [now apply contains_spec with n|]. intros H.
  destruct (proj2 (contains_spec ms sel path n below m b H1 H2 H3 H4)) as ([r1 r2] & Er & Ef). rewrite Er. cbn in Ef. destruct r1; [|now rewrite (Ef eq_refl)].
  exfalso. apply (H r2). now apply (contains_spec ms sel path n below m r2 H1 H2 H3 H4).
Qed.
Example C54_contains_example : mgrs_ok ex_mgrs /\ new_selector ex_mgrs = Ok ex_sel /\
  map (fun p => sel_contains ex_sel ex_mgrs (IStr p)) ["p"; "p.kls"; "p.kls.things"; "p.kls.things.one"; "p.sec.sub.K"; "p.f"; "p.sec.g"; "p.sec.f.x"; "q.x"; "p."] =
  [Ok (true, false); Ok (true, false); Ok (true, false); Ok (true, true); Ok (true, true); Ok (true, true); Ok (false, false); Ok (false, false); Ok (false, false); Ok (false, false)].
Proof. split; [exact ex_mgrs_ok|]. split; reflexivity. Qed.

(** An unknown manager raises KeyError instead of giving False. *)
Theorem C54_unknown_manager : forall sel ms path n below, path_parts path = n :: below -> dget n ms = None -> sel_contains sel ms (IStr path) = Raise KeyError.
Proof. intros sel ms path n below Hp Hn. cbn. unfold locate. now rewrite Hp, Hn. Qed.

(** A manager made after the selector contains itself; anything below it raises KeyError. *)
Theorem C54_later_manager : forall sel ms path n below m, path_parts path = n :: below -> dget n ms = Some m -> dget n sel = None ->
  sel_contains sel ms (IStr path) = match below with [] => Ok (true, false) | _ => Raise KeyError end.
Proof.
  intros sel ms path n below m Hp Hm Hn. cbn. unfold locate. rewrite Hp, Hm, Hn. destruct below as [|x rest]; [reflexivity|]. destruct (mem x (g_names m)); [destruct rest|]; reflexivity.
Qed.

(** What a selector contains below its managers never changes, whatever is loaded, reloaded or created later. *)
Theorem C54_reloads_are_not_seen : forall sel ms ms' path n below m m', path_parts path = n :: below -> dget n ms = Some m -> dget n ms' = Some m' ->
  g_names m = g_names m' -> sel_contains sel ms (IStr path) = sel_contains sel ms' (IStr path).
Proof.
  intros sel ms ms' path n below m m' Hp H1 H2 E. cbn. unfold locate. rewrite Hp, H1, H2, E. reflexivity.
Qed.
Theorem C54_follows_reloads_refuted : exists ms ms' sel sel', mgrs_ok ms /\ mgrs_ok ms' /\ dkeys ms = dkeys ms' /\ new_selector ms = Ok sel /\ new_selector ms' = Ok sel' /\
  sel_contains sel ms' (IStr "p.kls") = Ok (true, false) /\ sel_contains sel ms' (IStr "p.new") = Ok (false, false) /\ sel_contains sel' ms' (IStr "p.new") = Ok (true, true).
Proof.
  exists ex_mgrs, [("p", SMgr ["kls"] (Some (Items (i_specific ex_items) (Coll "p" [EItem "new" TOther])))); ("q", SMgr [] (Some (Items [] (Coll "q" []))))], ex_sel. eexists.
  split; [exact ex_mgrs_ok|]. split; [|repeat split; reflexivity]. split; [repeat constructor; cbn; intuition discriminate|].
  intros n m. cbn [dget]. destruct (String.eqb n "p"); [|destruct (String.eqb n "q"); [|discriminate]].
  - intros [= <-]. eexists. repeat split; [repeat constructor; cbn; intuition discriminate|]. cbn. intuition discriminate.
  - intros [= <-]. eexists. repeat split; [constructor|]. cbn. intuition discriminate.
Qed.

(** A selector cannot be made while any active manager has not been loaded; otherwise it can. *)
Theorem C54_needs_all_managers_loaded : forall ms,
  (forall n m, In (n, m) ms -> g_items m <> None) /\ (exists sel, new_selector ms = Ok sel) \/
  (exists n m, In (n, m) ms /\ g_items m = None) /\ new_selector ms = Raise AttributeError.
Proof.
  intros ms. unfold new_selector. generalize (@nil (string * dict coll)). induction ms as [|[n m] ms IH]; intros out; cbn [load_structure].
  - left. split; [intros n m []|eauto].
  - destruct (g_items m) as [i|] eqn:E.
    + destruct (IH (dset n (manager_dict i) out)) as [[H1 H2]|[(n2 & m2 & H1 & H2) H3]]; [left|right].
      * split; [|exact H2]. intros n2 m2 [Hin|Hin]; [injection Hin as <- <-; congruence|now apply (H1 n2)].
      * split; [|exact H3]. exists n2, m2. split; [now right|exact H2].
    + right. split; [|reflexivity]. exists n, m. split; [now left|exact E].
Qed.

(** Entries with a name that collections use themselves cannot be seen, and methods of collections are taken for items. *)
Theorem C54_methods_are_items_refuted : exists m b, dget "q" ex_mgrs = Some m /\ g_items m = Some (Items [] (Coll "q" [])) /\
  sel_contains ex_sel ex_mgrs (IStr "q.append") = Ok (true, b) /\ b = true /\ get_type ex_sel ex_mgrs "p.sec.sub.get" = Ok TyOther.
Proof. do 2 eexists. repeat split; reflexivity. Qed.

(** Objects that are not strings: SectionPath objects, although accepted, raise; all others are not contained. *)
Theorem C54_not_a_string : forall sel ms sp, sel_contains sel ms IOther = Ok (false, false) /\ sel_contains sel ms (ISp sp) = Raise AttributeError.
Proof. intros. split; reflexivity. Qed.

(** If a class dict is called [_general], it takes the place of the pipeline dict in the selector: what the pipeline dict holds is not found
    any more, and what the class dict holds is found without its name. *)
Theorem C54_class_dict_called_general : forall ms sel path n x rest m i before c, dwf ms -> new_selector ms = Ok sel ->
  path_parts path = n :: x :: rest -> dget n ms = Some m -> g_items m = Some i -> i_specific i = before ++ [Reg "_general" c] -> ~ In x (g_names m) ->
  (forall y t, leads c (x :: rest) (EItem y t) -> sel_contains sel ms (IStr path) = Ok (true, true)) /\
  ((forall e, ~ leads c (x :: rest) e) -> (forall y, ~ own_name c (x :: rest) y) -> sel_contains sel ms (IStr path) = Ok (false, false)).
Proof.
  intros ms sel path n x rest m i before c W N P G I L X.
  assert (E : locate sel ms path = Ok (LIn true c (x :: rest))).
  { unfold locate. rewrite P, G, (proj2 (mem_false x (g_names m)) X), (new_selector_get ms sel n m W N G), I. cbn [option_map].
    unfold manager_dict. rewrite fold_regs, L, rev_app_distr. cbn [rev app find reg_name reg_coll]. rewrite eqb_refl_s.
    rewrite parts_join; [reflexivity|discriminate|]. exact (parts_of_tail path n (x :: rest) P). }
  unfold sel_contains. rewrite E. split.
  - intros y t H. now rewrite (proj2 (coll_get_thing c (x :: rest) t) (ex_intro _ y H)).
  - intros H1 H2. destruct (coll_get c (x :: rest)) as [[c'|t|]|e] eqn:C.
    + exfalso. apply coll_get_coll in C; [|discriminate]. exact (H1 _ C).
    + exfalso. apply coll_get_thing in C. destruct C as [y C]. exact (H1 _ C).
    + exfalso. apply coll_get_other in C. exact (H2 _ C).
    + now rewrite (coll_get_raises _ _ _ C).
Qed.
Example C54_ex_general : let ms := [("p", SMgr ["_general"] (Some (Items [Reg "_general" (Coll "_general" [EItem "a" TOther])] (Coll "p" [EItem "b" TOther]))))] in
  exists sel, new_selector ms = Ok sel /\ sel_contains sel ms (IStr "p.a") = Ok (true, true) /\ sel_contains sel ms (IStr "p.b") = Ok (false, false).
Proof. eexists. split; [reflexivity|]. split; vm_compute; reflexivity. Qed.


(** The type reported for a path. *)
Theorem C54_types : forall ms sel path n below m g c parts, mgrs_ok ms -> new_selector ms = Ok sel -> path_parts path = n :: below -> dget n ms = Some m ->
  in_collection m g c parts below ->
  (forall c', leads c parts (EColl c') -> get_type sel ms path = Ok TyCollection) /\
  (forall x t, leads c parts (EItem x t) -> get_type sel ms path =
     match t with TFunc _ => Ok TyFunction | TClass k => Ok (TyClass k) | TInst k => Ok (TyClass k) | TOther => Ok TyOther | TBroken e => Raise e end) /\
  ((forall b, ~ stands_for m below b) -> (forall y, ~ own_name c parts y) -> get_type sel ms path = Raise AttributeError).
Proof.
  intros ms sel path n below m g c parts H1 H2 H3 H4 Hc. pose proof (locate_spec ms sel path n below m H1 H2 H3 H4) as L. unfold get_type.
  destruct (locate sel ms path) as [[c0|g0 c0 parts0]|e]; [| |contradiction].
  - exfalso. destruct L as [->|(x & -> & Hx)]; [inversion Hc|]. inversion Hc; subst; congruence.
  - destruct L as (L1 & Hne & L2). destruct (L2 _ _ _ Hc) as (-> & -> & ->). split; [|split].
    + intros c' Hl. now rewrite (proj2 (coll_get_coll c0 parts0 c' Hne) Hl).
    + intros x t Hl. rewrite (proj2 (coll_get_thing c0 parts0 t) (ex_intro _ x Hl)). now destruct t.
    + intros Hs Ho. destruct (coll_get c0 parts0) as [[c'|t|]|e] eqn:E.
      * exfalso. apply (Hs false). apply (st_section m g0 c0 parts0 below c'); [exact L1|]. now apply coll_get_coll.
      * exfalso. apply coll_get_thing in E. destruct E as [x E]. apply (Hs true). now apply (st_item m g0 c0 parts0 below x t).
      * exfalso. apply coll_get_other in E. now apply (Ho _ E).
      * now rewrite (coll_get_raises _ _ _ E).
Qed.

(** [s.n.x...y] is a view of the path "n.x...y" exactly if this is contained, and otherwise never a view. *)
Theorem C54_attribute_access : forall ms sel n m xs, mgrs_ok ms -> new_selector ms = Ok sel -> dget n ms = Some m -> has_char dot n = false ->
  mem n selector_names = false -> Forall accessible xs -> xs <> [] ->
  (selector_chain sel ms (n :: xs) = Ok (Some (View (join sdot (n :: xs)))) <-> exists b, stands_for m xs b) /\
  (forall q, selector_chain sel ms (n :: xs) = Ok (Some (View q)) -> q = join sdot (n :: xs)).
Proof.
  intros ms sel n m xs H1 H2 H3 Hd Ha Hx Hne. cbn [selector_chain]. unfold selector_getattr. change selector_attrs with selector_names. rewrite Ha.
  assert (P : path_parts n = [n]) by (unfold path_parts, mk_sp; cbn; now apply split_no_sep).
  destruct (iv_chain_spec ms sel m n H1 H2 H3 xs n [] P Hx Hne) as (A & B & _). auto.
Qed.

(** A name in first place is never checked; the error for an unknown manager comes with the second one. *)
Theorem C54_first_name_is_not_checked : forall sel ms n x rest, dget n ms = None -> has_char dot n = false -> mem n selector_names = false -> accessible x ->
  selector_chain sel ms [n] = Ok (Some (View n)) /\ selector_chain sel ms (n :: x :: rest) = Raise KeyError.
Proof.
  intros sel ms n x rest Hn Hd Ha [Hx Hi]. cbn [selector_chain]. unfold selector_getattr. change selector_attrs with selector_names. rewrite Ha. split; [reflexivity|]. cbn [iv_chain]. unfold iv_getattr. change iv_attrs with view_names. rewrite Hi.
  assert (P : path_parts n = [n]) by (unfold path_parts, mk_sp; cbn; now apply split_no_sep).
  rewrite (C54_unknown_manager sel ms _ n [x] (parts_snoc n x [n] P Hx) Hn). reflexivity.
Qed.

(** Views made from a path. *)
Theorem C54_view_of_path : forall ms path n below m, mgrs_ok ms -> path_parts path = n :: below -> dget n ms = Some m -> mem n selector_names = false -> Forall accessible below ->
  (below = [] -> iv_from_path ms path = Raise ValueError) /\
  (below <> [] -> (iv_from_path ms path = Ok (Some (View path)) <-> exists b, stands_for m below b)).
Proof.
  intros ms path n below m H1 Hp Hm Ha Hb.
  assert (N : exists sel, new_selector ms = Ok sel).
  { apply load_structure_ok. intros n0 m0 Hin. apply In_dget in Hin; [|apply H1]. destruct (proj2 H1 _ _ Hin) as (i & Hi & _). congruence. }
  destruct N as [sel Hs]. unfold iv_from_path. rewrite Hs, Hp. split.
  - intros ->. reflexivity.
  - intros Hne. destruct below as [|x below]; [congruence|]. change (Nat.ltb (length (n :: x :: below)) 2) with false. cbv iota. rewrite (parts_path _ _ Hp) at 1.
    assert (Hd : has_char dot n = false). { pose proof (split_parts_no_sep dot path) as F. unfold path_parts, mk_sp in Hp. cbn in Hp. unfold section_path_str_to_section_strs in Hp. rewrite Hp in F. now inversion F. }
    apply (C54_attribute_access ms sel n m (x :: below) H1 Hs Hm Hd Ha Hb Hne).
Qed.

(** Views are equal if their paths are, and then have the same hash. *)
Theorem C54_equality : forall p q r : string, iv_eq p (Some p) = true /\ iv_eq p (Some q) = iv_eq q (Some p) /\
  (iv_eq p (Some q) = true -> iv_eq q (Some r) = true -> iv_eq p (Some r) = true) /\
  (forall (H : Type) (hash : string -> H), iv_eq p (Some q) = true -> iv_hash hash p = iv_hash hash q) /\ iv_eq p None = false.
Proof.
  intros p q r. unfold iv_eq, iv_hash. rewrite (String.eqb_sym q p). split; [apply String.eqb_refl|]. split; [reflexivity|]. split; [|split; [|reflexivity]].
  - intros E1 E2. apply String.eqb_eq in E1. apply String.eqb_eq in E2. subst. apply String.eqb_refl.
  - intros H hash E. apply String.eqb_eq in E. now subst.
Qed.
Example C54_access_example : selector_chain ex_sel ex_mgrs ["p"; "sec"; "sub"; "K"] = Ok (Some (View "p.sec.sub.K")) /\
  selector_chain ex_sel ex_mgrs ["p"; "sec"; "typo"] = Ok (Some (OfRealItem "p.sec" "typo")) /\ accessible "sec" /\ mem "p" selector_names = false /\
  iv_from_path ex_mgrs "p.kls.things.one" = Ok (Some (View "p.kls.things.one")).
Proof. repeat split; reflexivity. Qed.

(** Sections and items called like an attribute of ItemView are contained but cannot be reached by attribute access. *)
Theorem C54_all_contained_reachable_refuted : exists ms sel, mgrs_ok ms /\ new_selector ms = Ok sel /\
  sel_contains sel ms (IStr "p.type.f") = Ok (true, true) /\ selector_chain sel ms ["p"; "type"; "f"] = Ok None /\ iv_from_path ms "p.type.f" = Ok None.
Proof.
  exists [("p", SMgr [] (Some (Items [] (Coll "p" [EColl (Coll "type" [EItem "f" TOther])]))))]. eexists. split; [|repeat split; reflexivity].
  split; [repeat constructor; cbn; intuition discriminate|]. intros n m. cbn [dget]. destruct (String.eqb n "p"); [|discriminate].
  intros [= <-]. eexists. repeat split; [constructor|]. cbn. intuition discriminate.
Qed.

(** The names a selector and a view define themselves, and no others, are not looked up in the project. *)
Theorem C54_own_names : (forall x, selector_getattr x = OwnAttr <-> In x selector_names) /\
  forall sel ms path x, iv_getattr sel ms path x = Ok OwnAttr <-> In x view_names.
Proof.
  split.
  - intros x. unfold selector_getattr. destruct (mem x selector_attrs) eqn:E; (split; [|intros H; apply mem_In in H; change selector_names with selector_attrs in H; congruence]); [|discriminate].
    intros _. now apply mem_In.
  - intros sel ms path x. unfold iv_getattr. destruct (mem x iv_attrs) eqn:E; (split; [|intros H; apply mem_In in H; change view_names with iv_attrs in H; congruence]); [intros _; now apply mem_In|].
    destruct (sel_contains _ _ _) as [[[] ?]|]; discriminate.
Qed.

Print Assumptions C54_own_names.
Print Assumptions C54_contains.
Print Assumptions C54_unknown_manager.
Print Assumptions C54_later_manager.
Print Assumptions C54_reloads_are_not_seen.
Print Assumptions C54_follows_reloads_refuted.
Print Assumptions C54_needs_all_managers_loaded.
Print Assumptions C54_methods_are_items_refuted.
Print Assumptions C54_not_a_string.
Print Assumptions C54_types.
Print Assumptions C54_attribute_access.
Print Assumptions C54_first_name_is_not_checked.
Print Assumptions C54_view_of_path.
Print Assumptions C54_equality.
Print Assumptions C54_all_contained_reachable_refuted.
Print Assumptions C54_class_dict_called_general.
