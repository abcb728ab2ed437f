(** C26: attribute access. *)
From Verif Require Import Selector_Proofs Runner_Model GetAttr_Model GetAttr_Spec GetAttr_Proofs Runner_Example.
Local Open Scope string_scope.
Local Open Scope list_scope.

(** From a clean state, and if the path leads through sections to something else, [pm.a.b.item] gives exactly what
    [pm.get('a.b.item')] gives, and leaves a clean state. *)
Theorem C26_clean_access_resolves : forall its u secs x s prefix first,
  g_full s = prefix ->
  Forall plain_name (secs ++ [x]) ->
  (forall before y after, secs = before ++ y :: after -> exists b c, get_func_or_collection its (prefix ++ join "." (before ++ [y]))%string = Ok (b, FColl c)) ->
  (exists b f, get_func_or_collection its (prefix ++ join "." (secs ++ [x]))%string = Ok (b, f) /\ forall c, f <> FColl c) ->
  let path := (prefix ++ join "." (secs ++ [x]))%string in
  chain its u first (secs ++ [x]) s =
    (GS "" (fst (runner_get its u path (g_rs s))),
     Some match snd (runner_get its u path (g_rs s)) with Ok g => Ok (AGot g) | Raise e => Raise e end).
Proof.
  intros its u secs. induction secs as [|y secs IH]; intros x s prefix first Hs Hpl Hsec Hitem path; cbn [app] in *.
  - cbn [chain]. inversion Hpl; subst. rewrite (do_access_plain its u _ x) by (auto; destruct first; auto).
    unfold runner_getattr. destruct Hitem as (b & f & Hf & Hc). cbn [join] in *. fold path in Hf |- *. rewrite Hf.
    destruct f as [c| |]; [exfalso; eapply Hc; reflexivity| |]; destruct (runner_get its u path (g_rs s)); reflexivity.
  - inversion Hpl as [|? ? Hy Hpl']; subst.
    assert (Hne : secs ++ [x] <> []) by (destruct secs; discriminate).
    rewrite chain_cons by exact Hne. rewrite (do_access_plain its u _ y) by (auto; destruct first; auto).
    destruct (Hsec [] y secs eq_refl) as (b & c & Hc). cbn [app join] in Hc. unfold runner_getattr. rewrite Hc.
    assert (J : forall q ql, (g_full s ++ join "." (y :: q :: ql))%string = (((g_full s ++ y) ++ ".") ++ join "." (q :: ql))%string).
    { intros. cbn [join]. rewrite !string_app_assoc. reflexivity. }
    assert (JJ : forall l0, l0 <> [] -> (g_full s ++ join "." (y :: l0))%string = (((g_full s ++ y) ++ ".") ++ join "." l0)%string).
    { intros [|q ql] Hn; [congruence|]. apply J. }
    subst path. rewrite JJ by exact Hne.
    rewrite (IH x (GS ((g_full s ++ y) ++ ".") (g_rs s)) ((g_full s ++ y) ++ ".")%string false eq_refl Hpl').
    + reflexivity.
    + intros before w after E. destruct (Hsec (y :: before) w after) as (b' & c' & H'); [now rewrite E|]. cbn [app] in H'.
      rewrite JJ in H' by (destruct before; discriminate). eauto.
    + destruct Hitem as (b' & f & Hf & Hn). rewrite JJ in Hf by exact Hne. eauto.
Qed.

(** One access, exactly: the name is appended to whatever was left over, and that is what is looked up. A section leaves
    its path and a dot; a failed lookup leaves the whole string, except for KeyError; anything else leaves a clean state. *)
Theorem C26_access_is_relative_to_the_leftover : forall its u a x s, (a = OnManager x \/ a = OnRunner x) -> plain_name x ->
  let full := (g_full s ++ x)%string in
  let '(s', o) := do_access its u a s in
  match get_func_or_collection its full with
  | Raise e => o = Raise e /\ g_rs s' = g_rs s /\ (e <> KeyError -> g_full s' = full) /\ (e = KeyError -> g_full s' = "")
  | Ok (_, FColl _) => o = Ok ASelf /\ g_rs s' = g_rs s /\ g_full s' = (full ++ ".")%string
  | Ok _ => g_full s' = "" /\ g_rs s' = fst (runner_get its u full (g_rs s)) /\
            o = match snd (runner_get its u full (g_rs s)) with Ok g => Ok (AGot g) | Raise e => Raise e end
  end.
Proof.
  intros its u a x s Ha Hx full. rewrite (do_access_plain its u a x s Ha Hx). unfold runner_getattr. fold full.
  destruct (get_func_or_collection its full) as [[b [c|t|]]|e].
  - auto.
  - destruct (runner_get its u full (g_rs s)). auto.
  - destruct (runner_get its u full (g_rs s)). auto.
  - destruct e; (split; [reflexivity|]; split; [reflexivity|]; split; intro X; first [reflexivity | discriminate X | now elim X]).
Qed.

(** After a failed lookup of a name that is no beginning of a real path (the lookup failing as lookups of missing names do),
    no access ever succeeds again, whatever is accessed. *)
Theorem C26_dead_forever : forall its u e l s, dead its e (g_full s) ->
  let '(s', os) := accesses its u l s in
  g_rs s' = g_rs s /\ dead its e (g_full s') /\ length os = length l /\
  Forall (fun o => o = Ok ADefined \/ o = Raise e) os.
Proof.
  intros its u e l. induction l as [|a l IH]; intros s H; cbn [accesses]; [auto|].
  assert (A : let '(s1, o) := do_access its u a s in g_rs s1 = g_rs s /\ dead its e (g_full s1) /\ (o = Ok ADefined \/ o = Raise e)).
  { assert (D : forall x, do_access its u a s = runner_getattr its u x s -> let '(s1, o) := do_access its u a s in g_rs s1 = g_rs s /\ dead its e (g_full s1) /\ (o = Ok ADefined \/ o = Raise e)).
    { intros x E. rewrite E. unfold runner_getattr. destruct H as (E2 & E1). rewrite E1.
      assert (X : dead its e (g_full s ++ x)) by (split; [exact E2|]; intro t; rewrite string_app_assoc; apply E1).
      destruct e; try congruence; (split; [reflexivity|]; split; [exact X|now right]). }
    destruct a as [x|x]; cbn [do_access] in *.
    - destruct (mem x pm_attrs); [auto|]. destruct (mem x runner_attrs); [auto|]. now apply (D x).
    - destruct (mem x runner_attrs); [auto|]. now apply (D x). }
  destruct (do_access its u a s) as [s1 o]. destruct A as (A1 & A2 & A3). specialize (IH s1 A2).
  destruct (accesses its u l s1) as [s2 os]. destruct IH as (B1 & B2 & B3 & B4).
  split; [congruence|]. split; [exact B2|]. split; [cbn; congruence|]. constructor; assumption.
Qed.

(** A name that is no beginning of any top-level name is such a case. *)
Theorem C26_missing_name_is_dead : forall its x, has_char dot x = false ->
  (forall y, In y (top_names its) -> startswith y x = false) -> dead its AttributeError x.
Proof.
  intros its x Hd Hn. split; [discriminate|]. intro t.
  destruct (split_head x t Hd) as (y & rest & E).
  assert (N : forall z, In z (top_names its) -> String.eqb (x ++ y) z = false).
  { intros z Hz. apply String.eqb_neq. intros <-. specialize (Hn _ Hz). assert (X : startswith (x ++ y) x = true) by (apply startswith_iff; eauto). congruence. }
  assert (NM : forall l, incl l (top_names its) -> mem (x ++ y)%string l = false).
  { intros l Hl. unfold mem. apply not_true_iff_false. intro Hm. apply existsb_exists in Hm as (z & Hz & Ez). rewrite N in Ez by auto. discriminate. }
  unfold get_func_or_collection. replace (path_parts (x ++ t)) with ((x ++ y)%string :: rest) by (symmetry; exact E).
  assert (F : find_registrar (x ++ y) (i_specific its) = None).
  { unfold find_registrar. destruct (find _ _) as [r|] eqn:Ef; [|reflexivity]. apply find_some in Ef as [Ef1 Ef2].
    rewrite String.eqb_sym in Ef2. rewrite N in Ef2; [discriminate|]. unfold top_names. right. apply in_app_iff. right. apply in_app_iff. right. apply in_app_iff. left. now apply in_map. }
  rewrite F. unfold general_get, reg_get. rewrite (N "collection") by (now left).
  rewrite (NM reg_reserved) by (intros z Hz; right; apply in_app_iff; now left).
  cbn [coll_get]. unfold coll_getattr. rewrite (NM coll_reserved) by (intros z Hz; right; apply in_app_iff; right; apply in_app_iff; now left).
  destruct (last_entry (x ++ y) (coll_entries (i_general its))) as [e|] eqn:El; [|reflexivity]. exfalso.
  assert (X : In e (coll_entries (i_general its)) /\ entry_name e = (x ++ y)%string).
  { clear -El. revert El. induction (coll_entries (i_general its)) as [|e' l IH]; cbn [last_entry]; [discriminate|].
    destruct (last_entry (x ++ y) l); [intros [= ->]; destruct (IH eq_refl); split; [now right|assumption]|].
    destruct (String.eqb (x ++ y) (entry_name e')) eqn:Ee; [|discriminate]. intros [= <-]. apply String.eqb_eq in Ee. split; [now left|congruence]. }
  destruct X as [X1 X2]. assert (Z : String.eqb (x ++ y) (entry_name e) = false).
  { apply N. right. apply in_app_iff. right. apply in_app_iff. right. apply in_app_iff. right. now apply in_map. }
  rewrite X2, String.eqb_refl in Z. discriminate.
Qed.

(** So one failed lookup from a clean state breaks attribute access for good. *)
Theorem C26_one_failed_lookup_breaks_all_later_ones : forall its u x s l,
  g_full s = "" -> plain_name x -> has_char dot x = false -> (forall y, In y (top_names its) -> startswith y x = false) ->
  let '(s1, o) := do_access its u (OnManager x) s in
  o = Raise AttributeError /\ Forall (fun o => o = Ok ADefined \/ o = Raise AttributeError) (snd (accesses its u l s1)).
Proof.
  intros its u x s l Hs Hx Hd Hn. assert (D := C26_missing_name_is_dead its x Hd Hn).
  assert (A := C26_access_is_relative_to_the_leftover its u (OnManager x) x s (or_introl eq_refl) Hx). cbv zeta in A. rewrite Hs in A. cbn [append] in A.
  destruct (do_access its u (OnManager x) s) as [s1 o].
  assert (E1 : get_func_or_collection its x = Raise AttributeError) by (rewrite <- (proj2 D ""); now rewrite app_nil_r_s).
  rewrite E1 in A. destruct A as (-> & _ & A & _). split; [reflexivity|].
  assert (Y := C26_dead_forever its u AttributeError l s1). rewrite (A (proj1 D)) in Y. specialize (Y D). destruct (accesses its u l s1). apply Y.
Qed.

Definition ex_gs : gs := GS "" ex_rs.
(** The objects' own names give their own attributes, whatever items there are, and change nothing; other names are looked up. *)
Theorem C26_own_names : forall its u a x s, (a = OnManager x \/ a = OnRunner x) ->
  (snd (do_access its u a s) = Ok ADefined <-> In x own_names_of_runners \/ a = OnManager x /\ In x own_names_of_managers) /\
  (snd (do_access its u a s) = Ok ADefined -> fst (do_access its u a s) = s).
Proof.
  intros its u a x s Ha. assert (N : snd (runner_getattr its u x s) <> Ok ADefined).
  { unfold runner_getattr. destruct (get_func_or_collection its (g_full s ++ x)) as [[b [t|c|]]|[]]; try discriminate; cbn zeta;
      destruct (runner_get its u (g_full s ++ x)%string (g_rs s)) as [r [g|e]]; discriminate. }
  destruct Ha as [-> | ->]; cbn [do_access]; change pm_attrs with own_names_of_managers; change runner_attrs with own_names_of_runners.
  - destruct (mem x own_names_of_managers) eqn:M; [apply mem_In in M; cbn [fst snd]; tauto|].
    destruct (mem x own_names_of_runners) eqn:R; [apply mem_In in R; cbn [fst snd]; tauto|].
    apply mem_false in M. apply mem_false in R. split; [|contradiction]. split; [contradiction|]. intros [H|(_ & H)]; contradiction.
  - destruct (mem x own_names_of_runners) eqn:R; [apply mem_In in R; cbn [fst snd]; tauto|].
    apply mem_false in R. split; [|contradiction]. split; [contradiction|]. intros [H|(H & _)]; [contradiction|discriminate].
Qed.

Example C26_clean_example : exists o, snd (chain ex_items ex_user true ["a"; "b"; "f"] ex_gs) = Some (Ok (AGot (GObj o))).
Proof. eexists. vm_compute. reflexivity. Qed.
Example C26_hypotheses_example : Forall plain_name ["a"; "b"; "f"] /\ plain_name "nope" /\
  (forall y, In y (top_names ex_items) -> startswith y "nope" = false).
Proof.
  split; [repeat (apply Forall_cons; [split; cbn; intuition discriminate|]); apply Forall_nil|].
  split; [split; cbn; intuition discriminate|]. intros y Hy. apply not_true_iff_false. intro E. 
  assert (X : existsb (fun y => startswith y "nope") (top_names ex_items) = true) by (apply existsb_exists; eauto). vm_compute in X. discriminate.
Qed.

(** [pm.nope] (failing), then [pm.a.b.f]: an existing item is no longer found. *)
Theorem C26_failed_lookup_has_no_effect_refuted : exists its u s names,
  g_full s = "" /\ (exists g, snd (chain its u true names s) = Some (Ok (AGot g))) /\
  let s1 := fst (chain its u true ["nope"] s) in snd (chain its u true names s1) = Some (Raise AttributeError).
Proof.
  exists ex_items, ex_user, ex_gs, ["a"; "b"; "f"]. split; [reflexivity|]. split; [eexists|]; vm_compute; reflexivity.
Qed.

(** Merely looking at a section ([pm.a]) breaks the next access as well. *)
Theorem C26_looking_at_a_section_has_no_effect_refuted : exists its u s names,
  g_full s = "" /\ (exists g, snd (chain its u true names s) = Some (Ok (AGot g))) /\
  let s1 := fst (chain its u true ["a"] s) in snd (chain its u true names s1) = Some (Raise AttributeError).
Proof.
  exists ex_items, ex_user, ex_gs, ["a"; "b"; "f"]. split; [reflexivity|]. split; [eexists|]; vm_compute; reflexivity.
Qed.

(** The leftover is even used: after [pm.a], [pm.g] finds a.g. *)
Example C26_leftover_example : exists o, snd (chain ex_items ex_user true ["g"] (fst (chain ex_items ex_user true ["a"] ex_gs))) = Some (Ok (AGot (GObj o))).
Proof. eexists. vm_compute. reflexivity. Qed.

Print Assumptions C26_own_names.
Print Assumptions C26_clean_access_resolves.
Print Assumptions C26_access_is_relative_to_the_leftover.
Print Assumptions C26_dead_forever.
Print Assumptions C26_missing_name_is_dead.
Print Assumptions C26_one_failed_lookup_breaks_all_later_ones.
Print Assumptions C26_failed_lookup_has_no_effect_refuted.
Print Assumptions C26_looking_at_a_section_has_no_effect_refuted.
