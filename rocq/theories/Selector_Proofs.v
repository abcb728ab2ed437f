From Verif Require Import Selector_Model Selector_Spec.
Local Open Scope string_scope.
Local Open Scope list_scope.

Lemma mem_In x l : mem x l = true <-> In x l.
Proof.
  unfold mem. rewrite existsb_exists. split.
  - intros (y & Hy & E). apply String.eqb_eq in E. now subst.
  - intros H. exists x. split; [exact H|]. apply eqb_refl_s.
Qed.
Lemma mem_false x l : mem x l = false <-> ~ In x l.
Proof. rewrite <- mem_In. destruct (mem x l); split; congruence. Qed.

Lemma last_entry_iff x l e : last_entry x l = Some e <-> exists l1 l2, l = l1 ++ e :: l2 /\ entry_name e = x /\ forall e', In e' l2 -> entry_name e' <> x.
Proof.
  revert e. induction l as [|a l IH]; intros e; cbn [last_entry].
  - split; [discriminate|]. intros ([|? ?] & ? & H & _); discriminate.
  - destruct (last_entry x l) as [e'|] eqn:E.
    + split.
      * intros [= <-]. destruct (proj1 (IH e') eq_refl) as (l1 & l2 & -> & H2 & H3). now exists (a :: l1), l2.
      * intros ([|b l1] & l2 & H & H2 & H3); cbn in H; injection H as -> ->.
        -- destruct (proj1 (IH e') eq_refl) as (m1 & m2 & -> & K2 & _). exfalso. apply (H3 e'); [apply in_or_app; right; now left|exact K2].
        -- apply IH. now exists l1, l2.
    + destruct (String.eqb x (entry_name a)) eqn:Ex.
      * apply String.eqb_eq in Ex. split.
        -- intros [= <-]. exists [], l. split; [reflexivity|]. split; [now symmetry|]. intros e' He' Hx.
           destruct (in_split e' l He') as (m1 & m2 & ->). clear - E Hx. induction m1 as [|b m1 IH]; cbn in E.
           ++ destruct (last_entry x m2); [discriminate|]. rewrite (proj2 (String.eqb_eq x (entry_name e'))) in E by now symmetry. discriminate.
           ++ destruct (last_entry x (m1 ++ e' :: m2)); [discriminate|]. now apply IH.
        -- intros ([|b l1] & l2 & H & H2 & H3); cbn in H; injection H as -> ->; [reflexivity|]. exfalso.
           assert (Hd : @None entry = Some e) by (apply IH; now exists l1, l2). discriminate.
      * apply String.eqb_neq in Ex. split; [discriminate|]. intros ([|b l1] & l2 & H & H2 & H3); cbn in H; injection H as -> ->; [congruence|].
        apply IH. now exists l1, l2.
Qed.

(** coll_get *)
Lemma coll_get_coll c parts c' : parts <> [] -> coll_get c parts = Ok (FColl c') <-> leads c parts (EColl c').
Proof.
  revert c. induction parts as [|x rest IH]; intros c Hne; [congruence|]. cbn [coll_get]. unfold coll_getattr. split.
  - destruct (mem x coll_reserved) eqn:Em; [destruct rest; discriminate|]. apply mem_false in Em.
    destruct (last_entry x (coll_entries c)) as [[n t|c2]|] eqn:El; [destruct rest; discriminate| |discriminate]. apply last_entry_iff in El.
    destruct rest as [|y rest].
    + cbn. intros [= <-]. now apply leads_here.
    + intros H. apply leads_below with c2; [exact Em|exact El|]. apply IH; [discriminate|exact H].
  - intros H. inversion H as [? ? ? Hr He|? ? c2 ? ? Hr He Hl]; subst.
    + rewrite (proj2 (mem_false x _) Hr). rewrite (proj2 (last_entry_iff _ _ _) He). reflexivity.
    + rewrite (proj2 (mem_false x _) Hr). rewrite (proj2 (last_entry_iff _ _ _) He). apply IH; [intros ->; inversion Hl|exact Hl].
Qed.
Lemma coll_get_thing c parts t : coll_get c parts = Ok (FThing t) <-> exists n, leads c parts (EItem n t).
Proof.
  revert c. induction parts as [|x rest IH]; intros c; [split; [discriminate|intros [n H]; inversion H]|]. cbn [coll_get]. unfold coll_getattr. split.
  - destruct (mem x coll_reserved) eqn:Em; [destruct rest; discriminate|]. apply mem_false in Em.
    destruct (last_entry x (coll_entries c)) as [[n t'|c2]|] eqn:El; [| |discriminate]; apply last_entry_iff in El.
    + destruct rest; [|discriminate]. intros [= <-]. exists n. now apply leads_here.
    + intros H. apply IH in H. destruct H as [n H]. exists n. now apply leads_below with c2.
  - intros [n H]. inversion H as [? ? ? Hr He|? ? c2 ? ? Hr He Hl]; subst.
    + rewrite (proj2 (mem_false x _) Hr). rewrite (proj2 (last_entry_iff _ _ _) He). reflexivity.
    + rewrite (proj2 (mem_false x _) Hr). rewrite (proj2 (last_entry_iff _ _ _) He). apply IH. eauto.
Qed.
Lemma own_last c parts y : own_name c parts y -> last parts "" = y.
Proof. induction 1 as [|c x c' rest y Hr He Ho IH]; [reflexivity|]. destruct rest; [inversion Ho|exact IH]. Qed.
Lemma coll_get_other c parts : coll_get c parts = Ok FOther <-> own_name c parts (last parts "").
Proof.
  revert c. induction parts as [|x rest IH]; intros c; [split; [discriminate|intros H; inversion H]|]. cbn [coll_get]. unfold coll_getattr. split.
  - destruct (mem x coll_reserved) eqn:Em.
    + destruct rest; [|discriminate]. intros _. apply own_here. now apply mem_In.
    + apply mem_false in Em. destruct (last_entry x (coll_entries c)) as [[n t'|c2]|] eqn:El; [destruct rest; discriminate| |discriminate]. apply last_entry_iff in El.
      intros H. apply IH in H. destruct rest as [|z rest]; [inversion H|]. now apply own_below with c2.
  - generalize (last (x :: rest) ""). intros y H. inversion H as [? ? Hr|? ? c2 ? ? Hr He Ho]; subst.
    + now rewrite (proj2 (mem_In _ _) Hr).
    + rewrite (proj2 (mem_false _ _) Hr). rewrite (proj2 (last_entry_iff _ _ _) He). apply IH. now rewrite (own_last _ _ _ Ho).
Qed.
Lemma coll_get_raises c parts e : coll_get c parts = Raise e -> e = AttributeError.
Proof.
  revert c. induction parts as [|x rest IH]; intros c; [discriminate|]. cbn [coll_get]. unfold coll_getattr. destruct (mem x coll_reserved).
  - destruct rest; [discriminate|]. now intros [= <-].
  - destruct (last_entry x (coll_entries c)) as [[n t'|c2]|]; [destruct rest; [discriminate|now intros [= <-]]|apply IH|now intros [= <-]].
Qed.

(** the structure of a new selector *)
Lemma load_structure_spec ms : forall out sel, load_structure ms out = Ok sel ->
  (forall n, dget n sel = match dget n (rev ms) with Some m => option_map manager_dict (g_items m) | None => dget n out end) /\
  (forall n m, In (n, m) ms -> g_items m <> None).
Proof.
  induction ms as [|[n0 m0] ms IH]; intros out sel H; cbn [load_structure] in H.
  - injection H as <-. split; [reflexivity|intros n m []].
  - destruct (g_items m0) as [i|] eqn:Ei; [|discriminate]. destruct (IH _ _ H) as [H1 H2]. split.
    + intros n. rewrite H1. cbn [rev]. rewrite dget_app. destruct (dget n (rev ms)) as [m|]; [reflexivity|]. cbn [dget]. rewrite dget_dset.
      destruct (String.eqb n n0); [now rewrite Ei|reflexivity].
    + intros n m [E|Hin]; [injection E as <- <-; congruence|]. now apply (H2 n).
Qed.
Lemma new_selector_get ms sel n m : dwf ms -> new_selector ms = Ok sel -> dget n ms = Some m -> dget n sel = option_map manager_dict (g_items m).
Proof.
  intros W H Hm. destruct (load_structure_spec ms [] sel H) as [H1 _]. rewrite H1. rewrite dget_rev by exact W. now rewrite Hm.
Qed.
Lemma load_structure_ok ms : forall out, (forall n m, In (n, m) ms -> g_items m <> None) <-> exists sel, load_structure ms out = Ok sel.
Proof.
  induction ms as [|[n0 m0] ms IH]; intros out; cbn [load_structure].
  - split; [eauto|intros _ n m []].
  - destruct (g_items m0) as [i|] eqn:E.
    + rewrite <- IH. split; [intros H n m Hin; apply (H n m); now right|]. intros H n m [Hin|Hin]; [injection Hin as <- <-; congruence|now apply (H n)].
    + split; [intros H; exfalso; apply (H n0 m0); [now left|exact E]|intros [? ?]; discriminate].
Qed.

Lemma find_app {A} (f : A -> bool) l1 l2 : find f (l1 ++ l2) = match find f l1 with Some x => Some x | None => find f l2 end.
Proof. induction l1 as [|a l1 IH]; [reflexivity|]. cbn. destruct (f a); [reflexivity|exact IH]. Qed.
Lemma fold_regs l : forall d x, dget x (fold_left (fun d r => dset (reg_name r) (reg_coll r) d) l d) =
  match find (fun r => String.eqb (reg_name r) x) (rev l) with Some r => Some (reg_coll r) | None => dget x d end.
Proof.
  induction l as [|r l IH]; intros d x; [reflexivity|]. cbn [fold_left rev]. rewrite IH. rewrite find_app. destruct (find _ (rev l)); [reflexivity|]. cbn [find].
  rewrite dget_dset. rewrite (String.eqb_sym (reg_name r) x). now destruct (String.eqb x (reg_name r)).
Qed.
Lemma manager_dict_general i : ~ In general_name (map reg_name (i_specific i)) -> dget general_name (manager_dict i) = Some (i_general i).
Proof.
  intros H. unfold manager_dict. rewrite fold_regs. destruct (find _ _) as [r|] eqn:E; [|reflexivity]. exfalso. apply find_some in E. destruct E as [E1 E2].
  apply in_rev in E1. apply String.eqb_eq in E2. apply H. rewrite <- E2. now apply in_map.
Qed.
Lemma manager_dict_specific i r : NoDup (map reg_name (i_specific i)) -> In r (i_specific i) -> dget (reg_name r) (manager_dict i) = Some (reg_coll r).
Proof.
  intros N H. unfold manager_dict. rewrite fold_regs. destruct (find _ _) as [r'|] eqn:E.
  - apply find_some in E. destruct E as [E1 E2]. apply in_rev in E1. apply String.eqb_eq in E2. do 2 f_equal.
    clear - N H E1 E2. induction (i_specific i) as [|a l IH]; [destruct H|]. inversion N as [|? ? N1 N2]; subst. destruct H as [->|H], E1 as [->|E1]; auto.
    + exfalso. apply N1. rewrite <- E2. now apply in_map.
    + exfalso. apply N1. rewrite E2. now apply in_map.
  - exfalso. pose proof (find_none _ _ E r) as F. cbv beta in F. rewrite eqb_refl_s in F. apply in_rev in H. specialize (F H). discriminate.
Qed.
Lemma manager_dict_some i x : In x (map reg_name (i_specific i)) -> exists c, dget x (manager_dict i) = Some c.
Proof.
  intros H. unfold manager_dict. rewrite fold_regs. destruct (find _ _) as [r|] eqn:E; [eauto|]. exfalso. apply in_map_iff in H. destruct H as (r & <- & H).
  pose proof (find_none _ _ E r) as F. cbv beta in F. rewrite eqb_refl_s in F. apply in_rev in H. specialize (F H). discriminate.
Qed.

Lemma parts_of_tail path n below : path_parts path = n :: below -> Forall (fun x => has_char dot x = false) below.
Proof. intros H. pose proof (split_parts_no_sep dot path) as F. unfold path_parts, mk_sp in H. cbn in H. unfold section_path_str_to_section_strs in H. rewrite H in F. now inversion F. Qed.
Lemma parts_join l : l <> [] -> Forall (fun x => has_char dot x = false) l -> path_parts (join sdot l) = l.
Proof. intros H1 H2. unfold path_parts, mk_sp. cbn. now apply split_join. Qed.

Lemma locate_spec ms sel path n below m : mgrs_ok ms -> new_selector ms = Ok sel -> path_parts path = n :: below -> dget n ms = Some m ->
  match locate sel ms path with
  | Ok (LRoot _) => below = [] \/ exists x, below = [x] /\ In x (g_names m)
  | Ok (LIn g c parts) => in_collection m g c parts below /\ parts <> [] /\ forall g' c' parts', in_collection m g' c' parts' below -> g' = g /\ c' = c /\ parts' = parts
  | Raise _ => False
  end.
Proof.
  intros [W Hok] Hs Hp Hm. destruct (Hok n m Hm) as (i & Hi & Hn & Nd & Ng). pose proof (new_selector_get ms sel n m W Hs Hm) as Hd. rewrite Hi in Hd. cbn in Hd.
  pose proof (parts_of_tail _ _ _ Hp) as F. unfold locate. rewrite Hp, Hm, Hd. destruct below as [|x rest]; [now left|].
  destruct (mem x (g_names m)) eqn:Ex.
  - apply mem_In in Ex. rewrite <- Hn in Ex. apply in_map_iff in Ex. destruct Ex as (r & <- & Hr). rewrite <- Hn in Nd. rewrite (manager_dict_specific i r Nd Hr).
    destruct rest as [|y rest]; [right; exists (reg_name r); split; [reflexivity|]; rewrite <- Hn; now apply in_map|].
    rewrite parts_join by (try discriminate; now inversion F). split; [now apply (in_specific m i r)|]. split; [discriminate|].
    intros g' c' parts' H. inversion H as [i' r' rest' Hi' Hr' Hne E1 E2|i' x' rest' Hi' Hx E1 E2]; subst.
    + assert (i' = i) by congruence. subst i'. repeat split; auto. pose proof (manager_dict_specific i r Nd Hr) as D1. pose proof (manager_dict_specific i r' Nd Hr') as D2. rewrite H0 in D2. congruence.
    + exfalso. apply Hx. rewrite <- Hn. now apply in_map.
  - apply mem_false in Ex. rewrite manager_dict_general by (rewrite Hn; exact Ng). rewrite parts_join by (try discriminate; exact F).
    split; [now apply (in_general m i)|]. split; [discriminate|].
    intros g' c' parts' H. inversion H as [i' r' rest' Hi' Hr' Hne E1 E2|i' x' rest' Hi' Hx E1 E2]; subst.
    + exfalso. apply Ex. rewrite <- Hn. assert (i' = i) by congruence. subst i'. now apply in_map.
    + assert (i' = i) by congruence. now subst i'.
Qed.

Lemma callable_iff g x : coll_callable g x = true <-> can_be_called g x.
Proof.
  unfold coll_callable, can_be_called. rewrite orb_true_iff, andb_true_iff, mem_In, negb_true_iff, String.eqb_eq. cbn [In coll_methods]. tauto.
Qed.

Lemma contains_spec ms sel path n below m b : mgrs_ok ms -> new_selector ms = Ok sel -> path_parts path = n :: below -> dget n ms = Some m ->
  (sel_contains sel ms (IStr path) = Ok (true, b) <-> stands_for m below b) /\ exists r, sel_contains sel ms (IStr path) = Ok r /\ (fst r = false -> snd r = false).
Proof.
  intros Hms Hs Hp Hm. pose proof (locate_spec ms sel path n below m Hms Hs Hp Hm) as L. cbn [sel_contains].
  assert (NR : forall g c parts x, in_collection m g c parts below -> parts <> [] -> below = [x] -> In x (g_names m) -> False).
  { intros g c parts x H Hne E Hx. rewrite E in H. inversion H; subst; congruence. }
  destruct (locate sel ms path) as [[c|g c parts]|e]; [| |contradiction].
  - split; [|eexists; split; [reflexivity|discriminate]]. split.
    + intros [= <-]. destruct L as [->|(x & -> & Hx)]; [apply st_manager|now apply st_class_dict].
    + intros H. assert (B : b = false); [|now rewrite B]. assert (NC : forall g c parts, ~ in_collection m g c parts below).
      { intros g c' parts H0. destruct L as [->|(x & -> & Hx)]; [inversion H0|]. inversion H0; subst; congruence. }
      inversion H; subst; auto; exfalso; eapply NC; eassumption.
  - destruct L as (L1 & Hne & L2).
    assert (U : forall b, stands_for m below b -> (exists c', leads c parts (EColl c')) /\ b = false \/ (exists n t, leads c parts (EItem n t)) /\ b = true \/ (exists y, own_name c parts y /\ can_be_called g y) /\ b = true).
    { intros b0 H. inversion H as [E|x Hx E|g' c' parts' xs c2 Hc Hl E|g' c' parts' xs n2 t Hc Hl E|g' c' parts' xs y Hc Ho Hk E]; subst.
      - inversion L1.
      - exfalso. now apply (NR g c parts x).
      - left. destruct (L2 _ _ _ Hc) as (-> & -> & ->). eauto.
      - right; left. destruct (L2 _ _ _ Hc) as (-> & -> & ->). eauto.
      - right; right. destruct (L2 _ _ _ Hc) as (-> & -> & ->). eauto. }
    destruct (coll_get c parts) as [[c2|t|]|e] eqn:Eg.
    + split; [|eexists; split; [reflexivity|discriminate]]. pose proof Eg as Eg'. apply coll_get_coll in Eg; [|exact Hne]. split.
      * intros [= <-]. now apply (st_section m g c parts below c2).
      * intros H. destruct (U _ H) as [[_ ->]|[[(n2 & t & Hl) _]|[(y & Ho & _) _]]]; [reflexivity| |].
        -- assert (coll_get c parts = Ok (FThing t)) by (apply coll_get_thing; eauto). congruence.
        -- assert (coll_get c parts = Ok FOther) by (apply coll_get_other; now rewrite (own_last _ _ _ Ho)). congruence.
    + split; [|eexists; split; [reflexivity|discriminate]]. pose proof Eg as Eg'. apply coll_get_thing in Eg. destruct Eg as [n2 Eg]. split.
      * intros [= <-]. now apply (st_item m g c parts below n2 t).
      * intros H. destruct (U _ H) as [[(c2 & Hl) _]|[[_ ->]|[_ ->]]]; [|reflexivity|reflexivity].
        assert (coll_get c parts = Ok (FColl c2)) by (apply coll_get_coll; auto). congruence.
    + cbv zeta. split; [|eexists; split; [reflexivity|now cbn]]. pose proof Eg as Eg'. apply coll_get_other in Eg. split.
      * intros H. assert (K : coll_callable g (last parts "") = true) by congruence. assert (b = true) by congruence. subst b. apply (st_method m g c parts below (last parts "")); [assumption|assumption|now apply callable_iff].
      * intros H. destruct (U _ H) as [[(c2 & Hl) _]|[[(n2 & t & Hl) _]|[(y & Ho & Hk) ->]]].
        -- assert (coll_get c parts = Ok (FColl c2)) by (apply coll_get_coll; auto). congruence.
        -- assert (coll_get c parts = Ok (FThing t)) by (apply coll_get_thing; eauto). congruence.
        -- rewrite (own_last _ _ _ Ho). apply callable_iff in Hk. now rewrite Hk.
    + pose proof (coll_get_raises c parts e Eg) as ->. split; [|eexists; split; [reflexivity|reflexivity]]. split; [discriminate|].
      intros H. destruct (U _ H) as [[(c2 & Hl) _]|[[(n2 & t & Hl) _]|[(y & Ho & Hk) _]]].
      * assert (coll_get c parts = Ok (FColl c2)) by (apply coll_get_coll; auto). congruence.
      * assert (coll_get c parts = Ok (FThing t)) by (apply coll_get_thing; eauto). congruence.
      * assert (coll_get c parts = Ok FOther) by (apply coll_get_other; now rewrite (own_last _ _ _ Ho)). congruence.
Qed.

(** * Chains *)
Lemma leads_prefix c parts x e : parts <> [] -> leads c (parts ++ [x]) e -> exists c', leads c parts (EColl c').
Proof.
  revert c. induction parts as [|y parts IH]; intros c Hne H; [congruence|]. cbn in H. inversion H as [? ? ? Hr He E|? ? c2 ? ? Hr He Hl]; subst.
  - destruct parts; discriminate.
  - destruct parts as [|z parts]; [exists c2; now apply leads_here|]. destruct (IH c2 ltac:(discriminate) Hl) as [c' Hc']. exists c'. now apply leads_below with c2.
Qed.
Lemma own_prefix c parts x y : parts <> [] -> own_name c (parts ++ [x]) y -> exists c', leads c parts (EColl c').
Proof.
  revert c. induction parts as [|z parts IH]; intros c Hne H; [congruence|]. cbn in H. inversion H as [? ? Hr E|? ? c2 ? ? Hr He Hl]; subst.
  - destruct parts; discriminate.
  - destruct parts as [|w parts]; [exists c2; now apply leads_here|]. destruct (IH c2 ltac:(discriminate) Hl) as [c' Hc']. exists c'. now apply leads_below with c2.
Qed.
Lemma in_collection_prefix m g c parts xs x : in_collection m g c parts (xs ++ [x]) ->
  xs = [] \/ (exists y, xs = [y] /\ In y (map reg_name match g_items m with Some i => i_specific i | None => [] end)) \/ exists p, p <> [] /\ parts = p ++ [x] /\ in_collection m g c p xs.
Proof.
  intros H. remember (xs ++ [x]) as ys eqn:E. destruct H as [i r rest Hi Hr Hne|i y rest Hi Hx].
  - destruct xs as [|y xs]; [now left|]. right. cbn in E. injection E as <- E. destruct xs as [|z xs].
    + left. exists (reg_name r). rewrite Hi. split; [reflexivity|]. now apply in_map.
    + right. exists (z :: xs). split; [discriminate|]. split; [exact E|]. apply (in_specific m i r); auto. discriminate.
  - destruct xs as [|z xs]; [now left|]. right; right. exists (z :: xs). split; [discriminate|]. split; [exact E|]. cbn in E. injection E as <- ->. now apply (in_general m i).
Qed.
Lemma stands_prefix m xs x b : mgr_ok m -> stands_for m (xs ++ [x]) b -> stands_for m xs false.
Proof.
  intros (i & Hi & Hn & _) H. assert (K : forall g c parts, in_collection m g c parts (xs ++ [x]) -> (forall p, p <> [] -> parts = p ++ [x] -> exists c', leads c p (EColl c')) -> stands_for m xs false).
  { intros g c parts Hc Hp. destruct (in_collection_prefix m g c parts xs x Hc) as [->|[(y & -> & Hy)|(p & Hne & -> & Hc')]].
    - apply st_manager.
    - apply st_class_dict. rewrite Hi, Hn in Hy. exact Hy.
    - destruct (Hp p Hne eq_refl) as [c' Hl]. now apply (st_section m g c p xs c'). }
  remember (xs ++ [x]) as ys eqn:E. destruct H as [|y Hy|g c parts ys c' Hc Hl|g c parts ys n t Hc Hl|g c parts ys y Hc Ho Hk].
  - destruct xs; discriminate.
  - destruct xs as [|z xs]; [apply st_manager|destruct xs; discriminate].
  - apply (K g c parts Hc). intros p Hne ->. now apply (leads_prefix c p x (EColl c')).
  - apply (K g c parts Hc). intros p Hne ->. now apply (leads_prefix c p x (EItem n t)).
  - apply (K g c parts Hc). intros p Hne ->. now apply (own_prefix c p x y).
Qed.
Lemma stands_prefixes m zs : forall xs b, mgr_ok m -> stands_for m (xs ++ zs) b -> exists b', stands_for m xs b'.
Proof.
  induction zs as [|z zs IH] using rev_ind; intros xs b Hm H; [rewrite app_nil_r in H; eauto|]. rewrite app_assoc in H. apply (IH xs false Hm). now apply stands_prefix in H.
Qed.

Lemma parts_snoc p x l : path_parts p = l -> has_char dot x = false -> path_parts (p ++ "." ++ x)%string = l ++ [x].
Proof.
  intros <- Hx. unfold path_parts, mk_sp. cbn [sections]. unfold section_path_str_to_section_strs. change ("." ++ x)%string with (String dot x). rewrite split_app. now rewrite (split_no_sep _ _ Hx).
Qed.
Lemma parts_path p l : path_parts p = l -> p = join sdot l.
Proof. intros <-. symmetry. apply join_split. Qed.

Lemma iv_chain_spec ms sel m n : mgrs_ok ms -> new_selector ms = Ok sel -> dget n ms = Some m ->
  forall xs p ys, path_parts p = n :: ys -> Forall accessible xs -> xs <> [] ->
  (iv_chain sel ms (View p) xs = Ok (Some (View (join sdot (n :: ys ++ xs)))) <-> exists b, stands_for m (ys ++ xs) b) /\
  (forall q, iv_chain sel ms (View p) xs = Ok (Some (View q)) -> q = join sdot (n :: ys ++ xs)) /\ exists r, iv_chain sel ms (View p) xs = Ok r.
Proof.
  intros Hms Hs Hm. assert (Mok : mgr_ok m) by (apply (proj2 Hms) with n; exact Hm). induction xs as [|x xs IH]; intros p ys Hp Ha Hne; [congruence|].
  inversion Ha as [|? ? [Hd Hi] Ha']; subst. pose proof (parts_snoc p x _ Hp Hd) as Hp'. cbn [app] in Hp'.
  pose proof (contains_spec ms sel (p ++ "." ++ x)%string n (ys ++ [x]) m) as C. cbn [iv_chain]. unfold iv_getattr. change iv_attrs with view_names. rewrite Hi.
  destruct (proj2 (C true Hms Hs Hp' Hm)) as ([r1 r2] & Er & _). rewrite Er. destruct r1.
  - destruct xs as [|z xs].
    + cbn [iv_chain]. rewrite (parts_path _ _ Hp'). split; [|split; [now intros q [= <-]|eauto]]. split; [|reflexivity]. intros _. exists r2. now apply (C r2 Hms Hs Hp' Hm).
    + specialize (IH (p ++ "." ++ x)%string (ys ++ [x]) Hp' Ha' ltac:(discriminate)). rewrite <- app_assoc in IH. exact IH.
  - assert (N : forall b, ~ stands_for m (ys ++ [x]) b) by (intros b Hb; apply (C b Hms Hs Hp' Hm) in Hb; congruence).
    destruct xs as [|z xs].
    + cbn [iv_chain]. split; [|split; [discriminate|eauto]]. split; [discriminate|]. intros [b Hb]. exfalso. now apply (N b).
    + cbn [iv_chain]. split; [|split; [discriminate|eauto]]. split; [discriminate|]. intros [b Hb]. exfalso. change (x :: z :: xs) with ([x] ++ z :: xs) in Hb. rewrite app_assoc in Hb.
      destruct (stands_prefixes m (z :: xs) (ys ++ [x]) b Mok Hb) as [b' Hb']. now apply (N b').
Qed.

Lemma ex_mgrs_ok : mgrs_ok ex_mgrs.
Proof.
  split; [repeat constructor; cbn; intuition discriminate|]. intros n m. cbn [dget ex_mgrs]. destruct (String.eqb n "p"); [|destruct (String.eqb n "q"); [|discriminate]].
  - intros [= <-]. exists ex_items. repeat split; [repeat constructor; cbn; intuition discriminate|]. cbn. intuition discriminate.
  - intros [= <-]. eexists. repeat split; [constructor|]. cbn. intuition discriminate.
Qed.
