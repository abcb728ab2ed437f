From Verif Require Export IterateSame_Spec.
From Verif Require Import Iterate_Spec Iterate_Proofs.
From Coq Require Import Lia.
Local Open Scope list_scope.

Lemma entry_eq_iff v w : (entry_eq v w = Ok true <-> counts_same v w)
  /\ (entry_eq v w = Ok false -> ~ counts_same v w).
Proof.
  unfold entry_eq, counts_same. destruct (py_is v w); [split; [split; [now left|reflexivity]|discriminate]|].
  destruct (py_eq v w) as [b| |]; (split; [split|]); try discriminate; intros.
  - right. congruence.
  - destruct H as [H|H]; [discriminate|congruence].
  - intros [H'|H']; [discriminate|]. congruence.
  - destruct H as [H|H]; discriminate.
  - destruct H as [H|H]; discriminate.
Qed.

Lemma entries_eq_true a b : dwf a -> entries_eq a b = Ok true ->
  forall k v, dget k a = Some v -> exists w, dget k b = Some w /\ counts_same v w.
Proof.
  intro W. induction a as [|[k v] a IH]; cbn; [discriminate|]. intro H.
  destruct (dget k b) as [w|] eqn:E; [|discriminate]. destruct (entry_eq v w) as [[|]|] eqn:Ee; try discriminate.
  inversion W; subst. intros k0 v0. destruct (String.eqb_spec k0 k) as [->|N].
  - intros [= <-]. exists w. split; [exact E|]. now apply entry_eq_iff.
  - now apply IH.
Qed.

Lemma entries_eq_false a b : dwf a -> entries_eq a b = Ok false ->
  exists k v, dget k a = Some v /\ (dget k b = None \/ exists w, dget k b = Some w /\ ~ counts_same v w).
Proof.
  intro W. induction a as [|[k v] a IH]; cbn; [discriminate|]. intro H.
  destruct (dget k b) as [w|] eqn:E.
  - destruct (entry_eq v w) as [[|]|] eqn:Ee; try discriminate.
    + inversion W as [|? ? Nin W']; subst. destruct (IH W' H) as (k0 & v0 & E0 & D).
      exists k0, v0. split; [|exact D]. destruct (String.eqb_spec k0 k) as [->|N]; [|exact E0].
      exfalso. apply Nin. apply dget_Some_In in E0. now apply (in_map fst) in E0.
    + exists k, v. rewrite String.eqb_refl. split; [reflexivity|]. right. exists w. split; [exact E|].
      now apply entry_eq_iff.
  - exists k, v. rewrite String.eqb_refl. split; [reflexivity|]. now left.
Qed.

Lemma dkeys_get {V} k (d : dict V) : In k (dkeys d) <-> exists v, dget k d = Some v.
Proof.
  split.
  - apply In_dkeys_dget.
  - intros [v E]. apply dget_Some_In in E. now apply (in_map fst) in E.
Qed.

Lemma same_keys_lengths (a b : dict pyval) : dwf a -> dwf b ->
  (forall k, In k (dkeys a) <-> In k (dkeys b)) -> length a = length b.
Proof.
  intros Wa Wb H. unfold dkeys in *. rewrite <- (map_length fst a), <- (map_length fst b).
  apply Nat.le_antisymm; apply NoDup_incl_length; try assumption; intros k I; now apply H.
Qed.

Lemma same_length_keys (a b : dict pyval) : dwf a -> dwf b -> length a = length b ->
  (forall k, In k (dkeys a) -> In k (dkeys b)) -> forall k, In k (dkeys a) <-> In k (dkeys b).
Proof.
  intros Wa Wb L H k. split; [apply H|]. unfold dkeys in *.
  apply (NoDup_length_incl Wa); [|exact H]. unfold dwf, dict, dkeys in *. rewrite !map_length. now rewrite <- L.
Qed.

Lemma entries_eq_iff a b : dwf a -> dwf b -> length a = length b ->
  (entries_eq a b = Ok true -> same_dict a b) /\ (entries_eq a b = Ok false -> ~ same_dict a b).
Proof.
  intros Wa Wb L. split; intro H.
  - pose proof (entries_eq_true a b Wa H) as T. split.
    + apply (same_length_keys a b Wa Wb L). intros k I. apply dkeys_get in I as [v E].
      destruct (T k v E) as (w & E' & _). apply dkeys_get. now exists w.
    + intros k v w E E'. destruct (T k v E) as (w' & E2 & C). rewrite E2 in E'. now injection E' as <-.
  - intros [K S]. destruct (entries_eq_false a b Wa H) as (k & v & E & [N|(w & E' & N)]).
    + assert (I : In k (dkeys b)) by (apply K, dkeys_get; now exists v).
      apply dkeys_get in I as [w Ew]. congruence.
    + now apply N, (S k).
Qed.

Lemma dict_eq_iff a b : dwf a -> dwf b ->
  (dict_eq a b = Ok true -> same_dict a b) /\ (dict_eq a b = Ok false -> ~ same_dict a b).
Proof.
  intros Wa Wb. unfold dict_eq. destruct (Nat.eqb_spec (length a) (length b)) as [L|N].
  - now apply entries_eq_iff.
  - split; [discriminate|]. intros _ [K _]. apply N. now apply same_keys_lengths.
Qed.

Lemma conf_eq_iff c c' : conf_wf c -> conf_wf c' ->
  (conf_eq c c' = Ok true -> same_conf c c') /\ (conf_eq c c' = Ok false -> ~ same_conf c c').
Proof.
  intros [W D] [W' D']. unfold conf_eq, conf_size, same_conf.
  destruct c as [p [d v]], c' as [p' [d' v']]. cbn [fst snd b_vals b_d] in *.
  destruct (Nat.eqb_spec (length v + match d with Some _ => 1 | None => 0 end)
                         (length v' + match d' with Some _ => 1 | None => 0 end)) as [L|N].
  - destruct (entries_eq v v') as [[|]|e] eqn:E.
    + destruct d as [d|], d' as [d'|]; cbn iota.
      * assert (LL : length v = length v') by lia. pose proof (proj1 (entries_eq_iff _ _ W W' LL) E) as S.
        destruct (dict_eq_iff d d' (D d eq_refl) (D' d' eq_refl)) as [T F].
        destruct (String.eqb_spec p p') as [->|N]; split; try discriminate; intro H.
        -- split; [reflexivity|]. split; [exact S|]. now apply T.
        -- intros (_ & _ & X). now apply F.
        -- intros (X & _). now apply N.
      * destruct (String.eqb p p'); split; try discriminate; intros _ (_ & _ & []).
      * destruct (String.eqb p p'); split; try discriminate; intros _ (_ & _ & []).
      * assert (LL : length v = length v') by lia. pose proof (proj1 (entries_eq_iff _ _ W W' LL) E) as S.
        destruct (String.eqb_spec p p') as [->|N]; split; try discriminate; intro H.
        -- now split.
        -- intros (X & _). now apply N.
    + split; [discriminate|]. intros _ (_ & [K S] & _).
      destruct (entries_eq_false _ _ W E) as (k & x & Ek & [N|(w & Ew & N)]).
      * assert (I : In k (dkeys v')) by (apply K, dkeys_get; now exists x).
        apply dkeys_get in I as [w Ew]. congruence.
      * now apply N, (S k).
    + split; discriminate.
  - split; [discriminate|]. intros _ (_ & [K S] & X). apply N.
    rewrite (same_keys_lengths v v' W W' K). destruct d, d'; try contradiction; reflexivity.
Qed.

Lemma conf_in_iff c l : conf_wf c -> Forall conf_wf l ->
  (conf_in c l = Ok true -> already_in l c) /\ (conf_in c l = Ok false -> ~ already_in l c).
Proof.
  intros W WL. induction WL as [|c' l W' WL IH]; cbn [conf_in].
  - split; [discriminate|]. intros _ (c' & [] & _).
  - destruct (conf_eq_iff c c' W W') as [T F]. destruct (conf_eq c c') as [[|]|e]; [| |split; discriminate].
    + split; [|discriminate]. intros _. exists c'. split; [now left|now apply T].
    + destruct IH as [IT IF]. split; intro H.
      * destruct (IT H) as (x & I & S). exists x. split; [now right|exact S].
      * intros (x & [<-|I] & S); [now apply F|]. apply (IF H). now exists x.
Qed.

Lemma not_in_last_iff l last l' : Forall conf_wf l -> Forall conf_wf last ->
  not_in_last l last = Ok l' -> without (already_in last) l l'.
Proof.
  intros WL WA. revert l'. induction WL as [|c l W WL IH]; cbn [not_in_last]; intros l' H.
  - injection H as <-. constructor.
  - destruct (conf_in_iff c last W WA) as [T F].
    destruct (conf_in c last) as [b|]; [|discriminate].
    destruct (not_in_last l last) as [r|]; [|discriminate]. injection H as <-.
    destruct b; [apply wo_drop|apply wo_keep]; auto.
Qed.

(** normal values never raise *)
Lemma py_eq_plain_bool x : forall y, plain x = true -> plain y = true -> exists b, py_eq x y = EqBool b.
Proof.
  induction x as [| | | |l IH| | | | | |] using pyval_ind2; intros y Hx Hy;
    destruct y; cbn in Hx, Hy; try discriminate; cbn [py_eq]; try (eexists; reflexivity).
  destruct (Nat.eqb (length l) (length l0)); [|now exists false].
  revert l0 Hy. induction IH as [|a l Ha IHl IHf]; intros k Hy; destruct k as [|b k]; try (eexists; reflexivity).
  cbn [forallb] in Hx, Hy. apply andb_prop in Hx as [Hx1 Hx2]. apply andb_prop in Hy as [Hy1 Hy2].
  destruct (py_is a b); [now apply IHf|]. destruct (Ha b Hx1 Hy1) as [[|] ->]; [now apply IHf|now exists false].
Qed.

Lemma plain_entry v w : plain v = true -> plain w = true -> exists b, entry_eq v w = Ok b.
Proof.
  intros P Q. unfold entry_eq. destruct (py_is v w); [now exists true|].
  destruct (py_eq_plain_bool v w P Q) as [b ->]. now exists b.
Qed.

Lemma plain_entries a b : dwf a -> (forall k v, dget k a = Some v -> plain v = true) ->
  (forall k v, dget k b = Some v -> plain v = true) -> exists r, entries_eq a b = Ok r.
Proof.
  intros W Pa Pb. induction a as [|[k v] a IH]; cbn [entries_eq]; [now exists true|].
  destruct (dget k b) as [w|] eqn:E; [|now exists false].
  destruct (plain_entry v w) as [[|] ->]; [apply (Pa k); cbn; now rewrite String.eqb_refl|now apply (Pb k)| |now exists false].
  inversion W as [|? ? Nin W']; subst. apply (IH W'). intros k0 v0 E0. apply (Pa k0). cbn.
  destruct (String.eqb_spec k0 k) as [->|N]; [|exact E0]. exfalso. apply Nin.
  apply dget_Some_In in E0. now apply (in_map fst) in E0.
Qed.

Lemma plain_conf c c' : conf_wf c -> conf_plain c -> conf_plain c' -> exists r, conf_eq c c' = Ok r.
Proof.
  intros [W D] [P1 P2] [Q1 Q2]. unfold conf_eq. destruct (Nat.eqb _ _); [|now exists false].
  destruct (plain_entries (b_vals (snd c)) (b_vals (snd c')) W P1 Q1) as [[|] ->]; [|now exists false].
  destruct (String.eqb _ _); [|now exists false].
  destruct (b_d (snd c)) as [d|], (b_d (snd c')) as [d'|]; try (now eexists).
  unfold dict_eq. destruct (Nat.eqb _ _); [|now exists false].
  apply (plain_entries d d' (D d eq_refl)); intros k v E; [now apply (P2 d k)|now apply (Q2 d' k)].
Qed.

Lemma plain_not_in_last l last : Forall conf_wf l -> Forall conf_plain l -> Forall conf_plain last ->
  exists l', not_in_last l last = Ok l'.
Proof.
  intros W P Q. revert W. induction P as [|c l Pc P IH]; intro W; cbn [not_in_last]; [now exists []|].
  inversion W as [|? ? Wc WL]; subst. destruct (IH WL) as [r ->].
  assert (E : exists b, conf_in c last = Ok b).
  { clear -Wc Pc Q. induction Q as [|c' last Pc' Q IH]; cbn [conf_in]; [now exists false|].
    destruct (plain_conf c c' Wc Pc Pc') as [[|] ->]; [now exists true|exact IH]. }
  destruct E as [b ->]. now eexists.
Qed.
