(** Proofs about configs made from objects. *)
From Verif Require Export FromObj_Spec.
From Verif Require Import FuncArgs_Proofs Py_Dict Imports_Proofs.
Local Open Scope string_scope.
Local Open Scope list_scope.

Section Proofs.
Context {V : Type}.
Variable none : V.
Variable is_none : V -> bool.
Hypothesis is_none_iff : forall v, is_none v = true <-> v = none.
Variable as_str : V -> option string.
Variable of_str : string -> V.
Hypothesis of_str_as : forall v t, as_str v = Some t -> of_str t = v.
Variable attr : string -> res V.

Lemma is_none_none : is_none none = true. Proof. now apply is_none_iff. Qed.
Lemma is_none_false v : is_none v = false <-> v <> none.
Proof. split; [intros H E; subst; now rewrite is_none_none in H|]. intros N. destruct (is_none v) eqn:E; [apply is_none_iff in E; contradiction|reflexivity]. Qed.

Lemma dkeys_blank d : dkeys (blank is_none d) = dkeys d.
Proof. unfold dkeys, blank. rewrite map_map. now apply map_ext. Qed.
Lemma dget_blank d x : dget x (blank is_none d) = match dget x d with Some v => Some (if is_none v then CNone else CObj v) | None => None end.
Proof. induction d as [|[k v] d IH]; [reflexivity|]. cbn. destruct (String.eqb x k); [reflexivity|exact IH]. Qed.

Lemma dkeys_dset_in {A} k (v : A) d : In k (dkeys d) -> dkeys (dset k v d) = dkeys d.
Proof.
  induction d as [|[k' v'] d IH]; [intros []|]. intros H. cbn in H |- *. destruct (String.eqb k k') eqn:E; [reflexivity|]. cbn. f_equal. apply IH. destruct H as [->|H]; [now rewrite String.eqb_refl in E|exact H].
Qed.

Lemma fill_attrs_ok l : forall d, NoDup l -> incl l (dkeys d) -> readable attr l ->
  exists c, fill_attrs is_none attr l d = Ok c /\ dkeys c = dkeys d /\
    (forall x, ~ In x l -> dget x c = dget x d) /\
    (forall x, In x l -> dget x c = match attr x with Ok v => if is_none v then dget x d else Some (CObj v) | Raise _ => dget x d end).
Proof.
  induction l as [|y l IH]; intros d N I R; [exists d; repeat split; [intros x []]|].
  inversion N as [|? ? Ny N']; subst. assert (R' : readable attr l) by (intros x Hx; apply R; now right).
  cbn [fill_attrs]. unfold obj_attr_is_none. destruct (R y (or_introl eq_refl)) as [[v E]|E]; rewrite E.
  - destruct (is_none v) eqn:Ev.
    + destruct (IH d N' (fun x H => I x (or_intror H)) R') as (c & H1 & H2 & H3 & H4). exists c. repeat split; [exact H1|exact H2| |].
      * intros x Hx. apply H3. intros H. apply Hx. now right.
      * intros x [<-|Hx]; [|now apply H4]. rewrite E, Ev. now apply H3.
    + destruct (IH (dset y (CObj v) d) N') as (c & H1 & H2 & H3 & H4); [|exact R'|].
      { intros x Hx. rewrite dkeys_dset_in by (apply I; now left). apply I. now right. }
      exists c. repeat split; [exact H1|rewrite H2; apply dkeys_dset_in, I; now left| |].
      * intros x Hx. rewrite H3 by (intros H; apply Hx; now right). apply dget_dset_neq. intros ->. apply Hx. now left.
      * intros x [<-|Hx].
        { rewrite E, Ev. rewrite H3 by exact Ny. apply dget_dset_eq. }
        { rewrite (H4 x Hx). assert (x <> y) by (intros ->; contradiction). now rewrite dget_dset_neq by congruence. }
  - destruct (IH d N' (fun x H => I x (or_intror H)) R') as (c & H1 & H2 & H3 & H4). exists c. repeat split; [exact H1|exact H2| |].
    + intros x Hx. apply H3. intros H. apply Hx. now right.
    + intros x [<-|Hx]; [|now apply H4]. rewrite E. now apply H3.
Qed.

Lemma fill_attrs_raises pre x e post : forall d, readable attr pre -> attr x = Raise e -> e <> AttributeError ->
  fill_attrs is_none attr (pre ++ x :: post) d = Raise e.
Proof.
  induction pre as [|y pre IH]; intros d R E N; cbn [app fill_attrs]; unfold obj_attr_is_none.
  - rewrite E. destruct e; try reflexivity. contradiction.
  - assert (R' : readable attr pre) by (intros z Hz; apply R; now right).
    destruct (R y (or_introl eq_refl)) as [[v Ey]|Ey]; rewrite Ey; [destruct (is_none v)|]; now apply IH.
Qed.

Definition wanted (s : sig V) : list (string * option V) := filter (fun q => negb (String.eqb (fst q) "self")) (seen s).

Lemma class_dict s : sig_ok s -> class_function_args_as_dict none s = Ok (map (or_value none) (wanted s)).
Proof.
  intros H. unfold class_function_args_as_dict. rewrite args_dict_spec by exact H. f_equal. unfold wanted, dfilter. induction (seen s) as [|[x o] l IH]; [reflexivity|]. cbn. destruct (negb (String.eqb x "self")); cbn; now rewrite IH.
Qed.
Lemma wanted_keys s : map fst (wanted s) = filter (fun x => negb (String.eqb x "self")) (map fst (seen s)).
Proof. unfold wanted. induction (seen s) as [|[x o] l IH]; [reflexivity|]. cbn. destruct (negb (String.eqb x "self")); cbn; now rewrite IH. Qed.
Lemma wanted_in s x o : In (x, o) (wanted s) <-> In (x, o) (seen s) /\ x <> "self".
Proof. unfold wanted. rewrite filter_In. cbn. rewrite Bool.negb_true_iff, String.eqb_neq. tauto. Qed.
Lemma seen_nodup (s : sig V) : sig_ok s -> NoDup (map fst (seen s)).
Proof.
  intros H. pose proof (nodup_params s H) as N. unfold params in N. unfold seen, seen_kwonly. destruct (existsb has_default (s_kwonly s)); [exact N|]. rewrite app_nil_r. rewrite map_app in N. now apply NoDup_l in N.
Qed.
Lemma wanted_nodup s : sig_ok s -> NoDup (map fst (wanted s)).
Proof. intros H. rewrite wanted_keys. apply NoDup_filter. now apply seen_nodup. Qed.

Definition final (key : string) (c : dict (cval V)) : res (dict (cval V)) :=
  match dget key c with
  | None => Raise KeyError
  | Some (CObj v) => match as_str v with Some t => Ok (dset key (CStr t) c) | None => Ok c end
  | Some _ => Ok c
  end.

Lemma from_obj_ok s key : sig_ok s -> key <> "self" -> In key (map fst (seen s)) -> readable attr (map fst (wanted s)) ->
  exists c, from_obj none is_none as_str attr s key = Ok c /\ dkeys c = filter (fun x => negb (String.eqb x "self")) (map fst (seen s)) /\
    forall x o, In (x, o) (seen s) -> x <> "self" -> exists v w, chosen none attr x o v /\ stands none as_str key x v w /\ dget x c = Some w.
Proof.
  intros H Nk Hk R. unfold from_obj. rewrite (class_dict s H). set (d := map (or_value none) (wanted s)).
  assert (Kd : dkeys d = map fst (wanted s)) by (unfold d; apply dkeys_or_value).
  destruct (fill_attrs_ok (dkeys d) (blank is_none d)) as (c & H1 & H2 & _ & H4).
  { rewrite Kd. now apply wanted_nodup. } { rewrite dkeys_blank. apply incl_refl. } { now rewrite Kd. }
  rewrite H1. rewrite dkeys_blank in H2.
  assert (G : forall x o, In (x, o) (wanted s) -> exists v, chosen none attr x o v /\ dget x c = Some (if is_none v then CNone else CObj v)).
  { intros x o Hx. assert (Hx' : In x (dkeys d)) by (rewrite Kd; apply in_map_iff; exists (x, o); auto). rewrite (H4 x Hx').
    assert (B : dget x (blank is_none d) = Some (let v := match o with Some v => v | None => none end in if is_none v then CNone else CObj v)).
    { rewrite dget_blank. unfold d. rewrite (dget_or_value none (wanted s) x o (wanted_nodup s H) Hx). reflexivity. }
    assert (D : forall P : Prop, (forall v, (o = Some v \/ o = None /\ v = none) -> v = match o with Some v => v | None => none end -> P) -> P).
    { intros P K. apply (K (match o with Some v => v | None => none end)); [destruct o; auto|reflexivity]. }
    rewrite Kd in Hx'. destruct (R x Hx') as [[v E]|E]; rewrite E.
    - destruct (is_none v) eqn:Ev.
      + apply is_none_iff in Ev. subst v. apply D. intros v Hv Ev. exists v. split; [now apply chosen_none|]. rewrite B. cbv zeta. now rewrite <- Ev.
      + exists v. split; [apply chosen_attr; [exact E|now apply is_none_false]|]. now rewrite Ev.
    - apply D. intros v Hv Ev. exists v. split; [now apply chosen_missing|]. rewrite B. cbv zeta. now rewrite <- Ev. }
  apply in_map_iff in Hk. destruct Hk as ([k ok] & Ek & Hk). cbn in Ek. subst k.
  destruct (G key ok) as (vk & Ck & Gk); [apply wanted_in; now split|].
  set (p := if is_none vk then CNone else match as_str vk with Some t => CStr t | None => CObj vk end).
  assert (F : exists c', final key c = Ok c' /\ dkeys c' = dkeys c /\ dget key c' = Some p /\ forall x, x <> key -> dget x c' = dget x c).
  { unfold final, p. rewrite Gk. destruct (is_none vk); [exists c; auto|]. destruct (as_str vk) as [t|]; [|exists c; auto].
    exists (dset key (CStr t) c). repeat split; [|apply dget_dset_eq|].
    - apply dkeys_dset_in. rewrite H2, Kd. apply in_map_iff. exists (key, ok). split; [reflexivity|]. apply wanted_in. now split.
    - intros x Nx. apply dget_dset_neq. congruence. }
  destruct F as (c' & F1 & F2 & F3 & F4). exists c'. split; [exact F1|]. split; [rewrite F2, H2, Kd; apply wanted_keys|].
  intros x o Hx Ns. destruct (string_dec x key) as [->|Nx].
  - exists vk, p. assert (o = ok). { pose proof (seen_nodup s H) as N. clear -Hx Hk N. induction (seen s) as [|[y q] l IH]; [destruct Hx|]. cbn in N. inversion N as [|? ? Ny N']; subst. destruct Hx as [E|Hx], Hk as [E'|Hk].
      - congruence. - injection E as -> ->. destruct Ny. apply in_map_iff. now exists (key, ok). - injection E' as -> ->. destruct Ny. apply in_map_iff. now exists (key, o). - now apply IH. }
    subst o. split; [exact Ck|]. split; [|exact F3]. unfold p. destruct (is_none vk) eqn:En; [apply is_none_iff in En; subst; constructor|]. apply is_none_false in En. destruct (as_str vk) eqn:Es; [now apply stands_str|apply stands_obj; auto].
  - destruct (G x o) as (v & C & Gx); [apply wanted_in; now split|]. exists v, (if is_none v then CNone else CObj v). split; [exact C|]. split; [|now rewrite F4].
    destruct (is_none v) eqn:En; [apply is_none_iff in En; subst; constructor|]. apply is_none_false in En. apply stands_obj; [exact En|]. intros E. contradiction.
Qed.

Lemma from_obj_key s key : sig_ok s -> key = "self" \/ ~ In key (map fst (seen s)) -> readable attr (map fst (wanted s)) ->
  from_obj none is_none as_str attr s key = Raise KeyError.
Proof.
  intros H Hk R. unfold from_obj. rewrite (class_dict s H). set (d := map (or_value none) (wanted s)).
  assert (Kd : dkeys d = map fst (wanted s)) by (unfold d; apply dkeys_or_value).
  destruct (fill_attrs_ok (dkeys d) (blank is_none d)) as (c & H1 & H2 & _ & _).
  { rewrite Kd. now apply wanted_nodup. } { rewrite dkeys_blank. apply incl_refl. } { now rewrite Kd. }
  rewrite H1. rewrite dkeys_blank, Kd in H2. assert (N : ~ In key (dkeys c)).
  { rewrite H2, wanted_keys. intros I. apply filter_In in I. destruct I as [I E]. destruct Hk as [->|Hk]; [discriminate|contradiction]. }
  apply dmem_false in N. unfold dmem in N. now destruct (dget key c).
Qed.

Lemma from_obj_raises s key pre x post e : sig_ok s -> map fst (wanted s) = pre ++ x :: post -> readable attr pre -> attr x = Raise e -> e <> AttributeError ->
  from_obj none is_none as_str attr s key = Raise e.
Proof.
  intros H E R Ex N. unfold from_obj. rewrite (class_dict s H). rewrite dkeys_or_value, E. now rewrite (fill_attrs_raises pre x e post).
Qed.

Lemma dget_all_means d x : dget x (all_means none of_str d) = match dget x d with Some w => Some (means none of_str w) | None => None end.
Proof. induction d as [|[k w] d IH]; [reflexivity|]. cbn. destruct (String.eqb x k); [reflexivity|exact IH]. Qed.
Lemma dkeys_all_means d : dkeys (all_means none of_str d) = dkeys d.
Proof. unfold dkeys, all_means. rewrite map_map. now apply map_ext. Qed.
Lemma stands_means key x v w : stands none as_str key x v w -> means none of_str w = v.
Proof. intros H. destruct H; cbn; [reflexivity|now apply of_str_as|reflexivity]. Qed.

Lemma made_again s rest obj key : sig_ok s -> s_posonly s = [] -> s_args s = "self" :: rest -> visible s -> key <> "self" -> In key (map fst (params s)) -> readable attr (map fst (wanted s)) ->
  exists c b, from_obj none is_none as_str attr s key = Ok c /\ call s [obj] (all_means none of_str c) = Ok (Bound b [] []) /\ dget "self" b = Some obj /\
    forall x o, In (x, o) (params s) -> x <> "self" -> exists v, chosen none attr x o v /\ dget x b = Some v.
Proof.
  intros H P A Hv Nk Hk R. rewrite <- (seen_all s Hv) in Hk. destruct (from_obj_ok s key H Nk Hk R) as (c & E & Kc & G).
  set (kw := all_means none of_str c). rewrite (seen_all s Hv) in G, Kc.
  assert (Gx : forall x o, In (x, o) (params s) -> x <> "self" -> exists v, chosen none attr x o v /\ dget x kw = Some v).
  { intros x o Hx Ns. destruct (G x o Hx Ns) as (v & w & C & S & Gw). exists v. split; [exact C|]. unfold kw. rewrite dget_all_means, Gw. now rewrite (stands_means key x v w S). }
  destruct (call_self s "self" rest obj kw H P A) as (b & Hb & _ & Hself & Hx).
  { intros k Hin. unfold kw in Hin. rewrite dkeys_all_means, Kc in Hin. apply filter_In in Hin. destruct Hin as [Hin _]. rewrite (params_keys s H), P in Hin. exact Hin. }
  { apply dmem_false. unfold kw. rewrite dkeys_all_means, Kc. intros I. apply filter_In in I. now destruct I. }
  { intros x Hin N. destruct (Gx x None Hin N) as (v & _ & Gv). unfold dmem. now rewrite Gv. }
  exists c, b. split; [exact E|]. split; [exact Hb|]. split; [exact Hself|]. intros x o Hin N. destruct (Gx x o Hin N) as (v & C & Gv). exists v. split; [exact C|]. rewrite (Hx x o Hin N). now rewrite Gv.
Qed.

(** * The base class *)
Lemma base_without_self (s : sig V) obj kw : dmem "self" kw = false -> base_update s obj kw = call s [obj] kw.
Proof.
  intros N. unfold base_update, call at 1. cbn [base_sig s_posonly s_args s_varargs s_varkw app combine length skipn].
  assert (E1 : dfilter (by_name (@base_sig V)) kw = []).
  { apply dfilter_nil. intros k Hk. unfold by_name. cbn. destruct (String.eqb k "self") eqn:E; [|reflexivity]. apply String.eqb_eq in E. subst. apply dmem_false in N. contradiction. }
  assert (E2 : dfilter (fun k => negb (by_name (@base_sig V) k)) kw = kw).
  { apply dfilter_all. intros k Hk. unfold by_name. cbn. destruct (String.eqb k "self") eqn:E; [|reflexivity]. apply String.eqb_eq in E. subst. apply dmem_false in N. contradiction. }
  rewrite E1, E2. destruct kw; reflexivity.
Qed.
Lemma base_with_self (s : sig V) obj kw : dmem "self" kw = true -> base_update s obj kw = Raise TypeError.
Proof.
  intros N. unfold base_update. now rewrite (call_twice base_sig "self" [] obj kw eq_refl eq_refl N).
Qed.
Lemma base_of_self (s : sig V) rest obj c kw : sig_ok s -> s_posonly s = [] -> s_args s = "self" :: rest -> relevant_for_obj none c s = Ok kw -> base_update s obj kw = call s [obj] kw.
Proof.
  intros H P A E. apply base_without_self. unfold relevant_for_obj in E. destruct (function_args_as_dict none true s) as [d|] eqn:Ed; [|discriminate]. injection E as <-.
  assert (N : dmem "self" d = false).
  { rewrite method_dict in Ed by (rewrite P, A; discriminate). destruct (Nat.le_gt_cases (length (s_defaults s)) (length rest)) as [L|L].
    - pose proof (drop_ok s "self" rest H P A L) as Hd. rewrite args_dict_spec in Ed by exact Hd. injection Ed as <-. rewrite dmem_or_value. destruct (smem "self" (map fst (seen (drop_first s)))) eqn:Es; [|reflexivity].
      apply smem_In in Es. apply (seen_in (drop_first s) "self" Hd) in Es. destruct H as [_ Nd]. rewrite P, A in Nd. cbn in Nd. inversion Nd as [|? ? Ns _]; subst. exfalso. apply Ns. apply in_or_app.
      unfold drop_first in Es. rewrite P, A in Es. cbn in Es. tauto.
    - exfalso. unfold function_args_as_dict in Ed. unfold drop_first in Ed. rewrite P, A in Ed. cbn in Ed. rewrite app_length, repeat_length in Ed. rewrite section_or_none in Ed.
      replace (length rest - length (s_defaults s) + length (s_defaults s)) with (length (s_defaults s)) in Ed by lia.
      destruct (Nat.eqb_spec (length (s_defaults s)) (length rest)); [lia|discriminate]. }
  unfold dmem in N |- *. rewrite dget_dfilter. destruct (dget "self" d); [discriminate|reflexivity].
Qed.
End Proofs.
