(** Proofs about signatures. *)
From Verif Require Import FuncArgs_Model FuncArgs_Spec PySource_Proofs Imports_Proofs Imports_Props.
Require Import Permutation Lia.
Local Open Scope string_scope.
Local Open Scope list_scope.

(* ------------------------------------------------------------------ *)
(** * Lists and dicts *)

Lemma dupdate_fresh {A} (d e : dict A) : NoDup (dkeys d ++ dkeys e) -> dupdate d e = d ++ e.
Proof. apply dict_of_id_aux. Qed.
Lemma dkeys_combine {A} (l : list string) (v : list A) : length l <= length v -> dkeys (combine l v) = l.
Proof. revert v. induction l as [|x l IH]; intros [|a v] H; cbn in *; [reflexivity|reflexivity|lia|]. f_equal. apply IH. lia. Qed.
Lemma NoDup_l {A} (l1 l2 : list A) : NoDup (l1 ++ l2) -> NoDup l1.
Proof. induction l1 as [|x l1 IH]; [constructor|]. cbn. inversion 1 as [|? ? H1 H2]; subst. constructor; [|now apply IH]. intros K. apply H1. apply in_or_app. now left. Qed.
Lemma NoDup_r {A} (l1 l2 : list A) : NoDup (l1 ++ l2) -> NoDup l2.
Proof. induction l1 as [|x l1 IH]; [auto|]. cbn. inversion 1; subst. now apply IH. Qed.

Section Sig.
Context {V : Type}.
Variable none : V.
Definition or_value (q : string * option V) : string * V := (fst q, match snd q with Some v => v | None => none end).

Lemma positional_length (s : sig V) : sig_ok s -> length (repeat (@None V) (length (s_posonly s ++ s_args s) - length (s_defaults s)) ++ map Some (s_defaults s)) = length (s_posonly s ++ s_args s).
Proof. intros [H _]. rewrite app_length, repeat_length, map_length. lia. Qed.
Lemma positional_keys (s : sig V) : sig_ok s -> map fst (positional s) = s_posonly s ++ s_args s.
Proof. intros H. unfold positional. apply dkeys_combine. rewrite positional_length by exact H. lia. Qed.
Lemma params_keys (s : sig V) : sig_ok s -> map fst (params s) = s_posonly s ++ s_args s ++ map fst (s_kwonly s).
Proof. intros H. unfold params. rewrite map_app, positional_keys by exact H. now rewrite <- app_assoc. Qed.

Lemma section_or_none {A} (l : list A) : section_list (or_none l) = l.
Proof. now destruct l. Qed.

Lemma kwdefaults_get (l : list (string * option V)) k d : NoDup (map fst l) -> In (k, d) l ->
  match dget k (flat_map (fun q => match snd q with Some v => [(fst q, v)] | None => [] end) l) with Some v => v | None => none end = match d with Some v => v | None => none end.
Proof.
  induction l as [|[x o] l IH]; [intros _ []|]. cbn [map fst]. intros N H. inversion N as [|? ? Hx N']; subst. destruct H as [H|H].
  - injection H as -> ->. cbn [flat_map snd fst]. destruct d as [v|]; cbn [app dget]; [now rewrite String.eqb_refl|].
    destruct (dget k _) eqn:E; [|reflexivity]. exfalso. apply Hx. apply dget_Some_In in E. apply in_flat_map in E. destruct E as ([y oy] & Hy & E). cbn in E. destruct oy; [|destruct E]. destruct E as [E|[]]. injection E as -> _. apply in_map_iff. eexists. split; [|exact Hy]. reflexivity.
  - cbn [flat_map snd fst]. destruct o as [v|]; cbn [app]; [|now apply IH]. cbn [dget]. destruct (String.eqb k x) eqn:E; [|now apply IH].
    apply String.eqb_eq in E. subst. exfalso. apply Hx. apply in_map_iff. now exists (x, d).
Qed.

Lemma seen_kwdefaults (s : sig V) : NoDup (map fst (s_kwonly s)) ->
  match or_none (flat_map (fun q => match snd q with Some v => [(fst q, v)] | None => [] end) (s_kwonly s)) with
  | None => []
  | Some kd => map (fun k => (k, match dget k kd with Some v => v | None => none end)) (map fst (s_kwonly s))
  end = map or_value (seen_kwonly s).
Proof.
  intros N. unfold seen_kwonly. destruct (existsb has_default (s_kwonly s)) eqn:E.
  - set (kd := flat_map _ _). assert (K : or_none kd = Some kd).
    { apply existsb_exists in E. destruct E as ([k o] & Hk & E). destruct o as [v|]; [|discriminate]. assert (Hin : In (k, v) kd) by (apply in_flat_map; exists (k, Some v); split; [exact Hk|now left]). destruct kd; [destruct Hin|reflexivity]. }
    rewrite K. rewrite map_map. apply map_ext_in. intros [k o] Hk. unfold or_value. cbn [fst snd]. f_equal. now apply kwdefaults_get.
  - assert (K : flat_map (fun q : string * option V => match snd q with Some v => [(fst q, v)] | None => [] end) (s_kwonly s) = []).
    { clear N. induction (s_kwonly s) as [|[k o] l IH]; [reflexivity|]. cbn in E. destruct o; [discriminate|]. cbn. apply IH, E. }
    now rewrite K.
Qed.

Lemma combine_or_value (l : list string) n ds : combine l (repeat none n ++ ds) = map or_value (combine l (repeat None n ++ map Some ds)).
Proof.
  revert n ds. induction l as [|x l IH]; intros n ds; [reflexivity|]. destruct n as [|n]; cbn [repeat app].
  - destruct ds as [|d ds]; [reflexivity|]. cbn [combine map]. unfold or_value at 1. cbn [fst snd]. f_equal. apply (IH 0 ds).
  - cbn [combine map]. unfold or_value at 1. cbn [fst snd]. f_equal. apply IH.
Qed.

Lemma dkeys_or_value l : dkeys (map or_value l) = map fst l.
Proof. unfold dkeys. rewrite map_map. apply map_ext. now intros []. Qed.

(** every parameter that is seen, with its own default *)
Lemma args_dict_spec (s : sig V) : sig_ok s -> function_args_as_dict none false s = Ok (map or_value (seen s)).
Proof.
  intros H. unfold function_args_as_dict. cbn [getfullargspec g_args g_defaults g_kwdefaults g_kwonly]. rewrite section_or_none. destruct H as [H N]. rewrite app_length, repeat_length.
  assert (E : Nat.eqb (length (s_posonly s ++ s_args s) - length (s_defaults s) + length (s_defaults s)) (length (s_posonly s ++ s_args s)) = true) by (apply Nat.eqb_eq; lia). rewrite E.
  assert (N2 : NoDup (map fst (s_kwonly s))) by (rewrite app_assoc in N; now apply NoDup_r in N). rewrite seen_kwdefaults by exact N2. rewrite combine_or_value. fold (positional s).
  assert (K : map fst (positional s) = s_posonly s ++ s_args s) by (apply positional_keys; now split).
  rewrite (dupdate_fresh [] (map or_value (positional s))) by (cbn [dkeys map app]; rewrite dkeys_or_value, K; rewrite app_assoc in N; now apply NoDup_l in N). cbn [app].
  rewrite dupdate_fresh; [unfold seen; now rewrite map_app|]. rewrite !dkeys_or_value, K. unfold seen_kwonly. destruct (existsb has_default (s_kwonly s)); [now rewrite <- app_assoc|]. rewrite app_nil_r. rewrite app_assoc in N. now apply NoDup_l in N.
Qed.

Lemma dget_or_value l k d : NoDup (map fst l) -> In (k, d) l -> dget k (map or_value l) = Some (match d with Some v => v | None => none end).
Proof.
  intros N H. apply In_dget; [unfold dwf; now rewrite dkeys_or_value|]. apply in_map_iff. now exists (k, d).
Qed.
Lemma dmem_or_value l k : dmem k (map or_value l) = smem k (map fst l).
Proof.
  apply eq_iff_eq_true. rewrite smem_In. rewrite dmem_In. now rewrite dkeys_or_value.
Qed.

Lemma kwargs_for_spec c (s : sig V) : sig_ok s -> kwargs_for none c s = Ok (dfilter (fun k => smem k (map fst (seen s))) c).
Proof.
  intros H. unfold kwargs_for. rewrite args_dict_spec by exact H. f_equal. unfold dfilter. apply filter_ext. intros q. apply dmem_or_value.
Qed.

(* ------------------------------------------------------------------ *)
(** * Calls *)

Lemma fill_ok given (l : list (string * option V)) : (forall x, In (x, None) l -> dmem x given = true) ->
  fill given l = Ok (flat_map (fun q => match (match dget (fst q) given with Some v => Some v | None => snd q end) with Some v => [(fst q, v)] | None => [] end) l).
Proof.
  induction l as [|[x d] l IH]; intros H; [reflexivity|]. cbn [fill flat_map fst snd]. rewrite IH by (intros y Hy; apply H; now right).
  destruct (dget x given) as [v|] eqn:E; [reflexivity|]. destruct d as [v|]; [reflexivity|]. exfalso. specialize (H x (or_introl eq_refl)). unfold dmem in H. now rewrite E in H.
Qed.
Lemma fill_raises given (l : list (string * option V)) x : In (x, None) l -> dmem x given = false -> fill given l = Raise TypeError.
Proof.
  intros H Hx. induction l as [|[y d] l IH]; [destruct H|]. cbn [fill]. destruct H as [H|H].
  - injection H as -> ->. unfold dmem in Hx. now destruct (dget x given).
  - rewrite (IH H). destruct (dget y given); [reflexivity|]. destruct d; reflexivity.
Qed.
Lemma fill_get given (l : list (string * option V)) b : NoDup (map fst l) -> fill given l = Ok b ->
  forall x d, In (x, d) l -> dget x b = match dget x given with Some v => Some v | None => d end.
Proof.
  revert b. induction l as [|[y dy] l IH]; intros b N H x d Hin; [destruct Hin|]. cbn [map fst] in N. inversion N as [|? ? Hy N']; subst. cbn [fill] in H.
  destruct (match dget y given with Some v => Some v | None => dy end) as [v|] eqn:E; [|discriminate]. destruct (fill given l) as [r|] eqn:Er; [|discriminate]. injection H as <-. cbn [dget]. destruct Hin as [Hin|Hin].
  - injection Hin as -> ->. now rewrite String.eqb_refl.
  - destruct (String.eqb x y) eqn:Exy; [apply String.eqb_eq in Exy; subst; exfalso; apply Hy; apply in_map_iff; now exists (y, d)|]. now apply (IH r N' eq_refl).
Qed.
Lemma fill_keys given (l : list (string * option V)) b : fill given l = Ok b -> dkeys b = map fst l.
Proof.
  revert b. induction l as [|[y dy] l IH]; intros b H; cbn [fill] in H; [injection H as <-; reflexivity|].
  destruct (match dget y given with Some v => Some v | None => dy end) as [v|]; [|discriminate]. destruct (fill given l) as [r|]; [|discriminate]. injection H as <-. cbn. f_equal. now apply IH.
Qed.

Lemma nodup_params (s : sig V) : sig_ok s -> NoDup (map fst (params s)).
Proof. intros H. rewrite params_keys by exact H. apply H. Qed.

Lemma seen_in (s : sig V) x : sig_ok s -> (In x (map fst (seen s)) <-> In x (s_posonly s ++ s_args s) \/ In x (map fst (s_kwonly s)) /\ exists y v, In (y, Some v) (s_kwonly s)).
Proof.
  intros H. unfold seen. rewrite map_app, in_app_iff, positional_keys by exact H. unfold seen_kwonly. destruct (existsb has_default (s_kwonly s)) eqn:E.
  - apply existsb_exists in E. destruct E as ([y [v|]] & Hy & E); [|discriminate]. split; [intros [K|K]; [now left|right; eauto]|tauto].
  - split; [intros [K|[]]; now left|]. intros [K|[_ (y & v & Hy)]]; [now left|]. exfalso. assert (T : existsb has_default (s_kwonly s) = true) by (apply existsb_exists; exists (y, Some v); auto). congruence.
Qed.

Lemma seen_all (s : sig V) : visible s -> seen s = params s.
Proof.
  intros H. unfold seen, params, seen_kwonly. destruct H as [->|(y & v & H)]; [reflexivity|].
  assert (T : existsb has_default (s_kwonly s) = true) by (apply existsb_exists; exists (y, Some v); auto). now rewrite T.
Qed.

Lemma dfilter_all {A} p (d : dict A) : (forall k, In k (dkeys d) -> p k = true) -> dfilter p d = d.
Proof.
  induction d as [|[k v] d IH]; intros H; [reflexivity|]. cbn. rewrite (H k) by now left. f_equal. apply IH. intros k' Hk. apply H. now right.
Qed.
Lemma dfilter_nil {A} p (d : dict A) : (forall k, In k (dkeys d) -> p k = false) -> dfilter p d = [].
Proof.
  induction d as [|[k v] d IH]; intros H; [reflexivity|]. cbn. rewrite (H k) by now left. apply IH. intros k' Hk. apply H. now right.
Qed.
Lemma dkeys_dfilter {A} p (d : dict A) k : In k (dkeys (dfilter p d)) <-> In k (dkeys d) /\ p k = true.
Proof.
  unfold dkeys, dfilter. rewrite !in_map_iff. split.
  - intros (q & <- & H). apply filter_In in H. destruct H. split; [eauto|assumption].
  - intros [(q & <- & H) E]. exists q. split; [reflexivity|]. apply filter_In. auto.
Qed.

(** a call with entries of a config for parameters that can be given by name *)
Lemma call_named (s : sig V) pos kw : s_posonly s = [] -> length pos <= length (s_args s) -> (forall k, In k (dkeys kw) -> In k (s_args s ++ map fst (s_kwonly s))) ->
  call s pos kw = if existsb (fun k => dmem k (combine (s_args s) pos)) (dkeys kw) then Raise TypeError
                  else match fill (combine (s_args s) pos ++ kw) (params s) with Ok b => Ok (Bound b [] []) | Raise e => Raise e end.
Proof.
  intros P L K. unfold call. rewrite P. cbn [app]. rewrite skipn_all2 by exact L.
  assert (B : forall k, In k (dkeys kw) -> by_name s k = true) by (intros k Hk; apply smem_In; now apply K).
  rewrite (dfilter_all (by_name s) kw B). rewrite (dfilter_nil (fun k => negb (by_name s k)) kw) by (intros k Hk; now rewrite B). reflexivity.
Qed.

Lemma filtered_named (s : sig V) (c : dict V) : sig_ok s -> s_posonly s = [] -> forall k, In k (dkeys (dfilter (fun k => smem k (map fst (seen s))) c)) -> In k (s_args s ++ map fst (s_kwonly s)).
Proof.
  intros H P k Hk. apply dkeys_dfilter in Hk. destruct Hk as [_ Hk]. apply smem_In in Hk. apply (seen_in s k H) in Hk. rewrite P in Hk. cbn [app] in Hk. apply in_app_iff. tauto.
Qed.
Lemma filtered_get (s : sig V) (c : dict V) x : visible s -> In x (map fst (params s)) -> dget x (dfilter (fun k => smem k (map fst (seen s))) c) = dget x c.
Proof.
  intros Hv Hx. rewrite dget_dfilter. rewrite (seen_all s Hv). apply smem_In in Hx. now rewrite Hx.
Qed.
Lemma in_params_key (s : sig V) x d : In (x, d) (params s) -> In x (map fst (params s)).
Proof. intros H. apply in_map_iff. now exists (x, d). Qed.

Lemma call_function (s : sig V) (c : dict V) : sig_ok s -> s_posonly s = [] -> visible s -> (forall x, In (x, None) (params s) -> dmem x c = true) ->
  exists kw b, kwargs_for none c s = Ok kw /\ call s [] kw = Ok (Bound b [] []) /\ dkeys b = map fst (params s) /\
    forall x d, In (x, d) (params s) -> dget x b = match dget x c with Some v => Some v | None => d end.
Proof.
  intros H P Hv Hr. set (kw := dfilter (fun k => smem k (map fst (seen s))) c). assert (C : call s [] kw = match fill kw (params s) with Ok b => Ok (Bound b [] []) | Raise e => Raise e end).
  { rewrite call_named; [|exact P|cbn; lia|now apply filtered_named]. assert (E : combine (s_args s) (@nil V) = []) by (destruct (s_args s); reflexivity). rewrite E.
    assert (X : existsb (fun k => @dmem V k []) (dkeys kw) = false) by (induction (dkeys kw); [reflexivity|assumption]). rewrite X. reflexivity. }
  assert (F : forall x, In (x, None) (params s) -> dmem x kw = true).
  { intros x Hx. unfold dmem. unfold kw. rewrite filtered_get by (auto using (in_params_key s x None)). apply Hr, Hx. }
  apply fill_ok in F. destruct (fill kw (params s)) as [b|e] eqn:Ef; [|discriminate]. exists kw, b. split; [now apply kwargs_for_spec|]. split; [exact C|]. split; [now apply fill_keys in Ef|].
  intros x d Hx. rewrite (fill_get kw (params s) b (nodup_params s H) Ef x d Hx). unfold kw. now rewrite filtered_get by eauto using in_params_key.
Qed.

Lemma call_missing (s : sig V) pos kw x : In (x, None) (params s) -> dmem x (combine (s_posonly s ++ s_args s) pos) = false -> dmem x (dfilter (by_name s) kw) = false -> call s pos kw = Raise TypeError.
Proof.
  intros Hx H1 H2. unfold call. destruct (_ || _); [reflexivity|]. rewrite (fill_raises _ _ x Hx); [reflexivity|]. unfold dmem in *. rewrite dget_app. destruct (dget x (combine _ _)); [discriminate|]. exact H2.
Qed.
Lemma combine_nil_r (l : list string) : combine l (@nil V) = [].
Proof. now destruct l. Qed.

(* ------------------------------------------------------------------ *)
(** * Classes *)

Lemma call_self (s : sig V) self rest obj (kw : dict V) : sig_ok s -> s_posonly s = [] -> s_args s = self :: rest ->
  (forall k, In k (dkeys kw) -> In k (s_args s ++ map fst (s_kwonly s))) -> dmem self kw = false ->
  (forall x, In (x, None) (params s) -> x <> self -> dmem x kw = true) ->
  exists b, call s [obj] kw = Ok (Bound b [] []) /\ dkeys b = map fst (params s) /\ dget self b = Some obj /\
    forall x d, In (x, d) (params s) -> x <> self -> dget x b = match dget x kw with Some v => Some v | None => d end.
Proof.
  intros H P A K Hs Hr. rewrite (call_named s [obj] kw P) by (exact K || (rewrite A; cbn; lia)). rewrite A. cbn [combine]. replace (combine rest []) with (@nil (string * V)) by (now destruct rest).
  assert (X : existsb (fun k => dmem k [(self, obj)]) (dkeys kw) = false).
  { apply dmem_false in Hs. destruct (existsb _ _) eqn:E; [|reflexivity]. apply existsb_exists in E. destruct E as (k & Hk & E). unfold dmem in E. cbn in E. destruct (String.eqb k self) eqn:Ek; [|discriminate]. apply String.eqb_eq in Ek. subst. contradiction. }
  rewrite X. cbn [app]. assert (F : forall x, In (x, None) (params s) -> dmem x ((self, obj) :: kw) = true).
  { intros x Hx. unfold dmem. cbn [dget]. destruct (String.eqb x self) eqn:E; [reflexivity|]. apply String.eqb_neq in E. exact (Hr x Hx E). }
  apply fill_ok in F. destruct (fill ((self, obj) :: kw) (params s)) as [b|e] eqn:Ef; [|discriminate]. exists b. split; [reflexivity|]. split; [now apply fill_keys in Ef|].
  pose proof (fill_get _ _ b (nodup_params s H) Ef) as G. split.
  - assert (Hin : In self (map fst (params s))) by (rewrite params_keys by exact H; rewrite P, A; now left). apply in_map_iff in Hin. destruct Hin as ([x d] & E & Hx). cbn in E. subst x. rewrite (G self d Hx). cbn [dget]. now rewrite String.eqb_refl.
  - intros x d Hx N. rewrite (G x d Hx). cbn [dget]. apply String.eqb_neq in N. now rewrite N.
Qed.

Lemma call_twice (s : sig V) self rest obj (kw : dict V) : s_posonly s = [] -> s_args s = self :: rest -> dmem self kw = true -> call s [obj] kw = Raise TypeError.
Proof.
  intros P A Hs. unfold call. rewrite P, A. cbn [app combine]. replace (combine rest []) with (@nil (string * V)) by (now destruct rest).
  assert (X : existsb (fun k => dmem k [(self, obj)]) (dkeys (dfilter (by_name s) kw)) = true).
  { apply existsb_exists. exists self. split; [apply dkeys_dfilter; split; [now apply dmem_In|]|unfold dmem; cbn; now rewrite String.eqb_refl]. apply smem_In. rewrite A. now left. }
  rewrite X. now rewrite orb_true_r.
Qed.

Definition drop_first (s : sig V) : sig V :=
  match s_posonly s with
  | _ :: l => Sig l (s_args s) (s_defaults s) (s_varargs s) (s_kwonly s) (s_varkw s)
  | [] => Sig [] (tl (s_args s)) (s_defaults s) (s_varargs s) (s_kwonly s) (s_varkw s)
  end.
Lemma method_dict (s : sig V) : s_posonly s ++ s_args s <> [] -> function_args_as_dict none true s = function_args_as_dict none false (drop_first s).
Proof.
  intros H. unfold function_args_as_dict, drop_first. destruct (s_posonly s) as [|x l] eqn:P; unfold getfullargspec; rewrite P; cbn [app g_args g_defaults g_kwdefaults g_kwonly s_posonly s_args s_defaults s_kwonly]; [|reflexivity].
  destruct (s_args s); [now elim H|reflexivity].
Qed.

(** the parameters of a method without the first one *)
Lemma drop_params (s : sig V) self rest : s_posonly s = [] -> s_args s = self :: rest -> length (s_defaults s) <= length rest -> params s = (self, None) :: params (drop_first s).
Proof.
  intros P A L. unfold params, positional, drop_first. rewrite P, A. cbn [app s_posonly s_args s_defaults s_kwonly tl length]. replace (S (length rest) - length (s_defaults s)) with (S (length rest - length (s_defaults s))) by lia. reflexivity.
Qed.
Lemma drop_ok (s : sig V) self rest : sig_ok s -> s_posonly s = [] -> s_args s = self :: rest -> length (s_defaults s) <= length rest -> sig_ok (drop_first s).
Proof.
  intros [_ N] P A L. unfold drop_first, sig_ok. rewrite P, A in *. cbn [app s_posonly s_args s_defaults s_kwonly tl] in *. split; [exact L|]. now inversion N.
Qed.
End Sig.

(* ------------------------------------------------------------------ *)
(** * Signatures in the source *)

Definition src_dict (a : arguments) : dict (option expr) :=
  combine (map arg_name (a_args a)) (map Some (repeat ast_none (length (a_args a) - length (a_defaults a)) ++ a_defaults a)) ++ map (fun q => (arg_name (fst q), snd q)) (a_kwonly a).
Definition src_annotations (a : arguments) : dict expr := annotations_of (all_args a).

Lemma annotations_app l1 l2 : annotations_of (l1 ++ l2) = annotations_of l1 ++ annotations_of l2.
Proof. apply flat_map_app. Qed.
Lemma annotations_in l x e : In (x, e) (annotations_of l) <-> exists a e0, In a l /\ arg_name a = x /\ arg_ann a = Some e0 /\ e = strip_quotes e0.
Proof.
  unfold annotations_of. rewrite in_flat_map. split.
  - intros (a & Ha & H). destruct (arg_ann a) as [e0|] eqn:E; [|destruct H]. destruct H as [H|[]]. injection H as <- <-. now exists a, e0.
  - intros (a & e0 & Ha & <- & E & ->). exists a. split; [exact Ha|]. rewrite E. now left.
Qed.
Lemma annotations_nodup l : NoDup (map arg_name l) -> NoDup (dkeys (annotations_of l)).
Proof.
  induction l as [|a l IH]; [intros _; constructor|]. cbn [map]. inversion 1 as [|? ? Ha N]; subst. cbn [annotations_of flat_map]. fold (annotations_of l). destruct (arg_ann a) as [e|]; [|now apply IH]. cbn [app dkeys map fst]. constructor; [|now apply IH].
  intros K. apply Ha. apply in_map_iff in K. destruct K as ([x e0] & E & K). cbn in E. subst x. apply annotations_in in K. destruct K as (b & ? & Hb & E & _). rewrite <- E. now apply in_map.
Qed.

Lemma src_dict_keys a : length (a_defaults a) <= length (a_args a) -> dkeys (src_dict a) = map arg_name (all_args a).
Proof.
  intros L. unfold src_dict, all_args, dkeys. rewrite !map_app, !map_map. cbn [fst]. f_equal. rewrite <- map_app. apply dkeys_combine. rewrite !map_length, app_length, repeat_length. lia.
Qed.
Lemma args_dicts_spec a : args_ok a -> args_dicts a = if Nat.leb (length (a_defaults a)) (length (a_args a)) then Ok (src_dict a, src_annotations a) else Raise assertion_error.
Proof.
  intros N. unfold args_ok in N. apply NoDup_r in N. unfold args_dicts. rewrite app_length, repeat_length. destruct (Nat.leb _ _) eqn:L.
  - apply Nat.leb_le in L. replace (Nat.eqb _ _) with true by (symmetry; apply Nat.eqb_eq; lia). f_equal. f_equal.
    + pose proof (src_dict_keys a L) as K. assert (N2 : NoDup (dkeys (src_dict a))) by now rewrite K. unfold src_dict in N2 at 1. unfold dkeys in N2. rewrite map_app in N2.
      rewrite (dupdate_fresh [] _) by (cbn [dkeys map app]; now apply NoDup_l in N2). cbn [app]. now rewrite dupdate_fresh by exact N2.
    + unfold src_annotations, all_args. assert (N2 : NoDup (dkeys (annotations_of (a_args a) ++ annotations_of (map fst (a_kwonly a))))) by (rewrite <- annotations_app; now apply annotations_nodup). unfold dkeys in N2. rewrite map_app in N2.
      rewrite (dupdate_fresh [] _) by (cbn [dkeys map app]; now apply NoDup_l in N2). cbn [app]. rewrite dupdate_fresh by exact N2. symmetry. apply annotations_app.
  - apply Nat.leb_gt in L. replace (Nat.eqb _ _) with false; [reflexivity|]. symmetry. apply Nat.eqb_neq. lia.
Qed.

Lemma sig_of_ok {V} (ev : expr -> V) a : args_ok a -> length (a_defaults a) <= length (a_posonly a ++ a_args a) -> sig_ok (sig_of ev a).
Proof.
  intros N L. split; cbn [sig_of s_defaults s_posonly s_args s_kwonly].
  - rewrite app_length, !map_length. now rewrite app_length in L.
  - unfold args_ok, all_args in N. rewrite map_app, map_map in N. rewrite map_map. exact N.
Qed.
Lemma source_agrees {V} (ev : expr -> V) none a : args_ok a -> length (a_defaults a) <= length (a_args a) -> a_posonly a = [] -> (forall x, ~ In (x, None) (a_kwonly a)) -> ev ast_none = none ->
  function_args_as_dict none false (sig_of ev a) = Ok (map (fun q => (fst q, match snd q with Some e => ev e | None => none end)) (src_dict a)).
Proof.
  intros N L P K Hn. rewrite args_dict_spec by (apply sig_of_ok; [exact N|rewrite P; exact L]). f_equal. unfold src_dict. rewrite map_app.
  assert (Hv : visible (sig_of ev a)).
  { unfold visible. cbn [sig_of s_kwonly]. destruct (a_kwonly a) as [|[x [e|]] l]; [now left| |exfalso; apply (K x); now left]. right. exists (arg_name x), (ev e). now left. }
  rewrite (seen_all _ Hv). unfold params. rewrite map_app. f_equal.
  - unfold positional. cbn [sig_of s_posonly s_args s_defaults]. rewrite P. cbn [map app]. rewrite !map_length. generalize (length (a_args a) - length (a_defaults a)). intros n. generalize (map arg_name (a_args a)). intros l. revert n. generalize (a_defaults a). intros ds n. revert ds n. clear - Hn.
    induction l as [|x l IH]; intros ds n; [reflexivity|]. destruct n as [|n]; cbn [repeat app].
    + destruct ds as [|d ds]; [reflexivity|]. cbn [map combine]. unfold or_value at 1. cbn [fst snd]. f_equal. apply (IH ds 0).
    + cbn [map combine]. unfold or_value at 1. cbn [fst snd]. rewrite Hn. f_equal. apply IH.
  - cbn [sig_of s_kwonly]. rewrite !map_map. apply map_ext. intros [x [e|]]; reflexivity.
Qed.

(* ------------------------------------------------------------------ *)
(** * Names that are needed *)

Lemma extend_all_ok {A B} (f : A -> res (list B)) l bs : extend_all f l = Ok bs <-> exists ls, Forall2 (fun a b => f a = Ok b) l ls /\ bs = concat ls.
Proof.
  revert bs. induction l as [|a l IH]; intros bs; cbn [extend_all].
  - split; [intros H; injection H as <-; exists []; split; [constructor|reflexivity]|]. intros (ls & F & ->). inversion F. reflexivity.
  - split.
    + destruct (f a) as [b|e] eqn:Ea; [|discriminate]. destruct (extend_all f l) as [cs|e] eqn:El; [|discriminate]. intros H. injection H as <-. destruct (proj1 (IH cs) eq_refl) as (ls & F & ->). exists (b :: ls). split; [now constructor|reflexivity].
    + intros (ls & F & ->). inversion F as [|? b ? ls' Ea F']; subst. rewrite Ea. rewrite (proj2 (IH (concat ls'))) by eauto. reflexivity.
Qed.
Lemma extend_all_raise {A B} (f : A -> res (list B)) l e : extend_all f l = Raise e -> exists a, In a l /\ f a = Raise e.
Proof.
  induction l as [|a l IH]; cbn [extend_all]; [discriminate|]. destruct (f a) as [b|e'] eqn:Ea.
  - destruct (extend_all f l) as [cs|e'']; [discriminate|]. intros H. destruct (IH H) as (x & Hx & Ex). exists x. split; [now right|exact Ex].
  - intros H. injection H as ->. exists a. split; [now left|exact Ea].
Qed.

Section ExprInd.
Variable Q : expr -> Prop.
Hypothesis HName : forall n, Q (Name n).
Hypothesis HAttr : forall e a, Q e -> Q (Attr e a).
Hypothesis HSub : forall e i, Q e -> Q i -> Q (Sub e i).
Hypothesis HElts : forall l, Forall Q l -> Q (Elts l).
Hypothesis HStr : forall s, Q (Str s).
Hypothesis HOther : forall t l, Forall Q l -> Q (Other t l).
Fixpoint expr_ind2 (e : expr) : Q e :=
  match e with
  | Name n => HName n
  | Attr e a => HAttr e a (expr_ind2 e)
  | Sub e i => HSub e i (expr_ind2 e) (expr_ind2 i)
  | Elts l => HElts l ((fix go l := match l return Forall Q l with [] => Forall_nil Q | x :: l' => Forall_cons x (expr_ind2 x) (go l') end) l)
  | Str s => HStr s
  | Other t l => HOther t l ((fix go l := match l return Forall Q l with [] => Forall_nil Q | x :: l' => Forall_cons x (expr_ind2 x) (go l') end) l)
  end.
End ExprInd.

Lemma annotation_names_elts l : annotation_names (Elts l) = extend_all annotation_names l.
Proof. cbn [annotation_names]. induction l as [|x l IH]; [reflexivity|]. cbn [extend_all]. destruct (annotation_names x); [|reflexivity]. now rewrite IH. Qed.
Lemma annotation_names_iff e : forall l, annotation_names e = Ok l <-> annotated e l.
Proof.
  induction e as [n|e a IH|e i IHe IHi|es IH|s|t es IH] using expr_ind2; intros l.
  - split; [intros H; injection H as <-; constructor|inversion 1; reflexivity].
  - destruct e; cbn [annotation_names]; (split; [intros H; try discriminate; injection H as <-; constructor|inversion 1; reflexivity]).
  - cbn [annotation_names]. split.
    + destruct (annotation_names e) as [b|] eqn:Ee; [|discriminate]. destruct (annotation_names i) as [c|] eqn:Ei; [|discriminate]. intros H. injection H as <-. constructor; [now apply IHe|now apply IHi].
    + inversion 1; subst. rewrite (proj2 (IHe l0)) by assumption. now rewrite (proj2 (IHi l')) by assumption.
  - rewrite annotation_names_elts, extend_all_ok. assert (F2 : forall ls, Forall2 (fun a b => annotation_names a = Ok b) es ls <-> Forall2 annotated es ls).
    { intros ls. revert ls. induction IH as [|x es Hx IH IHes]; intros ls; split; inversion 1; subst; constructor; try (now apply Hx); now apply IHes. }
    split; [intros (ls & F & ->); constructor; now apply F2|]. inversion 1; subst. exists ls. split; [now apply F2|reflexivity].
  - split; [intros H; injection H as <-; constructor|inversion 1; reflexivity].
  - cbn. split; [discriminate|inversion 1].
Qed.

Lemma Forall2_in_l {A B} (R : A -> B -> Prop) l ls a : Forall2 R l ls -> In a l -> exists b, In b ls /\ R a b.
Proof. induction 1 as [|x y l ls Hxy F IH]; [intros []|]. intros [<-|H]; [exists y; split; [now left|exact Hxy]|]. destruct (IH H) as (b & Hb & Hr). exists b. split; [now right|exact Hr]. Qed.
Lemma Forall2_in_r {A B} (R : A -> B -> Prop) l ls b : Forall2 R l ls -> In b ls -> exists a, In a l /\ R a b.
Proof. induction 1 as [|x y l ls Hxy F IH]; [intros []|]. intros [<-|H]; [exists x; split; [now left|exact Hxy]|]. destruct (IH H) as (a & Ha & Hr). exists a. split; [now right|exact Hr]. Qed.
Lemma Forall2_make {A B} (R : A -> B -> Prop) l : (forall a, In a l -> exists b, R a b) -> exists ls, Forall2 R l ls.
Proof. induction l as [|a l IH]; intros H; [exists []; constructor|]. destruct (H a (or_introl eq_refl)) as [b Hb]. destruct IH as [ls F]; [intros x Hx; apply H; now right|]. exists (b :: ls). now constructor. Qed.

Lemma combine_in_r {A B} (l : list A) (l' : list B) y : length l' <= length l -> In y l' -> exists x, In (x, y) (combine l l').
Proof.
  revert l. induction l' as [|b l' IH]; intros l L H; [destruct H|]. destruct l as [|a l]; [cbn in L; lia|]. destruct H as [->|H]; [exists a; now left|]. destruct (IH l) as [x Hx]; [cbn in L; lia|exact H|]. exists x. now right.
Qed.

Section Names.
Variable set_list : list string -> list string.
Variable is_builtin_type : string -> bool.
Hypothesis So : set_order set_list.

Lemma named_names e : named e (expr_names e).
Proof.
  induction e as [n|e a IH|e i IH1 IH2|l IH|s|lb l IH] using expr_ind2; cbn [expr_names].
  - apply named_name.
  - now apply named_attr.
  - now apply named_sub.
  - rewrite flat_map_concat_map. apply named_elts. induction IH as [|x l Hx _ IH]; cbn [map]; auto.
  - apply named_str.
  - rewrite flat_map_concat_map. apply named_other. induction IH as [|x l Hx _ IH]; cbn [map]; auto.
Qed.
Lemma named_only e : forall l, named e l -> l = expr_names e.
Proof.
  induction e as [n|e a IH|e i IH1 IH2|l IH|s|lb l IH] using expr_ind2; intros l0 H; inversion H; subst; cbn [expr_names]; auto.
  - f_equal; auto.
  - rewrite flat_map_concat_map. f_equal. clear H. match goal with F : Forall2 named _ _ |- _ => revert IH; induction F as [|x y l ls Hx _ IHF]; intro IH; [reflexivity|] end.
    inversion IH; subst. cbn [map]. f_equal; auto.
  - rewrite flat_map_concat_map. f_equal. clear H. match goal with F : Forall2 named _ _ |- _ => revert IH; induction F as [|x y l ls Hx _ IHF]; intro IH; [reflexivity|] end.
    inversion IH; subst. cbn [map]. f_equal; auto.
Qed.
Lemma named_iff e l : named e l <-> expr_names e = l.
Proof. split; [intro H; symmetry; now apply named_only|intros <-; apply named_names]. Qed.
Lemma view_named e n : named e [n] -> view_name e = Ok (Some n).
Proof. intro H. apply named_iff in H. unfold view_name. now rewrite H. Qed.
Lemma needs_iff bt a n : needs bt a n <->
  (exists e, In e (a_defaults a) /\ In n (expr_names e)) \/
  (exists x e, In (x, Some e) (a_kwonly a) /\ In n (expr_names e)) \/
  (exists x e l, In x (all_args a) /\ arg_ann x = Some e /\ annotated (strip_quotes e) l /\ In n l /\ bt n = false).
Proof.
  unfold needs. split; (intros [H|[H|H]]; [left|right; left|right; right; exact H]).
  - destruct H as (e & l & H & N & I). apply named_iff in N. subst l. eauto.
  - destruct H as (x & e & l & H & N & I). apply named_iff in N. subst l. eauto.
  - destruct H as (e & H & I). exists e, (expr_names e). split; [exact H|]. split; [apply named_names|exact I].
  - destruct H as (x & e & H & I). exists x, e, (expr_names e). split; [exact H|]. split; [apply named_names|exact I].
Qed.
Lemma imports_as_module j n m x : imports_as j n m x -> imp_module j = Ok m.
Proof. intros [(r & [-> | (os & ->)]) _]; reflexivity. Qed.

Lemma default_names_ok (d : dict (option expr)) : (forall x, ~ In (x, None) d) -> exists l, default_names set_list d = Ok l.
Proof.
  intros H. unfold default_names. destruct (extend_all _ d) as [l|e] eqn:E; [eauto|]. exfalso. apply extend_all_raise in E. destruct E as ([x o] & Hx & E). destruct o; [discriminate|]. now apply (H x).
Qed.
Lemma default_names_spec (d : dict (option expr)) l : default_names set_list d = Ok l ->
  (forall x, ~ In (x, None) d) /\ forall n, In n l <-> exists x e, In (x, Some e) d /\ In n (expr_names e).
Proof.
  unfold default_names. destruct (extend_all _ d) as [l0|e] eqn:E; [|discriminate]. intros H. injection H as <-. apply extend_all_ok in E. destruct E as (ls & F & ->). split.
  - intros x Hx. destruct (Forall2_in_l _ _ _ _ F Hx) as (b & _ & Hb). discriminate.
  - intros n. rewrite (proj2 (So _)), in_concat. split.
    + intros (l & Hl & Hn). destruct (Forall2_in_r _ _ _ _ F Hl) as ([x [e|]] & Hx & Hr); [|discriminate]. cbn in Hr. injection Hr as <-. rewrite (proj2 (So _)) in Hn. exists x, e. auto.
    + intros (x & e & Hx & Hn). destruct (Forall2_in_l _ _ _ _ F Hx) as (b & Hb & Hr). cbn in Hr. injection Hr as <-. exists (set_list (expr_names e)). split; [exact Hb|]. now apply (proj2 (So _)).
Qed.
Lemma external_annotations_ok (d : dict expr) : (forall x e, In (x, e) d -> exists l, annotated e l) -> exists l, external_annotations set_list is_builtin_type d = Ok l.
Proof.
  intros H. unfold external_annotations. destruct (extend_all _ d) as [l|e] eqn:E; [eauto|]. exfalso. apply extend_all_raise in E. destruct E as ([x o] & Hx & E). destruct (H x o Hx) as [l Hl]. apply annotation_names_iff in Hl. cbn in E. congruence.
Qed.
Lemma external_annotations_spec (d : dict expr) l : external_annotations set_list is_builtin_type d = Ok l ->
  (forall x e, In (x, e) d -> exists l, annotated e l) /\ forall n, In n l <-> exists x e l, In (x, e) d /\ annotated e l /\ In n l /\ is_builtin_type n = false.
Proof.
  unfold external_annotations. destruct (extend_all _ d) as [l0|e] eqn:E; [|discriminate]. intros H. injection H as <-. apply extend_all_ok in E. destruct E as (ls & F & ->). split.
  - intros x e Hx. destruct (Forall2_in_l _ _ _ _ F Hx) as (b & _ & Hb). exists b. now apply annotation_names_iff.
  - intros n. rewrite filter_In, (proj2 (So _)), in_concat, negb_true_iff. split.
    + intros [(l & Hl & Hn) Hb]. destruct (Forall2_in_r _ _ _ _ F Hl) as ([x e] & Hx & Hr). apply annotation_names_iff in Hr. exists x, e, l. auto.
    + intros (x & e & l & Hx & Ha & Hn & Hb). split; [|exact Hb]. destruct (Forall2_in_l _ _ _ _ F Hx) as (b & Hbl & Hr). apply annotation_names_iff in Ha. cbn in Hr. assert (b = l) by congruence. subst. eauto.
Qed.

Lemma src_dict_none a x : length (a_defaults a) <= length (a_args a) -> In (x, None) (src_dict a) <-> exists y, In (y, None) (a_kwonly a) /\ arg_name y = x.
Proof.
  intros L. unfold src_dict. rewrite in_app_iff, in_map_iff. split.
  - intros [H|((y & o) & E & H)]; [|cbn in E; injection E as <- ->; eauto]. apply in_combine_r in H. apply in_map_iff in H. destruct H as (e & H & _). discriminate.
  - intros (y & H & <-). right. exists (y, None). auto.
Qed.
Lemma src_dict_names a n : length (a_defaults a) <= length (a_args a) -> (exists x e, In (x, Some e) (src_dict a) /\ In n (expr_names e)) <->
  (exists e, In e (a_defaults a) /\ In n (expr_names e)) \/ (exists x e, In (x, Some e) (a_kwonly a) /\ In n (expr_names e)).
Proof.
  intros L. unfold src_dict. split.
  - intros (x & e & H & Hn). apply in_app_iff in H. destruct H as [H|H].
    + left. apply in_combine_r in H. apply in_map_iff in H. destruct H as (e' & E & H). injection E as ->. apply in_app_iff in H. destruct H as [H|H]; [apply repeat_spec in H; subst e; destruct Hn|exists e; auto].
    + right. apply in_map_iff in H. destruct H as ([y o] & E & H). cbn in E. injection E as <- ->. eauto.
  - intros [(e & H & Hn)|(x & e & H & Hn)].
    + destruct (combine_in_r (map arg_name (a_args a)) (map Some (repeat ast_none (length (a_args a) - length (a_defaults a)) ++ a_defaults a)) (Some e)) as [x Hx].
      * rewrite !map_length, app_length, repeat_length. lia.
      * apply in_map. apply in_app_iff. now right.
      * exists x, e. split; [apply in_app_iff; now left|exact Hn].
    + exists (arg_name x), e. split; [|exact Hn]. apply in_app_iff. right. apply in_map_iff. exists (x, Some e). auto.
Qed.
Lemma src_annotations_all a (R : expr -> Prop) : (forall x e, In (x, e) (src_annotations a) -> R e) <-> (forall x e, In x (all_args a) -> arg_ann x = Some e -> R (strip_quotes e)).
Proof.
  unfold src_annotations. split.
  - intros H x e Hx E. apply (H (arg_name x)). apply annotations_in. now exists x, e.
  - intros H x e Hx. apply annotations_in in Hx. destruct Hx as (b & e0 & Hb & _ & E & ->). eauto.
Qed.

Lemma external_names_ok a : length (a_defaults a) <= length (a_args a) -> plain a -> exists l, external_names set_list is_builtin_type (src_dict a) (src_annotations a) = Ok l.
Proof.
  intros L (_ & K & A). unfold external_names. destruct (default_names_ok (src_dict a)) as [l1 ->]; [intros x H; apply (src_dict_none a x L) in H; destruct H as (y & H & _); now apply (K y)|].
  destruct (external_annotations_ok (src_annotations a)) as [l2 ->]; [|eauto]. exact (proj2 (src_annotations_all a (fun e => exists l, annotated e l)) A).
Qed.
Lemma external_names_spec a l : length (a_defaults a) <= length (a_args a) -> external_names set_list is_builtin_type (src_dict a) (src_annotations a) = Ok l ->
  plain a /\ NoDup l /\ forall n, In n l <-> needs is_builtin_type a n.
Proof.
  intros L. unfold external_names. destruct (default_names set_list _) as [l1|] eqn:E1; [|discriminate]. destruct (external_annotations _ _ _) as [l2|] eqn:E2; [|discriminate]. intros H. injection H as <-.
  apply default_names_spec in E1. apply external_annotations_spec in E2. destruct E1 as [N1 S1], E2 as [N2 S2]. split; [|split].
  - split; [exact L|]. split; [|exact (proj1 (src_annotations_all a (fun e => exists l, annotated e l)) N2)]. intros x Hx. apply (N1 (arg_name x)). apply src_dict_none; [exact L|eauto].
  - apply (So _).
  - intros n. rewrite (proj2 (So _)), in_app_iff, S1, S2, (src_dict_names a n L), needs_iff. split.
    + intros [[H|H]|(x & e & l & Hx & H)]; [auto|auto|]. right. right. apply annotations_in in Hx. destruct Hx as (b & e0 & Hb & _ & E & ->). exists b, e0, l. tauto.
    + intros [H|[H|(x & e & l & Hx & E & H)]]; [auto|auto|]. right. exists (arg_name x), (strip_quotes e), l. split; [|tauto]. apply annotations_in. now exists x, e.
Qed.

Lemma arg_imports_spec a imports assigns m l : args_ok a -> arg_imports set_list is_builtin_type a imports assigns m = Ok l <->
  plain a /\ exists names js, external_names set_list is_builtin_type (src_dict a) (src_annotations a) = Ok names /\ NoDup names /\ (forall n, In n names <-> needs is_builtin_type a n) /\
    Forall2 (fun n j => get_import_for_name n imports = Ok j) names js /\ l = map (fun n => ObjImp [n] m []) (filter (contains_varname assigns) names) ++ js.
Proof.
  intros Ha. unfold arg_imports. rewrite args_dicts_spec by exact Ha. destruct (Nat.leb _ _) eqn:L; [|split; [discriminate|intros [(H & _) _]; apply Nat.leb_gt in L; lia]]. apply Nat.leb_le in L.
  assert (C : forall names js, extend_all (fun n => match get_import_for_name n imports with Ok j => Ok [j] | Raise e => Raise e end) names = Ok js <-> Forall2 (fun n j => get_import_for_name n imports = Ok j) names js).
  { induction names as [|n names IH]; intros js; cbn [extend_all]; [split; [intros H; injection H as <-; constructor|inversion 1; reflexivity]|]. split.
    - destruct (get_import_for_name n imports) as [j|] eqn:E; [|discriminate]. destruct (extend_all _ names) as [js'|] eqn:E'; [|discriminate]. intros H. injection H as <-. constructor; [exact E|now apply IH].
    - inversion 1 as [|? j ? js' E F]; subst. rewrite E. now rewrite (proj2 (IH js') F). }
  split.
  - destruct (external_names _ _ _ _) as [names|] eqn:E; [|discriminate]. destruct (extend_all _ names) as [js|] eqn:Ej; [|discriminate]. intros H. injection H as <-. destruct (external_names_spec a names L E) as (P & N & S). split; [exact P|]. exists names, js. apply C in Ej. auto.
  - intros [P (names & js & E & N & S & F & ->)]. rewrite E. now rewrite (proj2 (C names js) F).
Qed.
End Names.

(* ------------------------------------------------------------------ *)
(** * Finding the definition *)

Lemma bound_mentioned l n m x : bound_to l n = Some (m, Some x) -> exists i, In i l /\ mentions i n.
Proof.
  unfold bound_to. assert (K : forall bs acc, fold_left (fun acc (b : binding) => if String.eqb (fst b) n then Some (snd b) else acc) bs acc = Some (m, Some x) -> acc = Some (m, Some x) \/ In (n, (m, Some x)) bs).
  { induction bs as [|b bs IH]; intros acc H; [now left|]. cbn [fold_left] in H. apply IH in H. destruct H as [H|H]; [|right; now right]. destruct (String.eqb (fst b) n) eqn:E; [|now left]. apply String.eqb_eq in E. right. left. destruct b as [y t]. cbn in *. congruence. }
  intros H. apply K in H. destruct H as [H|H]; [discriminate|]. apply in_flat_map in H. destruct H as (i & Hi & H). exists i. split; [exact Hi|]. unfold bindings in H. apply in_flat_map in H. destruct H as ([y o] & Ha & H). unfold alias_bindings in H. cbn [fst snd] in H.
  destruct i as [ms r|os mo r]; cbn [module_of aliases_of] in *; apply in_map_iff in Ha; destruct Ha as (z & E & Hz); injection E as -> E.
  - destruct o; destruct H as [H|[]]; discriminate.
  - unfold mentions. cbn [originals new_names]. destruct o as [y'|].
    + destruct H as [H|[]]. injection H as -> -> ->. right. assert (Kr : forall r d0, dget x (fold_left (fun d q => dset (fst q) (snd q) d) r d0) = Some n -> dget x d0 = Some n \/ In (x, n) r).
      { clear. induction r as [|[p q] r IH]; intros d0 H; [now left|]. cbn [fold_left fst snd] in H. apply IH in H. destruct H as [H|H]; [|right; now right]. rewrite dget_dset in H. destruct (String.eqb x p) eqn:E; [|now left]. apply String.eqb_eq in E. right. left. congruence. }
      apply Kr in E. destruct E as [E|E]; [discriminate|]. apply in_map_iff. now exists (x, n).
    + destruct (String.eqb y "*"); [destruct H|]. destruct H as [H|[]]. injection H as -> -> _. now left.
Qed.

Lemma import_found l n m x : clear_for l n -> bound_to l n = Some (m, Some x) -> exists j, get_import_for_name n l = Ok j /\ imports_as j n m x.
Proof.
  intros (Hn & Hs & Hh & Hu) B. destruct (get_import_for_name n l) as [j|e] eqn:G.
  - exists j. split; [reflexivity|]. destruct (C48_gives_the_binding n l j Hn Hs Hh Hu G) as (t & Bj & Bt). assert (t = (m, Some x)) by congruence. subst t. apply get_import_ok in G. destruct G as (pre & i & post & -> & _ & E).
    destruct i as [ms r|os mo r].
    + exfalso. cbn [import_of] in E. destruct (smem n ms); [injection E as <-; discriminate|]. destruct (smem n (map snd r)); [|discriminate]. injection E as <-. unfold bindings in Bj. cbn [module_of aliases_of map flat_map] in Bj. unfold alias_bindings in Bj. cbn [fst snd] in Bj. destruct (dget _ _); cbn [app] in Bj; discriminate.
    + destruct (smem n os) eqn:So.
      * cbn [import_of] in E. rewrite So in E. injection E as <-. unfold bindings in Bj. cbn [module_of aliases_of map flat_map item_map fold_left dget alias_bindings fst snd] in Bj. destruct (String.eqb n "*"); [discriminate|]. cbn [app] in Bj. injection Bj as -> ->. split; [exists []; right; eexists; reflexivity|reflexivity].
      * assert (No : ~ In n (originals (ObjImp os mo r))) by (cbn; intros H; apply smem_In in H; congruence). cbn [import_of] in E. rewrite So in E. destruct (smem n (map snd r)) eqn:Sr; [|discriminate]. apply smem_In in Sr.
        destruct (import_of_new n (ObjImp os mo r) No Sr) as (j' & pre' & y & post' & E' & Hm & Ha & _). cbn [import_of] in E'. rewrite So in E'. rewrite (proj2 (smem_In _ _) Sr) in E'. cbv zeta in *. assert (j' = j) by congruence. subst j'. unfold bindings in Bj. rewrite Hm, Ha in Bj. cbn in Bj. injection Bj as -> ->. injection E as <-. split; [eexists; right; eexists; reflexivity|].
        cbn [imp_renames]. cbn [aliases_of map] in Ha. assert (Ey : reverse_name (filter (fun q => String.eqb (snd q) n) r) n = x) by congruence.
        assert (T : smem n (map snd (filter (fun q => String.eqb (snd q) n) r)) = true).
        { apply smem_In. apply in_map_iff in Sr. destruct Sr as (q & Eq & Hq). apply in_map_iff. exists q. split; [exact Eq|]. apply filter_In. split; [exact Hq|]. now apply String.eqb_eq. }
        now rewrite T.
  - exfalso. apply get_import_raises in G. destruct G as [_ G]. destruct (bound_mentioned l n m x B) as (i & Hi & Hm). now apply (G i).
Qed.

Lemma extract_finds sl bt file_of m name m2 d : stands_for file_of m name m2 d -> clear_files file_of ->
  exists k f, file_of m2 = Ok f /\ forall fuel j n, k <= fuel -> imports_as j n m name -> extract_args sl bt fuel file_of n j = read_def sl bt f m2 d.
Proof.
  intros H C. induction H as [m name f d Ef Ed|m name f m' name' m2 d Ef Ed B H IH].
  - exists 1, f. split; [exact Ef|]. intros [|fuel] j n L Hi; [lia|]. pose proof (imports_as_module _ _ _ _ Hi) as Hm. destruct Hi as [_ Hx]. cbn [extract_args]. rewrite Hm, Ef. cbv zeta. rewrite Hx. unfold find_def. rewrite Ed. destruct d as [dn a]. reflexivity.
  - destruct IH as (k & f2 & E2 & IH). exists (S k), f2. split; [exact E2|]. intros [|fuel] j n L Hi; [lia|]. pose proof (imports_as_module _ _ _ _ Hi) as Hm. destruct Hi as [_ Hx]. cbn [extract_args]. rewrite Hm, Ef. cbv zeta. rewrite Hx. unfold find_def. rewrite Ed.
    destruct (import_found (src_imports f) name m' name' (C m f name _ Ef B) B) as (j' & Ej & Hj). rewrite Ej. apply IH; [lia|exact Hj].
Qed.
Lemma extract_only sl bt file_of : forall fuel n i a l, extract_args sl bt fuel file_of n i = Ok (a, l) ->
  exists m f name d, file_of m = Ok f /\ flat_map (defs_in name) (src_body f) = [d] /\ read_def sl bt f m d = Ok (a, l).
Proof.
  induction fuel as [|fuel IH]; intros n i a l H; [discriminate|]. cbn [extract_args] in H. destruct (imp_module i) as [m|]; [|discriminate]. destruct (file_of m) as [f|] eqn:Ef; [|discriminate]. cbv zeta in H.
  set (name := if smem n (map snd (imp_renames i)) then reverse_name (imp_renames i) n else n) in *. unfold find_def in H. destruct (flat_map (defs_in name) (src_body f)) as [|[dn da] [|]] eqn:Ed; [| |discriminate].
  - destruct (get_import_for_name name (src_imports f)) as [j|]; [|discriminate]. now apply IH in H.
  - exists m, f, name, (dn, da). auto.
Qed.

(* ------------------------------------------------------------------ *)
(** * More about calls *)

Section More.
Context {V : Type}.
Variable none : V.

Lemma passed_iff (s : sig V) (c : dict V) : sig_ok s -> exists kw, kwargs_for none c s = Ok kw /\
  forall k v, dget k kw = Some v <-> dget k c = Some v /\ (In k (s_posonly s ++ s_args s) \/ In k (map fst (s_kwonly s)) /\ exists y w, In (y, Some w) (s_kwonly s)).
Proof.
  intros H. eexists. split; [now apply kwargs_for_spec|]. intros k v. rewrite dget_dfilter. rewrite <- (seen_in s k H). destruct (smem k (map fst (seen s))) eqn:E.
  - apply smem_In in E. tauto.
  - split; [discriminate|]. intros [_ K]. apply smem_In in K. congruence.
Qed.

Lemma dmem_dfilter_false (p : string -> bool) (c : dict V) k : dmem k c = false \/ p k = false -> dmem k (dfilter p c) = false.
Proof. unfold dmem. rewrite dget_dfilter. destruct (p k); [|reflexivity]. intros [H|H]; [exact H|discriminate]. Qed.

Lemma run_missing (s : sig V) (c : dict V) x : sig_ok s -> In (x, None) (params s) -> dmem x c = false -> exists kw, kwargs_for none c s = Ok kw /\ call s [] kw = Raise TypeError.
Proof.
  intros H Hx Hc. eexists. split; [now apply kwargs_for_spec|]. apply (call_missing s [] _ x Hx); [rewrite combine_nil_r; reflexivity|]. now repeat (apply dmem_dfilter_false; left).
Qed.
Lemma run_kwonly (s : sig V) (c : dict V) : sig_ok s -> s_kwonly s <> [] -> (forall y w, ~ In (y, Some w) (s_kwonly s)) -> exists kw, kwargs_for none c s = Ok kw /\ call s [] kw = Raise TypeError.
Proof.
  intros H K N. eexists. split; [now apply kwargs_for_spec|]. destruct (s_kwonly s) as [|[x [v|]] l] eqn:E; [now elim K|exfalso; apply (N x v); now left|].
  apply (call_missing s [] _ x); [unfold params; rewrite E; apply in_or_app; right; now left|rewrite combine_nil_r; reflexivity|]. apply dmem_dfilter_false. left. apply dmem_dfilter_false. right.
  destruct (smem x (map fst (seen s))) eqn:M; [|reflexivity]. apply smem_In in M. apply (seen_in s x H) in M. destruct H as [_ H]. rewrite E in M, H. destruct M as [M|[_ (y & w & M)]]; [|now elim (N y w)].
  exfalso. cbn [map fst] in H. rewrite app_assoc in H. apply NoDup_remove_2 in H. apply H. apply in_or_app. now left.
Qed.
Lemma posonly_not_named (s : sig V) x : sig_ok s -> In x (s_posonly s) -> by_name s x = false.
Proof.
  intros [_ N] Hx. unfold by_name. destruct (smem _ _) eqn:E; [|reflexivity]. apply smem_In in E. exfalso. induction (s_posonly s) as [|y l IH]; [destruct Hx|]. cbn in N. inversion N as [|? ? Hy N']; subst. destruct Hx as [->|Hx]; [apply Hy; apply in_or_app; now right|now apply IH].
Qed.
Lemma run_posonly_required (s : sig V) (c : dict V) x : sig_ok s -> In x (s_posonly s) -> In (x, None) (params s) -> exists kw, kwargs_for none c s = Ok kw /\ call s [] kw = Raise TypeError.
Proof.
  intros H Hx Hr. eexists. split; [now apply kwargs_for_spec|]. apply (call_missing s [] _ x Hr); [rewrite combine_nil_r; reflexivity|]. apply dmem_dfilter_false. right. now apply posonly_not_named.
Qed.
Lemma seen_posonly (s : sig V) x : sig_ok s -> In x (s_posonly s) -> smem x (map fst (seen s)) = true.
Proof. intros H Hx. apply smem_In. apply (seen_in s x H). left. apply in_or_app. now left. Qed.
Lemma run_posonly_named (s : sig V) (c : dict V) x : sig_ok s -> In x (s_posonly s) -> dmem x c = true -> s_varkw s = false -> exists kw, kwargs_for none c s = Ok kw /\ call s [] kw = Raise TypeError.
Proof.
  intros H Hx Hc Hk. eexists. split; [now apply kwargs_for_spec|]. unfold call. set (kw := dfilter _ c).
  assert (E : In x (dkeys (dfilter (fun k => negb (by_name s k)) kw))).
  { apply dkeys_dfilter. split; [|now rewrite posonly_not_named]. apply dkeys_dfilter. split; [now apply dmem_In|now apply seen_posonly]. }
  destruct (dfilter (fun k => negb (by_name s k)) kw); [destruct E|]. rewrite Hk. cbn [negb]. now rewrite orb_true_r.
Qed.
Lemma run_posonly_kwargs (s : sig V) (c : dict V) x v w b : sig_ok s -> In x (s_posonly s) -> dget x c = Some v -> In (x, Some w) (params s) ->
  forall kw, kwargs_for none c s = Ok kw -> call s [] kw = Ok b -> dget x (b_params b) = Some w /\ dget x (b_kwargs b) = Some v.
Proof.
  intros H Hx Hc Hw kw Hkw. rewrite kwargs_for_spec in Hkw by exact H. injection Hkw as <-. unfold call. rewrite combine_nil_r. destruct (_ || _); [discriminate|]. cbn [app]. set (kw := dfilter _ c). destruct (fill _ _) as [r|] eqn:E; [|discriminate]. intros K. injection K as <-. cbn [b_params b_kwargs]. split.
  - rewrite (fill_get _ _ _ (nodup_params s H) E x _ Hw). rewrite dget_dfilter. now rewrite posonly_not_named.
  - rewrite dget_dfilter, posonly_not_named by assumption. cbn [negb]. unfold kw. now rewrite dget_dfilter, seen_posonly.
Qed.

(** classes and objects *)
Lemma class_runs (s : sig V) (c : dict V) self rest obj : sig_ok s -> s_posonly s = [] -> s_args s = self :: rest -> visible s -> dmem self c = false ->
  (forall x, In (x, None) (params s) -> x <> self -> dmem x c = true) ->
  exists kw b, kwargs_for none c s = Ok kw /\ call s [obj] kw = Ok (Bound b [] []) /\ dget self b = Some obj /\
    forall x d, In (x, d) (params s) -> x <> self -> dget x b = match dget x c with Some v => Some v | None => d end.
Proof.
  intros H P A Hv Hs Hr. set (kw := dfilter (fun k => smem k (map fst (seen s))) c). assert (G : forall x d, In (x, d) (params s) -> dget x kw = dget x c) by (intros x d Hx; unfold kw; rewrite filtered_get by eauto using in_params_key; reflexivity).
  destruct (call_self s self rest obj kw H P A) as (b & Hb & _ & Hself & Hx); [now apply filtered_named|now apply dmem_dfilter_false; left|intros x Hx N; unfold dmem; rewrite (G x None Hx); now apply Hr|].
  exists kw, b. split; [now apply kwargs_for_spec|]. split; [exact Hb|]. split; [exact Hself|]. intros x d Hd N. rewrite (Hx x d Hd N). now rewrite (G x d Hd).
Qed.
Lemma class_self (s : sig V) (c : dict V) self rest obj : sig_ok s -> s_posonly s = [] -> s_args s = self :: rest -> dmem self c = true -> exists kw, kwargs_for none c s = Ok kw /\ call s [obj] kw = Raise TypeError.
Proof.
  intros H P A Hs. eexists. split; [now apply kwargs_for_spec|]. apply (call_twice s self rest obj); [exact P|exact A|]. unfold dmem. rewrite dget_dfilter. replace (smem self _) with true; [exact Hs|]. symmetry. apply smem_In. apply (seen_in s self H). left. rewrite P, A. now left.
Qed.

Lemma drop_visible (s : sig V) : visible s -> visible (drop_first s).
Proof. unfold visible, drop_first. destruct (s_posonly s); auto. Qed.
Lemma drop_kwonly (s : sig V) : s_kwonly (drop_first s) = s_kwonly s.
Proof. unfold drop_first. now destruct (s_posonly s). Qed.
Lemma relevant_spec (s : sig V) (c : dict V) self rest : sig_ok s -> s_posonly s = [] -> s_args s = self :: rest -> length (s_defaults s) <= length rest -> visible s ->
  exists kw, relevant_for_obj none c s = Ok kw /\ (forall k, dget k kw = if smem k (rest ++ map fst (s_kwonly s)) then dget k c else None) /\
    (forall k, In k (dkeys kw) -> In k (rest ++ map fst (s_kwonly s))).
Proof.
  intros H P A L Hv. unfold relevant_for_obj. rewrite method_dict by (rewrite P, A; discriminate). rewrite args_dict_spec by (now apply drop_ok with self rest). eexists. split; [reflexivity|].
  assert (E : forall k, dmem k (map (or_value none) (seen (drop_first s))) = smem k (rest ++ map fst (s_kwonly s))).
  { intros k. rewrite dmem_or_value. rewrite (seen_all _ (drop_visible s Hv)). rewrite params_keys by (now apply drop_ok with self rest). rewrite drop_kwonly. unfold drop_first. rewrite P, A. reflexivity. }
  split.
  - intros k. rewrite dget_dfilter. now rewrite E.
  - intros k Hk. apply dkeys_dfilter in Hk. destruct Hk as [_ Hk]. rewrite E in Hk. now apply smem_In.
Qed.
Lemma object_updated (s : sig V) (c : dict V) self rest obj : sig_ok s -> s_posonly s = [] -> s_args s = self :: rest -> length (s_defaults s) <= length rest -> visible s ->
  (forall x, In (x, None) (params s) -> x <> self -> dmem x c = true) ->
  exists kw b, relevant_for_obj none c s = Ok kw /\ call s [obj] kw = Ok (Bound b [] []) /\ dget self b = Some obj /\
    forall x d, In (x, d) (params s) -> x <> self -> dget x b = match dget x c with Some v => Some v | None => d end.
Proof.
  intros H P A L Hv Hr. destruct (relevant_spec s c self rest H P A L Hv) as (kw & Ek & G & K). exists kw.
  assert (Hin : forall x d, In (x, d) (params s) -> x <> self -> dget x kw = dget x c).
  { intros x d Hx N. rewrite G. replace (smem x _) with true; [reflexivity|]. symmetry. apply smem_In. apply in_params_key in Hx. rewrite params_keys in Hx by exact H. rewrite P, A in Hx. cbn in Hx. destruct Hx as [Hx|Hx]; [congruence|exact Hx]. }
  assert (Hs : dmem self kw = false). { unfold dmem. rewrite G. destruct (smem self _) eqn:E; [|reflexivity]. apply smem_In in E. destruct H as [_ H]. rewrite P, A in H. cbn in H. inversion H; contradiction. }
  destruct (call_self s self rest obj kw H P A) as (b & Hb & _ & Hself & Hx); [intros k Hk; rewrite A; cbn; right; now apply K|exact Hs|intros x Hx N; unfold dmem; rewrite (Hin x None Hx N); now apply Hr|].
  exists b. split; [exact Ek|]. split; [exact Hb|]. split; [exact Hself|]. intros x d Hd N. rewrite (Hx x d Hd N). now rewrite (Hin x d Hd N).
Qed.
(** another function is called if the object has one *)
Lemma update_unknown (s u : sig V) (c : dict V) self rest obj k : sig_ok s -> s_posonly s = [] -> s_args s = self :: rest -> length (s_defaults s) <= length rest -> visible s ->
  In k (rest ++ map fst (s_kwonly s)) -> dmem k c = true -> by_name u k = false -> s_varkw u = false ->
  exists kw, relevant_for_obj none c s = Ok kw /\ call u [obj] kw = Raise TypeError.
Proof.
  intros H P A L Hv Hk Hc Hu Hw. destruct (relevant_spec s c self rest H P A L Hv) as (kw & Ek & G & _). exists kw. split; [exact Ek|]. unfold call.
  assert (E : In k (dkeys (dfilter (fun k => negb (by_name u k)) kw))).
  { apply dkeys_dfilter. split; [|now rewrite Hu]. apply dmem_In. unfold dmem. rewrite G. apply smem_In in Hk. rewrite Hk. exact Hc. }
  destruct (dfilter (fun k => negb (by_name u k)) kw); [destruct E|]. rewrite Hw. cbn [negb]. now rewrite orb_true_r.
Qed.

(* ------------------------------------------------------------------ *)
(** * More about defaults *)

Lemma nodup_seen (s : sig V) : sig_ok s -> NoDup (map fst (seen s)).
Proof.
  intros H. unfold seen, seen_kwonly. destruct (existsb has_default (s_kwonly s)); [exact (nodup_params s H)|]. rewrite app_nil_r. pose proof (nodup_params s H) as N. unfold params in N. rewrite map_app in N. now apply NoDup_l in N.
Qed.
Lemma defaults_spec (s : sig V) : sig_ok s -> exists d, function_args_as_dict none false s = Ok d /\ dkeys d = map fst (seen s) /\ NoDup (dkeys d) /\
  forall x o, In (x, o) (seen s) -> dget x d = Some (match o with Some v => v | None => none end).
Proof.
  intros H. eexists. split; [now apply args_dict_spec|]. rewrite dkeys_or_value. split; [reflexivity|]. split; [now apply nodup_seen|]. intros x o Hx. apply dget_or_value; [now apply nodup_seen|exact Hx].
Qed.
Lemma nth_error_combine {A B} (l : list A) (m : list B) i x y : nth_error l i = Some x -> nth_error m i = Some y -> In (x, y) (combine l m).
Proof. revert m i. induction l as [|a l IH]; intros [|b m] [|i]; cbn; try discriminate; [intros H1 H2; left; congruence|intros H1 H2; right; now apply IH with i]. Qed.
Lemma alignment (s : sig V) i x : sig_ok s -> nth_error (s_posonly s ++ s_args s) i = Some x ->
  exists d, function_args_as_dict none false s = Ok d /\
    dget x d = Some (let n := length (s_posonly s ++ s_args s) - length (s_defaults s) in if Nat.ltb i n then none else nth (i - n) (s_defaults s) none).
Proof.
  intros H Hx. destruct (defaults_spec s H) as (d & E & _ & _ & G). exists d. split; [exact E|]. cbv zeta. set (n := length (s_posonly s ++ s_args s) - length (s_defaults s)).
  assert (Li : i < length (s_posonly s ++ s_args s)) by (apply nth_error_Some; congruence). destruct H as [Hl _]. destruct (Nat.ltb i n) eqn:L.
  - apply Nat.ltb_lt in L. apply (G x None). unfold seen. apply in_or_app. left. unfold positional. apply nth_error_combine with i; [exact Hx|]. fold n. rewrite nth_error_app1 by (rewrite repeat_length; exact L). apply nth_error_repeat. exact L.
  - apply Nat.ltb_ge in L. destruct (nth_error (s_defaults s) (i - n)) as [v|] eqn:Ev; [|apply nth_error_None in Ev; lia]. rewrite (nth_error_nth _ _ none Ev). apply (G x (Some v)). unfold seen. apply in_or_app. left. unfold positional. apply nth_error_combine with i; [exact Hx|]. fold n. rewrite nth_error_app2 by (rewrite repeat_length; exact L). rewrite repeat_length. now apply map_nth_error.
Qed.
Lemma method_raises (s : sig V) : sig_ok s ->
  (s_posonly s ++ s_args s = [] -> function_args_as_dict none true s = Raise IndexError) /\
  (s_posonly s ++ s_args s <> [] -> length (s_defaults s) = length (s_posonly s ++ s_args s) -> function_args_as_dict none true s = Raise assertion_error).
Proof.
  intros _. split.
  - intros E. unfold function_args_as_dict, getfullargspec. cbn [g_args]. now rewrite E.
  - intros N L. unfold function_args_as_dict, getfullargspec. cbn [g_args g_defaults]. destruct (s_posonly s ++ s_args s) as [|x l]; [now elim N|]. rewrite section_or_none, app_length, repeat_length. cbn [length] in L. replace (Nat.eqb _ _) with false; [reflexivity|]. symmetry. apply Nat.eqb_neq. lia.
Qed.
(** an object made from a name only *)
Lemma placeholder (s : sig V) rest obj key (name : V) : sig_ok s -> s_posonly s = [] -> s_args s = "self" :: rest -> visible s -> key <> "self" -> In key (map fst (params s)) ->
  exists kw b, empty_obj_args none key name s = Ok kw /\ call s [obj] kw = Ok (Bound b [] []) /\ dget "self" b = Some obj /\ dget key b = Some name /\
    forall x d, In (x, d) (params s) -> x <> "self" -> x <> key -> dget x b = Some (match d with Some v => v | None => none end).
Proof.
  intros H P A Hv Nk Hk. unfold empty_obj_args, class_function_args_as_dict. rewrite args_dict_spec by exact H. rewrite (seen_all s Hv). set (kw := dset key name _).
  assert (G : forall x d, In (x, d) (params s) -> x <> "self" -> x <> key -> dget x kw = Some (match d with Some v => v | None => none end)).
  { intros x d Hx N1 N2. unfold kw. rewrite dget_dset_neq by congruence. rewrite dget_dfilter. apply String.eqb_neq in N1. rewrite N1. cbn [negb]. apply dget_or_value; [now apply nodup_params|exact Hx]. }
  assert (Gk : dget key kw = Some name) by apply dget_dset_eq.
  assert (Gs : dmem "self" kw = false). { unfold dmem, kw. rewrite dget_dset_neq by congruence. rewrite dget_dfilter. reflexivity. }
  assert (K : forall k, In k (dkeys kw) -> In k (s_args s ++ map fst (s_kwonly s))).
  { intros k Hin. rewrite (params_keys s H), P in Hk. cbn [app] in Hk. unfold kw in Hin. apply In_dkeys_dset in Hin. destruct Hin as [->|Hin]; [exact Hk|]. apply dkeys_dfilter in Hin. destruct Hin as [Hin _]. rewrite dkeys_or_value in Hin. rewrite (params_keys s H), P in Hin. exact Hin. }
  destruct (call_self s "self" rest obj kw H P A K Gs) as (b & Hb & _ & Hself & Hx).
  { intros x Hx N. unfold dmem. destruct (string_dec x key) as [->|Nx]; [now rewrite Gk|]. now rewrite (G x None Hx N Nx). }
  exists kw, b. split; [reflexivity|]. split; [exact Hb|]. split; [exact Hself|]. split.
  - apply in_map_iff in Hk. destruct Hk as ([x d] & E & Hk). cbn in E. subst x. rewrite (Hx key d Hk Nk). now rewrite Gk.
  - intros x d Hd N1 N2. rewrite (Hx x d Hd N1). now rewrite (G x d Hd N1 N2).
Qed.
Lemma placeholder_key (s : sig V) rest obj key (name : V) : sig_ok s -> s_posonly s = [] -> s_args s = "self" :: rest -> s_varkw s = false -> ~ In key (map fst (params s)) ->
  exists kw, empty_obj_args none key name s = Ok kw /\ call s [obj] kw = Raise TypeError.
Proof.
  intros H P A Hw Nk. unfold empty_obj_args, class_function_args_as_dict. rewrite args_dict_spec by exact H. eexists. split; [reflexivity|]. set (kw := dset key name _). unfold call.
  assert (E : In key (dkeys (dfilter (fun k => negb (by_name s k)) kw))).
  { apply dkeys_dfilter. split; [apply In_dkeys_dset; now left|]. destruct (by_name s key) eqn:B; [|reflexivity]. apply smem_In in B. exfalso. apply Nk. rewrite (params_keys s H), P. exact B. }
  destruct (dfilter (fun k => negb (by_name s k)) kw); [destruct E|]. rewrite Hw. cbn [negb]. now rewrite orb_true_r.
Qed.
Lemma placeholder_self (s : sig V) self rest obj key (name : V) : sig_ok s -> s_posonly s = [] -> s_args s = self :: rest -> self <> "self" ->
  exists kw, empty_obj_args none key name s = Ok kw /\ call s [obj] kw = Raise TypeError.
Proof.
  intros H P A Ns. unfold empty_obj_args, class_function_args_as_dict. rewrite args_dict_spec by exact H. eexists. split; [reflexivity|]. apply (call_twice s self rest obj); [exact P|exact A|]. unfold dmem. rewrite dget_dset. destruct (String.eqb self key); [reflexivity|]. rewrite dget_dfilter. apply String.eqb_neq in Ns. rewrite Ns. cbn [negb].
  change (dmem self (map (or_value none) (seen s)) = true). rewrite dmem_or_value. apply smem_In. apply (seen_in s self H). left. rewrite P, A. now left.
Qed.

(** the config made of the defaults runs *)
Lemma scaffold_runs (s : sig V) : sig_ok s -> s_posonly s = [] -> visible s -> exists c kw b, function_args_as_dict none false s = Ok c /\ kwargs_for none c s = Ok kw /\ call s [] kw = Ok (Bound b [] []) /\
  forall x d, In (x, d) (params s) -> dget x b = Some (match d with Some v => v | None => none end).
Proof.
  intros H P Hv. destruct (defaults_spec s H) as (c & E & _ & _ & G). rewrite (seen_all s Hv) in G. exists c. destruct (call_function none s c H P Hv) as (kw & b & Ek & Eb & _ & Gb).
  { intros x Hx. unfold dmem. now rewrite (G x None Hx). }
  exists kw, b. split; [exact E|]. split; [exact Ek|]. split; [exact Eb|]. intros x d Hx. rewrite (Gb x d Hx). now rewrite (G x d Hx).
Qed.
End More.

(* ------------------------------------------------------------------ *)
(** * More about imports *)

Section MoreImports.
Variable set_list : list string -> list string.
Variable is_builtin_type : string -> bool.
Hypothesis So : set_order set_list.

Lemma arg_imports_iff a imports assigns m : args_ok a -> (exists l, arg_imports set_list is_builtin_type a imports assigns m = Ok l) <->
  plain a /\ forall n, needs is_builtin_type a n -> exists i, In i imports /\ mentions i n.
Proof.
  intros Ha. split.
  - intros [l H]. apply (arg_imports_spec set_list is_builtin_type So) in H; [|exact Ha]. destruct H as (P & names & js & _ & _ & Hn & F & _). split; [exact P|]. intros n Nn. apply Hn in Nn. destruct (Forall2_in_l _ _ _ n F Nn) as (j & _ & Ej). apply get_import_ok in Ej. destruct Ej as (pre & i & post & -> & _ & Ei). exists i. split; [apply in_or_app; right; now left|].
    unfold mentions. destruct i as [ms r|os mo r]; cbn [import_of originals new_names] in *.
    + destruct (smem n ms) eqn:S1; [left; now apply smem_In|]. destruct (smem n (map snd r)) eqn:S2; [right; now apply smem_In|discriminate].
    + destruct (smem n os) eqn:S1; [left; now apply smem_In|]. destruct (smem n (map snd r)) eqn:S2; [right; now apply smem_In|discriminate].
  - intros [P Hn]. assert (L : length (a_defaults a) <= length (a_args a)) by apply P. destruct (external_names_ok set_list is_builtin_type a L P) as [names E]. destruct (external_names_spec set_list is_builtin_type So a names L E) as (_ & N & S).
    assert (F : exists js, Forall2 (fun n j => get_import_for_name n imports = Ok j) names js).
    { apply Forall2_make. intros n Hin. apply S in Hin. destruct (Hn n Hin) as (i & Hi & Hm). destruct (get_import_for_name n imports) as [j|e] eqn:Ej; [now exists j|]. apply get_import_raises in Ej. destruct Ej as [_ Ej]. now elim (Ej i Hi). }
    destruct F as [js F]. eexists. apply (arg_imports_spec set_list is_builtin_type So); [exact Ha|]. split; [exact P|]. exists names, js. auto.
Qed.
Lemma arg_imports_missing a imports assigns m n : args_ok a -> plain a -> needs is_builtin_type a n -> (forall i, In i imports -> ~ mentions i n) ->
  arg_imports set_list is_builtin_type a imports assigns m = Raise (LibExn "NoImportMatchingNameException").
Proof.
  intros Ha P Hn Hi. assert (L : length (a_defaults a) <= length (a_args a)) by apply P. unfold arg_imports. rewrite args_dicts_spec by exact Ha. rewrite (proj2 (Nat.leb_le _ _) L). destruct (external_names_ok set_list is_builtin_type a L P) as [names E]. rewrite E. destruct (external_names_spec set_list is_builtin_type So a names L E) as (_ & N & S).
  destruct (extend_all _ names) as [js|e] eqn:X.
  - exfalso. apply S in Hn. apply extend_all_ok in X. destruct X as (ls & F & _). destruct (Forall2_in_l _ _ _ n F Hn) as (j & _ & Ej). destruct (get_import_for_name n imports) as [k|] eqn:Ek; [|discriminate]. apply get_import_ok in Ek. destruct Ek as (pre & i & post & -> & _ & Ei). apply (Hi i); [apply in_or_app; right; now left|].
    unfold mentions. destruct i as [ms r|os mo r]; cbn [import_of originals new_names] in *.
    + destruct (smem n ms) eqn:S1; [left; now apply smem_In|]. destruct (smem n (map snd r)) eqn:S2; [right; now apply smem_In|discriminate].
    + destruct (smem n os) eqn:S1; [left; now apply smem_In|]. destruct (smem n (map snd r)) eqn:S2; [right; now apply smem_In|discriminate].
  - apply extend_all_raise in X. destruct X as (k & _ & X). destruct (get_import_for_name k imports) as [j|e'] eqn:Ek; [discriminate|]. apply get_import_raises in Ek. destruct Ek as [-> _]. congruence.
Qed.
Lemma arg_imports_give a imports assigns m l n : args_ok a -> arg_imports set_list is_builtin_type a imports assigns m = Ok l -> needs is_builtin_type a n -> clear_for imports n ->
  exists j t, In j l /\ bindings j = [(n, t)] /\ bound_to imports n = Some t.
Proof.
  intros Ha H Hn (C1 & C2 & C3 & C4). apply (arg_imports_spec set_list is_builtin_type So) in H; [|exact Ha]. destruct H as (P & names & js & _ & _ & S & F & ->). apply S in Hn. destruct (Forall2_in_l _ _ _ n F Hn) as (j & Hj & Ej). destruct (C48_gives_the_binding n imports j C1 C2 C3 C4 Ej) as (t & Bj & Bt). exists j, t. split; [apply in_or_app; now right|auto].
Qed.
Lemma arg_imports_nothing_else a imports assigns m l j : args_ok a -> arg_imports set_list is_builtin_type a imports assigns m = Ok l -> In j l ->
  exists n, needs is_builtin_type a n /\ (get_import_for_name n imports = Ok j \/ contains_varname assigns n = true /\ j = ObjImp [n] m []).
Proof.
  intros Ha H Hj. apply (arg_imports_spec set_list is_builtin_type So) in H; [|exact Ha]. destruct H as (P & names & js & _ & _ & S & F & ->). apply in_app_iff in Hj. destruct Hj as [Hj|Hj].
  - apply in_map_iff in Hj. destruct Hj as (n & <- & Hn). apply filter_In in Hn. destruct Hn as [Hn Hv]. exists n. split; [now apply S|]. now right.
  - destruct (Forall2_in_r _ _ _ j F Hj) as (n & Hn & Ej). exists n. split; [now apply S|]. now left.
Qed.
Lemma item_config dict_imports item n m x file_of m2 d : named item [n] -> clear_for dict_imports n -> bound_to dict_imports n = Some (m, Some x) ->
  clear_files file_of -> stands_for file_of m x m2 d ->
  exists k f, file_of m2 = Ok f /\ forall fuel, k <= fuel ->
    default_config set_list is_builtin_type fuel file_of dict_imports item =
    match read_def set_list is_builtin_type f m2 d with
    | Raise e => Raise e
    | Ok (a, l) => match args_dicts a with Ok (ds, anns) => Ok (ds, anns, l) | Raise e => Raise e end
    end.
Proof.
  intros Hv C B Cf St. destruct (import_found dict_imports n m x C B) as (j & Ej & Hj). destruct (extract_finds set_list is_builtin_type file_of m x m2 d St Cf) as (k & f & Ef & G). exists k, f. split; [exact Ef|]. intros fuel L. unfold default_config. unfold view_name. apply named_iff in Hv. rewrite Hv, Ej. rewrite (G fuel j n L Hj). destruct (read_def _ _ _ _ _) as [[a l]|]; [|reflexivity]. destruct (args_dicts a) as [[ds anns]|]; reflexivity.
Qed.
End MoreImports.

(* ------------------------------------------------------------------ *)
(** * The example *)

Lemma bound_to_in l n t : bound_to l n = Some t -> In (n, t) (flat_map bindings l).
Proof.
  unfold bound_to. assert (K : forall bs acc, fold_left (fun acc (b : binding) => if String.eqb (fst b) n then Some (snd b) else acc) bs acc = Some t -> acc = Some t \/ In (n, t) bs).
  { induction bs as [|b bs IH]; intros acc H; [now left|]. cbn [fold_left] in H. apply IH in H. destruct H as [H|H]; [|right; now right]. destruct (String.eqb (fst b) n) eqn:E; [|now left]. apply String.eqb_eq in E. right. left. destruct b as [y u]. cbn in *. congruence. }
  intros H. apply K in H. destruct H as [H|H]; [discriminate|exact H].
Qed.
Definition clear_b (l : list imp) : Prop :=
  (forall i, In i l -> exists al, says i al /\ one_way al) /\ forallb (fun b : binding => is_name (fst b)) (flat_map bindings l) = true /\
  forallb (fun b : binding => forallb (fun i => negb (smem (fst b) (originals i)) || existsb (fun a : alias => String.eqb (fst a) (fst b) && match snd a with None => true | _ => false end) (aliases_of i)) l) (flat_map bindings l) = true /\
  NoDup (map fst (flat_map bindings l)).
Lemma clear_b_spec l n t : clear_b l -> bound_to l n = Some t -> clear_for l n.
Proof.
  intros (S & N & H & U) B. apply bound_to_in in B. split; [rewrite forallb_forall in N; exact (N _ B)|]. split; [exact S|]. split.
  - intros i Hi [Ho Ha]. rewrite forallb_forall in H. specialize (H _ B). rewrite forallb_forall in H. specialize (H _ Hi). cbn [fst] in H. apply smem_In in Ho. rewrite Ho in H. cbn [negb orb] in H. apply existsb_exists in H. destruct H as ([x o] & Hx & E). cbn in E. apply andb_true_iff in E. destruct E as [E Eo]. apply String.eqb_eq in E. subst x. destruct o; [discriminate|]. contradiction.
  - intros [x a] [y b] Hb Hc E1 E2. cbn in E1, E2. subst x y. f_equal. clear - U Hb Hc. induction (flat_map bindings l) as [|[z u] bs IH]; [destruct Hb|]. cbn in U. inversion U as [|? ? Hz U']; subst. destruct Hb as [Hb|Hb], Hc as [Hc|Hc].
    + congruence.
    + injection Hb as -> ->. exfalso. apply Hz. apply in_map_iff. now exists (n, b).
    + injection Hc as -> ->. exfalso. apply Hz. apply in_map_iff. now exists (n, a).
    + now apply IH.
Qed.
Lemma ex_clear : clear_files ex_files.
Proof.
  assert (W : forall al : list alias, NoDup (map fst al) -> one_way al).
  { intros al. induction al as [|[x o] al IH]; [intros _ ? ? ? []|]. cbn. inversion 1 as [|? ? Hx N]; subst. intros y o1 o2 [H1|H1] [H2|H2]; [congruence| | |now apply (IH N y)].
    - injection H1 as -> ->. exfalso. apply Hx. apply in_map_iff. now exists (y, o2).
    - injection H2 as -> ->. exfalso. apply Hx. apply in_map_iff. now exists (y, o1). }
  assert (D : forall l : list string, (if list_eq_dec string_dec (ex_set l) l then true else false) = true -> NoDup l).
  { intros l. destruct (list_eq_dec string_dec (ex_set l) l) as [E|]; [|discriminate]. intros _. rewrite <- E. apply NoDup_nodup. }
  assert (C1 : clear_b [ObjImp ["run"] "pkg.inner" [("run", "go")]; ObjImp ["K"; "D"] "pkg.inner" []]).
  { split; [|split; [reflexivity|split; [reflexivity|apply D; reflexivity]]]. intros i [<-|[<-|[]]]; [exists [("run", Some "go")]|exists [("K", None); ("D", None)]]; (split; [right; eexists; reflexivity|apply W, D; reflexivity]). }
  assert (C2 : clear_b ex_imports).
  { split; [|split; [reflexivity|split; [reflexivity|apply D; reflexivity]]]. intros i [<-|[<-|[]]]; [exists [("List", None)]|exists [("Tool", Some "T"); ("helper", None)]]; (split; [right; eexists; reflexivity|apply W, D; reflexivity]). }
  assert (C3 : forall m, clear_b [ObjImp ["f"] m []]).
  { intros m. split; [|split; [reflexivity|split; [reflexivity|apply D; reflexivity]]]. intros i [<-|[]]. exists [("f", None)]. split; [right; eexists; reflexivity|apply W, D; reflexivity]. }
  intros m f n t Ef. unfold ex_files in Ef. destruct (String.eqb m "pkg"); [injection Ef as <-; intros B; apply (clear_b_spec _ n t); [(exact C1 || exact C2 || apply C3)|exact B]|]. destruct (String.eqb m "pkg.inner"); [injection Ef as <-; intros B; apply (clear_b_spec _ n t); [(exact C1 || exact C2 || apply C3)|exact B]|]. destruct (String.eqb m "left"); [injection Ef as <-; intros B; apply (clear_b_spec _ n t); [(exact C1 || exact C2 || apply C3)|exact B]|]. destruct (String.eqb m "right"); [injection Ef as <-; intros B; apply (clear_b_spec _ n t); [(exact C1 || exact C2 || apply C3)|exact B]|discriminate].
Qed.

(** * What counts as a definition *)
Fixpoint defs_in_sound (s : stmt) : forall name d, In d (defs_in name s) -> defines name s d.
Proof.
  destruct s as [n a|n body|body]; intros name d H; cbn [defs_in] in H.
  - destruct (String.eqb n name) eqn:E; [|contradiction]. apply String.eqb_eq in E. subst n. destruct H as [<-|[]]. constructor.
  - destruct (String.eqb n name) eqn:E; [|contradiction]. apply String.eqb_eq in E. subst n.
    assert (G : exists s, In s body /\ defines "__init__" s d).
    { induction body as [|s body IH]; [contradiction|]. cbn [flat_map] in H. apply in_app_iff in H as [H|H]; [exists s; split; [now left|now apply defs_in_sound]|]. destruct (IH H) as (s' & I & D). exists s'. split; [now right|exact D]. }
    destruct G as (s & I & D). now apply defines_class with s.
  - assert (G : exists s, In s body /\ defines name s d).
    { induction body as [|s body IH]; [contradiction|]. cbn [flat_map] in H. apply in_app_iff in H as [H|H]; [exists s; split; [now left|now apply defs_in_sound]|]. destruct (IH H) as (s' & I & D). exists s'. split; [now right|exact D]. }
    destruct G as (s & I & D). now apply defines_block with s.
Qed.
Lemma defs_in_complete name s d : defines name s d -> In d (defs_in name s).
Proof.
  intros H. induction H as [name a|name body s d I H IH|name body s d I H IH]; cbn [defs_in].
  - rewrite String.eqb_refl. now left.
  - rewrite String.eqb_refl. apply in_flat_map. now exists s.
  - apply in_flat_map. now exists s.
Qed.
