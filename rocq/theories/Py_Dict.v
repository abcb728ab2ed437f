(** Python [dict] with string keys: an association list in insertion order. *)
From Verif Require Export Py_Str.

Definition dict (A : Type) : Type := list (string * A).

Section Dict.
  Context {A : Type}.

  (** [d.get(k)] / [d[k]] *)
  Fixpoint dget (k : string) (d : dict A) : option A :=
    match d with
    | [] => None
    | (k', v) :: d' => if String.eqb k k' then Some v else dget k d'
    end.

  (** [k in d] *)
  Definition dmem (k : string) (d : dict A) : bool :=
    match dget k d with Some _ => true | None => false end.

  (** [d[k] = v]: an existing key keeps its position, a new one goes to the end *)
  Fixpoint dset (k : string) (v : A) (d : dict A) : dict A :=
    match d with
    | [] => [(k, v)]
    | (k', v') :: d' => if String.eqb k k' then (k', v) :: d' else (k', v') :: dset k v d'
    end.

  (** [d.update(e)] *)
  Definition dupdate (d e : dict A) : dict A :=
    fold_left (fun acc kv => dset (fst kv) (snd kv) acc) e d.

  (** [del d[k]] / [d.pop(k)] (result dict) *)
  Fixpoint ddel (k : string) (d : dict A) : dict A :=
    match d with
    | [] => []
    | (k', v') :: d' => if String.eqb k k' then d' else (k', v') :: ddel k d'
    end.

  Definition dkeys (d : dict A) : list string := map fst d.
  Definition dvals (d : dict A) : list A := map snd d.

  (** [{k: v for k, v in d.items() if p(k)}] *)
  Definition dfilter (p : string -> bool) (d : dict A) : dict A :=
    filter (fun kv => p (fst kv)) d.

  (** a dict built by a dict display / comprehension from a list of pairs *)
  Definition dict_of (l : list (string * A)) : dict A := dupdate [] l.

  (** every real Python dict has distinct keys *)
  Definition dwf (d : dict A) : Prop := NoDup (dkeys d).

  (* ---------------------------------------------------------------- *)

  Lemma dget_dset_eq k v d : dget k (dset k v d) = Some v.
  Proof.
    induction d as [|[k' v'] d IH]; cbn.
    - now rewrite eqb_refl_s.
    - destruct (String.eqb k k') eqn:E; cbn; now rewrite E.
  Qed.

  Lemma dget_dset_neq k k' v d : k <> k' -> dget k (dset k' v d) = dget k d.
  Proof.
    intro H. induction d as [|[k2 v2] d IH]; cbn.
    - apply eqb_neq_s in H. now rewrite H.
    - destruct (String.eqb k' k2) eqn:E; cbn.
      + apply eqb_eq_s in E; subst k2. apply eqb_neq_s in H. now rewrite H.
      + now rewrite IH.
  Qed.

  Lemma dget_dset k k' v d :
    dget k (dset k' v d) = if String.eqb k k' then Some v else dget k d.
  Proof.
    destruct (String.eqb k k') eqn:E.
    - apply eqb_eq_s in E; subst. apply dget_dset_eq.
    - apply eqb_neq_s in E. now apply dget_dset_neq.
  Qed.

  Lemma dget_app k d e :
    dget k (d ++ e) = match dget k d with Some v => Some v | None => dget k e end.
  Proof.
    induction d as [|[k' v'] d IH]; cbn; [reflexivity|].
    destruct (String.eqb k k'); [reflexivity|exact IH].
  Qed.

  Lemma dget_None k d : dget k d = None <-> ~ In k (dkeys d).
  Proof.
    induction d as [|[k' v'] d IH]; cbn; [tauto|].
    destruct (String.eqb k k') eqn:E.
    - apply eqb_eq_s in E; subst. split; [discriminate|intro H; exfalso; apply H; now left].
    - apply eqb_neq_s in E. rewrite IH. split; intros H; [intros [H1|H1]; [congruence|tauto]|tauto].
  Qed.

  Lemma dget_Some_In k v d : dget k d = Some v -> In (k, v) d.
  Proof.
    induction d as [|[k' v'] d IH]; cbn; [discriminate|].
    destruct (String.eqb k k') eqn:E.
    - apply eqb_eq_s in E; subst. intros [= ->]. now left.
    - intro H. right. now apply IH.
  Qed.

  Lemma In_dget k v d : dwf d -> In (k, v) d -> dget k d = Some v.
  Proof.
    unfold dwf. induction d as [|[k' v'] d IH]; cbn; [easy|].
    intros Hnd [H|H].
    - injection H as -> ->. now rewrite eqb_refl_s.
    - inversion Hnd as [|? ? Hni Hnd']; subst.
      destruct (String.eqb k k') eqn:E; [|now apply IH].
      apply eqb_eq_s in E; subst. exfalso. apply Hni.
      change k' with (fst (k', v)). now apply in_map.
  Qed.

  Lemma In_dkeys_dget k d : In k (dkeys d) <-> exists v, dget k d = Some v.
  Proof.
    destruct (dget k d) eqn:E.
    - split; [intros _; now exists a|]. intros _.
      apply dget_Some_In in E. change k with (fst (k, a)). now apply in_map.
    - split; [intro H; apply dget_None in E; tauto|intros [v H]; discriminate].
  Qed.

  Lemma dmem_In k d : dmem k d = true <-> In k (dkeys d).
  Proof.
    rewrite In_dkeys_dget. unfold dmem. destruct (dget k d).
    - split; [now exists a|reflexivity].
    - split; [discriminate|intros [v H]; discriminate].
  Qed.

  Lemma dmem_false k d : dmem k d = false <-> ~ In k (dkeys d).
  Proof. rewrite <- dmem_In. destruct (dmem k d); split; congruence. Qed.

  Lemma dkeys_dset k v d :
    dkeys (dset k v d) = if dmem k d then dkeys d else dkeys d ++ [k].
  Proof.
    unfold dmem, dkeys. induction d as [|[k' v'] d IH]; cbn; [reflexivity|].
    destruct (String.eqb k k') eqn:E; cbn; [reflexivity|].
    rewrite IH. destruct (dget k d); reflexivity.
  Qed.

  Lemma In_dkeys_dset k k' v d : In k (dkeys (dset k' v d)) <-> k = k' \/ In k (dkeys d).
  Proof.
    rewrite !In_dkeys_dget. rewrite dget_dset. destruct (String.eqb k k') eqn:E.
    - apply eqb_eq_s in E. split; [now left|intros _; now exists v].
    - apply eqb_neq_s in E. tauto.
  Qed.

  Lemma NoDup_snoc (l : list string) x : NoDup l -> ~ In x l -> NoDup (l ++ [x]).
  Proof.
    induction l as [|y l IH]; cbn; intros Hnd Hni.
    - constructor; [easy|constructor].
    - inversion Hnd; subst. constructor.
      + rewrite in_app_iff. cbn. intros [H|[H|[]]]; [easy|subst; apply Hni; now left].
      + apply IH; [assumption|]. intro H. apply Hni. now right.
  Qed.

  Lemma dset_wf k v d : dwf d -> dwf (dset k v d).
  Proof.
    unfold dwf. intro H. rewrite dkeys_dset. destruct (dmem k d) eqn:E; [exact H|].
    apply NoDup_snoc; [exact H|]. now apply dmem_false.
  Qed.

  Lemma dupdate_wf d e : dwf d -> dwf (dupdate d e).
  Proof.
    unfold dupdate. revert d; induction e as [|[k v] e IH]; cbn; intros d H; [exact H|].
    apply IH. now apply dset_wf.
  Qed.

  Lemma dwf_nil : dwf [].
  Proof. constructor. Qed.

  Lemma dupdate_cons d k v e : dupdate d ((k, v) :: e) = dupdate (dset k v d) e.
  Proof. reflexivity. Qed.

  Lemma dupdate_app d e1 e2 : dupdate d (e1 ++ e2) = dupdate (dupdate d e1) e2.
  Proof. unfold dupdate. apply fold_left_app. Qed.

  (** last binding wins *)
  Lemma dget_dupdate_rev k d e :
    dget k (dupdate d e) = match dget k (rev e) with Some v => Some v | None => dget k d end.
  Proof.
    revert d; induction e as [|[k' v'] e IH]; intro d; [reflexivity|].
    rewrite dupdate_cons, IH. cbn [rev]. rewrite dget_app.
    destruct (dget k (rev e)); [reflexivity|]. cbn. rewrite dget_dset.
    now destruct (String.eqb k k').
  Qed.

  Lemma dget_rev k e : dwf e -> dget k (rev e) = dget k e.
  Proof.
    intro H. destruct (dget k e) eqn:E.
    - apply dget_Some_In in E. apply In_dget.
      + unfold dwf, dkeys. rewrite map_rev. now apply NoDup_rev.
      + now apply in_rev in E.
    - apply dget_None. apply dget_None in E. unfold dkeys. rewrite map_rev.
      intro H1. apply in_rev in H1. tauto.
  Qed.

  Lemma dget_dupdate k d e : dwf e ->
    dget k (dupdate d e) = match dget k e with Some v => Some v | None => dget k d end.
  Proof. intro H. rewrite dget_dupdate_rev. now rewrite dget_rev. Qed.

  Lemma In_dkeys_dupdate k d e : In k (dkeys (dupdate d e)) <-> In k (dkeys d) \/ In k (dkeys e).
  Proof.
    revert d; induction e as [|[k' v'] e IH]; intro d.
    - cbn. tauto.
    - rewrite dupdate_cons, IH, In_dkeys_dset. cbn. intuition congruence.
  Qed.

  Lemma dupdate_nil_r d : dupdate d [] = d.
  Proof. reflexivity. Qed.

  Lemma dict_of_wf l : dwf (dict_of l).
  Proof. apply dupdate_wf, dwf_nil. Qed.

  Lemma dset_notin k v d : dmem k d = false -> dset k v d = d ++ [(k, v)].
  Proof.
    unfold dmem. induction d as [|[k' v'] d IH]; cbn; [reflexivity|].
    destruct (String.eqb k k'); [discriminate|]. intro H. f_equal. now apply IH.
  Qed.

  Lemma dict_of_id_aux d e : NoDup (dkeys d ++ dkeys e) -> dupdate d e = d ++ e.
  Proof.
    revert d; induction e as [|[k v] e IH]; intros d H.
    - now rewrite app_nil_r.
    - rewrite dupdate_cons, dset_notin.
      + rewrite IH; [now rewrite <- app_assoc|].
        unfold dkeys in *. rewrite map_app. cbn in *. now rewrite <- app_assoc.
      + apply dmem_false. cbn in H. apply NoDup_remove_2 in H. rewrite in_app_iff in H. tauto.
  Qed.

  Lemma dict_of_id d : dwf d -> dict_of d = d.
  Proof. intro H. unfold dict_of. now rewrite dict_of_id_aux. Qed.

  Lemma dget_ddel_eq k d : dwf d -> dget k (ddel k d) = None.
  Proof.
    induction d as [|[k' v'] d IH]; cbn; [reflexivity|]. unfold dwf; cbn. intro H.
    inversion H as [|? ? Hni Hnd]; subst.
    destruct (String.eqb k k') eqn:E; cbn.
    - apply eqb_eq_s in E; subst. now apply dget_None.
    - rewrite E. now apply IH.
  Qed.

  Lemma dget_ddel_neq k k' d : k <> k' -> dget k (ddel k' d) = dget k d.
  Proof.
    intro H. induction d as [|[k2 v2] d IH]; cbn; [reflexivity|].
    destruct (String.eqb k' k2) eqn:E; cbn.
    - apply eqb_eq_s in E; subst. apply eqb_neq_s in H. now rewrite H.
    - now rewrite IH.
  Qed.

  Lemma ddel_wf k d : dwf d -> dwf (ddel k d).
  Proof.
    unfold dwf. induction d as [|[k' v'] d IH]; cbn; intro H; [exact H|].
    inversion H as [|? ? Hni Hnd]; subst.
    destruct (String.eqb k k'); [exact Hnd|]. cbn. constructor; [|now apply IH].
    intro H1. apply Hni. clear -H1. induction d as [|[k2 v2] d IH]; cbn in *; [easy|].
    destruct (String.eqb k k2); cbn in *; tauto.
  Qed.

  Lemma dget_dfilter p k d : dget k (dfilter p d) = if p k then dget k d else None.
  Proof.
    unfold dfilter. induction d as [|[k' v'] d IH]; cbn.
    - now destruct (p k).
    - destruct (p k') eqn:P; cbn.
      + destruct (String.eqb k k') eqn:E; [|exact IH].
        apply eqb_eq_s in E; subst. now rewrite P.
      + rewrite IH. destruct (String.eqb k k') eqn:E; [|reflexivity].
        apply eqb_eq_s in E; subst. now rewrite P.
  Qed.

  Lemma dfilter_wf p d : dwf d -> dwf (dfilter p d).
  Proof.
    unfold dwf, dfilter. induction d as [|[k' v'] d IH]; cbn; intro H; [exact H|].
    inversion H as [|? ? Hni Hnd]; subst. destruct (p k'); [|now apply IH].
    cbn. constructor; [|now apply IH]. intro H1. apply Hni.
    apply in_map_iff in H1 as ((x & y) & Hx & Hin). apply filter_In in Hin as [Hin _].
    cbn in Hx; subst. change k' with (fst (k', y)). now apply in_map.
  Qed.

  (** two dicts that agree on every key: equality as Python mappings *)
  Definition deqv (d e : dict A) : Prop := forall k, dget k d = dget k e.

  Lemma dset_same k v d : dget k d = Some v -> dset k v d = d.
  Proof.
    induction d as [|[k' v'] d IH]; cbn; [discriminate|].
    destruct (String.eqb k k') eqn:E.
    - apply eqb_eq_s in E; subst. now intros [= ->].
    - intro H. f_equal. now apply IH.
  Qed.
End Dict.

Lemma dget_map {A B} (f : A -> B) k (d : dict A) :
  dget k (map (fun kv => (fst kv, f (snd kv))) d) = option_map f (dget k d).
Proof.
  induction d as [|[k' v'] d IH]; cbn; [reflexivity|].
  destruct (String.eqb k k'); [reflexivity|exact IH].
Qed.
