(** Proofs about dicts in the source. *)
From Verif Require Export AstDict_Spec.
Local Open Scope string_scope.
Local Open Scope list_scope.

(** * Induction *)
Section Ind.
Variable P : node -> Prop.
Hypothesis HD : forall items, (forall x v, In (KNode x, v) items -> P x) -> (forall x v, In (x, v) items -> P v) -> P (NDict items).
Hypothesis HC : forall f args kws, P f -> (forall a, In a args -> P a) -> (forall k v, In (k, v) kws -> P v) -> P (NCall f args kws).
Hypothesis HN : forall label l, (forall a, In a l -> P a) -> P (NNode label l).
Fixpoint node_rect' (n : node) : P n.
Proof.
  destruct n as [items|f args kws|label l].
  - apply HD.
    + induction items as [|[[s|m|] w] r IH]; intros x v H; destruct H as [E|H] || destruct H; try discriminate; try exact (IH x v H). injection E as E _. rewrite <- E. apply node_rect'.
    + induction items as [|[k w] r IH]; intros x v H; [destruct H|destruct H as [E|H]]; [injection E as _ E; rewrite <- E; apply node_rect'|exact (IH x v H)].
  - apply HC; [apply node_rect'| |].
    + induction args as [|b r IH]; intros a H; [destruct H|destruct H as [E|H]]; [rewrite <- E; apply node_rect'|exact (IH a H)].
    + induction kws as [|[k w] r IH]; intros x v H; [destruct H|destruct H as [E|H]]; [injection E as _ E; rewrite <- E; apply node_rect'|exact (IH x v H)].
  - apply HN. induction l as [|b r IH]; intros a H; [destruct H|destruct H as [E|H]]; [rewrite <- E; apply node_rect'|exact (IH a H)].
Qed.
End Ind.

(** * The last value *)
Definition lastv (k : string) (l : list (string * node)) : option node := dget k (rev l).
Lemma lastv_app k a b : lastv k (a ++ b) = later (lastv k a) (lastv k b).
Proof. unfold lastv. rewrite rev_app_distr, dget_app. unfold later. now destruct (dget k (rev b)). Qed.
Lemma lastv_one k j v : lastv k [(j, v)] = if String.eqb j k then Some v else None.
Proof. unfold lastv. cbn. rewrite String.eqb_sym. reflexivity. Qed.
Lemma lastv_flat {A} k (g : A -> list (string * node)) l : lastv k (flat_map g l) = last_of (fun x => lastv k (g x)) l.
Proof. induction l as [|x l IH]; [reflexivity|]. cbn [flat_map last_of]. now rewrite lastv_app, IH. Qed.
Lemma last_of_ext {A} (g h : A -> option node) l : (forall x, In x l -> g x = h x) -> last_of g l = last_of h l.
Proof. intros E. induction l as [|x l IH]; [reflexivity|]. cbn [last_of]. rewrite (E x (or_introl eq_refl)), IH; [reflexivity|]. intros y H. apply E. now right. Qed.
Lemma dict_last k l : dget k (fold_left (fun d (q : string * node) => dset (fst q) (snd q) d) l []) = lastv k l.
Proof. change (dget k (dupdate [] l) = lastv k l). rewrite dget_dupdate_rev. unfold lastv. now destruct (dget k (rev l)). Qed.
Lemma lastv_iff k l v : lastv k l = Some v <-> last_value k l v.
Proof.
  unfold last_value. split.
  - induction l as [|[j w] l IH] using rev_ind; [discriminate|]. rewrite lastv_app, lastv_one. destruct (String.eqb j k) eqn:E; cbn [later]; intros H.
    + apply eqb_eq_s in E. subst j. injection H as <-. exists l, []. split; [reflexivity|intros []].
    + destruct (IH H) as (a & b & -> & N). exists a, (b ++ [(j, w)]). split; [now rewrite <- app_assoc|]. rewrite map_app. cbn. intros K. apply in_app_or in K as [K|[K|[]]]; [now apply N|]. apply eqb_neq_s in E. now apply E.
  - intros (a & b & -> & N). change ((k, v) :: b) with ([(k, v)] ++ b). rewrite lastv_app, lastv_app, lastv_one, String.eqb_refl.
    assert (lastv k b = None) as ->; [|reflexivity]. unfold lastv. apply dget_None. unfold dkeys. rewrite map_rev. intros K. now apply in_rev in K.
Qed.

Lemma keywords_counts k n : lastv k (keywords_in n) = counts k n.
Proof.
  induction n as [items I1 I2|f args kws I1 I2 I3|label l I] using node_rect'; cbn [keywords_in counts].
  - rewrite lastv_app, !lastv_flat. f_equal; apply last_of_ext; intros [x v] H; cbn [fst snd].
    + destruct x as [s|x|]; try reflexivity. exact (I1 x v H).
    + exact (I2 x v H).
  - rewrite !lastv_app, !lastv_flat, I1. f_equal. f_equal; apply last_of_ext; [exact I2|]. intros [x v] H. cbn [fst snd].
    change ((kw_key x, v) :: keywords_in v) with ([(kw_key x, v)] ++ keywords_in v). rewrite lastv_app, lastv_one, (I3 x v H). reflexivity.
  - rewrite lastv_flat. now apply last_of_ext.
Qed.

Definition lasto (l : list node) : option node := match rev l with [] => None | v :: _ => Some v end.
Lemma lasto_app a b : lasto (a ++ b) = later (lasto a) (lasto b).
Proof. unfold lasto. rewrite rev_app_distr. now destruct (rev b). Qed.
Lemma lasto_flat {A} (g : A -> list node) l : lasto (flat_map g l) = last_of (fun x => lasto (g x)) l.
Proof. induction l as [|x l IH]; [reflexivity|]. cbn [flat_map last_of]. now rewrite lasto_app, IH. Qed.
Lemma called_counts k n : lasto (keywords_called k n) = counts_outside k n.
Proof.
  induction n as [items I1 I2|f args kws I1 I2 I3|label l I] using node_rect'; cbn [keywords_called counts_outside].
  - rewrite lasto_app, !lasto_flat. f_equal; apply last_of_ext; intros [x v] H; cbn [fst snd].
    + destruct x as [s|x|]; try reflexivity. exact (I1 x v H).
    + exact (I2 x v H).
  - rewrite !lasto_app, !lasto_flat, I1. f_equal. f_equal; apply last_of_ext; [exact I2|]. intros [[x|] v] H; cbn [fst snd]; [|reflexivity].
    destruct (String.eqb x k); [|reflexivity]. change (v :: keywords_called k v) with ([v] ++ keywords_called k v). rewrite lasto_app, (I3 _ v H). reflexivity.
  - rewrite lasto_flat. now apply last_of_ext.
Qed.
Lemma set_last k l : forall d, dwf d -> (forall j, In j (dkeys d) -> j = k) -> fold_left (fun d (v : node) => dset k v d) l d = match lasto l with Some v => [(k, v)] | None => d end.
Proof.
  induction l as [|v l IH] using rev_ind; intros d W D; [reflexivity|]. rewrite fold_left_app. cbn [fold_left]. rewrite (IH d W D), lasto_app. cbn [lasto rev app later].
  destruct (lasto l) as [w|]; [cbn; now rewrite String.eqb_refl|]. destruct d as [|[j w] [|[j' w'] d]].
  - reflexivity.
  - assert (j = k) as -> by (apply D; now left). cbn. now rewrite String.eqb_refl.
  - exfalso. assert (j = k) as -> by (apply D; now left). assert (j' = k) as -> by (apply D; cbn; auto). inversion W as [|? ? N]. apply N. now left.
Qed.

(** * Keywords somewhere *)
Lemma in_keywords k v n : In (k, v) (keywords_in n) <-> occurs k v n.
Proof.
  split.
  - induction n as [items I1 I2|f args kws I1 I2 I3|label l I] using node_rect'; cbn [keywords_in].
    + intros H. apply in_app_or in H as [H|H]; apply in_flat_map in H as ([x w] & Hx & H); cbn [fst snd] in H.
      * destruct x as [s|x|]; try contradiction. exact (oc_key k v items x w Hx (I1 x w Hx H)).
      * exact (oc_item k v items x w Hx (I2 x w Hx H)).
    + intros H. apply in_app_or in H as [H|H]; [now apply oc_func, I1|]. apply in_app_or in H as [H|H]; apply in_flat_map in H as (x & Hx & H).
      * exact (oc_arg k v f args kws x Hx (I2 x Hx H)).
      * destruct x as [x w]. cbn [fst snd] in H. destruct H as [H|H]; [|exact (oc_value k v f args kws (x, w) Hx (I3 x w Hx H))].
        injection H as Ek Ev. apply (oc_keyword k v f args kws (x, w) Hx); [|exact Ev]. destruct x as [x|]; cbn in *; subst; auto.
    + intros H. apply in_flat_map in H as (x & Hx & H). exact (oc_part k v label l x Hx (I x Hx H)).
  - intros H. induction H as [f args kws q Hq E V|f args kws q Hq _ IH|f args kws _ IH|f args kws a Ha _ IH|items x w Hx _ IH|items x w Hx _ IH|label l x Hx _ IH]; cbn [keywords_in].
    + apply in_or_app. right. apply in_or_app. right. apply in_flat_map. exists q. split; [exact Hq|]. left. rewrite V. destruct E as [->|[-> ->]]; reflexivity.
    + apply in_or_app. right. apply in_or_app. right. apply in_flat_map. exists q. split; [exact Hq|]. now right.
    + apply in_or_app. now left.
    + apply in_or_app. right. apply in_or_app. left. apply in_flat_map. now exists a.
    + apply in_or_app. left. apply in_flat_map. exists (KNode x, w). auto.
    + apply in_or_app. right. apply in_flat_map. exists (x, w). auto.
    + apply in_flat_map. now exists x.
Qed.
Lemma without_none n : without_keywords n -> keywords_in n = [].
Proof. intros N. destruct (keywords_in n) as [|[k v] l] eqn:E; [reflexivity|]. exfalso. apply (N k v). apply in_keywords. rewrite E. now left. Qed.
Lemma none_without n : keywords_in n = [] -> without_keywords n.
Proof. intros E k v O. apply in_keywords in O. now rewrite E in O. Qed.

(** * Displays *)
Lemma display_ok items : forall d l, items = map (fun q => (KStr (fst q), snd q)) l -> display_dict d items = Ok (dupdate d l).
Proof. induction items as [|[k v] items IH]; intros d [|[j w] l] E; try discriminate; [reflexivity|]. injection E as -> -> E. cbn [display_dict fst snd]. rewrite (IH _ l E). now rewrite dupdate_cons. Qed.
Lemma display_bad items : (exists q, In q items /\ forall s, fst q <> KStr s) -> forall d, display_dict d items = Raise AttributeError.
Proof.
  induction items as [|[k v] items IH]; intros (q & H & N) d; [destruct H|]. destruct H as [E|H].
  - subst q. destruct k as [s| |]; try reflexivity. now destruct (N s).
  - cbn [display_dict]. destruct k; try reflexivity. apply IH. now exists q.
Qed.
Lemma all_strings items : (forall q, In q items -> exists s, fst q = KStr s) -> exists l : list (string * node), items = map (fun q => (KStr (fst q), snd q)) l.
Proof.
  induction items as [|[k v] items IH]; intros H; [now exists []|]. destruct (H (k, v) (or_introl eq_refl)) as [s E]. cbn in E. subst k.
  destruct IH as [l ->]; [intros q Hq; apply H; now right|]. now exists ((s, v) :: l).
Qed.
Lemma flat_call d : (forall k v, In (k, v) d -> without_keywords v) -> keywords_in (dict_call d) = d.
Proof.
  intros N. unfold dict_call. cbn [keywords_in flat_map app]. induction d as [|[k v] d IH]; [reflexivity|]. cbn [map flat_map fst snd kw_key].
  rewrite (without_none v); [|apply (N k); now left]. cbn [app]. f_equal. apply IH. intros j w H. apply (N j). now right.
Qed.
