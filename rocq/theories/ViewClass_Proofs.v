(** Proofs about class checks on views. *)
From Verif Require Import Runner_Model View_Model View_Spec View_Proofs Selector_Proofs Selector_Props GetAttr_Proofs Report_Proofs SectionPath_Proofs ViewClass_Model ViewClass_Spec.
Local Open Scope string_scope.
Local Open Scope list_scope.

Section ViewClassProofs.
Variable u : user.
Variable sel : string -> vsel.
Variable bc : attr -> list string -> res (option cls).

Lemma isinstance_none t ts w path : is_none_of u sel bc ts w path -> In t ts -> view_isinstance u sel bc t path w = (w, Ok false).
Proof. intros (c & Hc & H) Hi. unfold view_isinstance. rewrite Hc. destruct c as [k|]; [|reflexivity]. now rewrite (H t k Hi eq_refl). Qed.
Lemma isinstance_raises t w w1 path e : view_class u sel bc path w = (w1, Raise e) -> view_isinstance u sel bc t path w = (w1, Raise e).
Proof. intros H. unfold view_isinstance. now rewrite H. Qed.
Lemma isinstance_any_none ts w path : is_none_of u sel bc ts w path -> view_isinstance_any u sel bc ts path w = (w, Ok false).
Proof.
  induction ts as [|t ts IH]; intros H; [reflexivity|]. cbn [view_isinstance_any]. rewrite (isinstance_none t (t :: ts)) by (auto; now left).
  apply IH. destruct H as (c & Hc & H). exists c. split; [exact Hc|]. intros t' k Hi. apply H. now right.
Qed.
Lemma isinstance_any_raises ts w w1 path e : ts <> [] -> view_class u sel bc path w = (w1, Raise e) -> view_isinstance_any u sel bc ts path w = (w1, Raise e).
Proof. intros Hne H. destruct ts as [|t ts]; [congruence|]. cbn [view_isinstance_any]. now rewrite (isinstance_raises t w w1 path e H). Qed.
Lemma none_of_incl ts ts' w path : incl ts' ts -> is_none_of u sel bc ts w path -> is_none_of u sel bc ts' w path.
Proof. intros Hi (c & Hc & H). exists c. split; [exact Hc|]. intros t k Ht. apply H. now apply Hi. Qed.

Lemma make_selector_struct w s : make_selector w = Ok s -> new_selector (smgrs w) = Ok (vs_struct s).
Proof. unfold make_selector. destruct (new_selector (smgrs w)) as [st|]; [|discriminate]. now intros [= <-]. Qed.

(** [path] is contained, although its class cannot be found *)
Lemma contained_class path w : (exists b, sel_contains (vs_struct (sel path)) (smgrs w) (IStr path) = Ok (true, b)) -> class_attr u sel bc path w = (w, Ok None).
Proof.
  intros [b H]. unfold class_attr. cbn [sel_contains] in H. destruct (locate (vs_struct (sel path)) (smgrs w) path) as [[c|g c parts]|e]; [reflexivity| |discriminate].
  destruct (coll_get c parts) as [f|e]; [reflexivity|]. destruct e; discriminate.
Qed.
(** [path] is not contained *)
Lemma not_contained path w : sel_contains (vs_struct (sel path)) (smgrs w) (IStr path) = Ok (false, false) ->
  view_class u sel bc path w = match real_item u w path with
                               | (w1, Raise AttributeError) => (w1, Ok None)
                               | (w1, Raise e) => (w1, Raise (lookup_error e))
                               | (w1, Ok (AGot (GObj (LPartial _ _ _ _)), [])) => (w1, Ok (Some KPartial))
                               | (w1, Ok (AGot (GObj (LInst _ k _)), [])) => (w1, Ok (Some (KClass k)))
                               | (w1, Ok (ASelf, [])) => (w1, Ok (Some KRunner))
                               | (w1, Ok (a, rest)) => (w1, match bc a rest with Raise AttributeError => Ok None | r => r end)
                               end \/
  exists g c parts, locate (vs_struct (sel path)) (smgrs w) path = Ok (LIn g c parts) /\ coll_get c parts = Ok FOther.
Proof.
  intros H. cbn [sel_contains] in H. unfold view_class, get_type, class_attr. destruct (locate (vs_struct (sel path)) (smgrs w) path) as [[c|g c parts]|e]; [discriminate| |discriminate].
  destruct (coll_get c parts) as [[c'|t|]|e] eqn:G; [discriminate|discriminate| |].
  - right. now exists g, c, parts.
  - left. destruct e; try discriminate. destruct (real_item u w path) as [w1 [[a rest]|e]];
      [|destruct e; try reflexivity; cbn [lookup_error]; destruct (String.eqb _ _); reflexivity].
    destruct a as [|[[]|l|d]|]; destruct rest; try reflexivity; match goal with |- context [bc ?a ?r] => now destruct (bc a r) as [?|[]] end.
Qed.

Lemma record_views_none is_sp is_str full vals w : (forall p, In (VView p) vals -> is_none_of u sel bc [is_sp; is_str] w p) ->
  record_views u sel bc is_str is_sp full vals w = (w, map (fun p => (full, Path (mk_sp p))) (views_of vals), Ok tt).
Proof.
  induction vals as [|v vals IH]; intros H; [reflexivity|].
  assert (IH' := IH (fun p Hp => H p (or_intror Hp))).
  destruct v; cbn [record_views views_of flat_map]; fold (views_of vals); try exact IH'.
  unfold view_from_ambiguous. assert (N := H path (or_introl eq_refl)). rewrite (isinstance_none is_sp _ w path N) by now left.
  rewrite (isinstance_none is_str _ w path N) by (right; now left). rewrite IH'. reflexivity.
Qed.
Lemma record_views_raises is_sp is_str full before p after w e : (forall q, In (VView q) before -> is_none_of u sel bc [is_sp; is_str] w q) -> class_raises u sel bc w p e ->
  record_views u sel bc is_str is_sp full (before ++ VView p :: after) w = (w, map (fun q => (full, Path (mk_sp q))) (views_of before), Raise e).
Proof.
  intros H C. induction before as [|v vals IH].
  - cbn [app record_views]. unfold view_from_ambiguous. now rewrite (isinstance_raises is_sp w w p e C).
  - assert (IH' := IH (fun q Hq => H q (or_intror Hq))). destruct v; cbn [app record_views views_of flat_map]; fold (views_of vals); try exact IH'.
    unfold view_from_ambiguous. assert (N := H path (or_introl eq_refl)). rewrite (isinstance_none is_sp _ w path N) by now left.
    rewrite (isinstance_none is_str _ w path N) by (right; now left). rewrite IH'. reflexivity.
Qed.

Lemma arg_strs_paths l ss : Forall2 names_path l ss -> arg_strs l = Ok ss.
Proof. induction 1 as [|a s l ss H _ IH]; [reflexivity|]. cbn [arg_strs]. rewrite IH. destruct H as [s|path n below E]; cbn [arg_str]; [reflexivity|]. now rewrite E. Qed.
Lemma arg_strs_else l : In GElse l -> (forall a, In a l -> arg_str a = Raise ValueError \/ exists s, arg_str a = Ok s) -> arg_strs l = Raise ValueError.
Proof.
  induction l as [|a l IH]; [contradiction|]. intros Hi Ha. cbn [arg_strs]. destruct (Ha a (or_introl eq_refl)) as [->|[s E]]; [reflexivity|]. rewrite E.
  destruct Hi as [->|Hi]; [discriminate E|]. rewrite IH; auto. intros b Hb. apply Ha. now right.
Qed.
End ViewClassProofs.

Lemma vc_w_ok : world_ok vc_w.
Proof.
  split; [repeat constructor; cbn; intuition discriminate|]. intros n m. rewrite dget_smgrs. cbn [vc_w dget]. destruct (String.eqb n "p"); [|destruct (String.eqb n "q"); [|discriminate]].
  - cbn [option_map]. intros [= <-]. exists vc_items. split; [reflexivity|]. split; [reflexivity|]. split; [repeat constructor; cbn; intuition discriminate|]. cbn. intuition discriminate.
  - cbn [option_map]. intros [= <-]. eexists. split; [reflexivity|]. split; [reflexivity|]. split; [repeat constructor; cbn; intuition discriminate|]. cbn. intuition discriminate.
Qed.
