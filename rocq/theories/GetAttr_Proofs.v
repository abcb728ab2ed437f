From Verif Require Import Runner_Model GetAttr_Model GetAttr_Spec.
Local Open Scope string_scope.
Local Open Scope list_scope.

Lemma not_listed x l : ~ In x l <-> mem x l = false.
Proof.
  induction l as [|y l IH]; [cbn; tauto|]. cbn [In]. change (mem x (y :: l)) with (String.eqb x y || mem x l)%bool.
  rewrite Bool.orb_false_iff, <- IH, String.eqb_neq. firstorder congruence.
Qed.

Lemma do_access_plain its u a x s : (a = OnManager x \/ a = OnRunner x) -> plain_name x ->
  do_access its u a s = runner_getattr its u x s.
Proof. intros [-> | ->] [H1 H2]; apply not_listed in H1; apply not_listed in H2; cbn [do_access];
  change pm_attrs with own_names_of_managers; change runner_attrs with own_names_of_runners; rewrite ?H1, H2; reflexivity. Qed.

Lemma string_app_assoc (a b c : string) : ((a ++ b) ++ c)%string = (a ++ b ++ c)%string.
Proof. induction a; cbn; [reflexivity|now f_equal]. Qed.

Lemma chain_cons its u first y l s : l <> [] -> chain its u first (y :: l) s =
  let '(s1, o) := do_access its u (if first then OnManager y else OnRunner y) s in
  match o with Raise e => (s1, Some (Raise e)) | Ok ASelf => chain its u false l s1 | Ok _ => (s1, None) end.
Proof. destruct l; [congruence|]. reflexivity. Qed.

Lemma split_head x t : has_char dot x = false -> exists y rest, split dot (x ++ t) = (x ++ y)%string :: rest.
Proof.
  induction x as [|c x IH]; cbn [append has_char]; intro H.
  - destruct (split dot t) as [|y rest] eqn:E; [exfalso; now apply (split_nonempty dot t)|]. exists y, rest. reflexivity.
  - apply orb_false_iff in H as [H1 H2]. destruct (IH H2) as (y & rest & E). cbn [split]. rewrite H1, E. eauto.
Qed.
