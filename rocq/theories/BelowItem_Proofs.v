(** Proofs for [BelowItem_Props]. *)
From Verif Require Import BelowItem_Spec ConfigTree_Proofs.
Local Open Scope string_scope.
Local Open Scope list_scope.

Lemma leaf_app l p q m : leaf_getattrs l p = Ok m -> leaf_getattrs l (p ++ q) = leaf_getattrs m q.
Proof.
  revert l. induction p as [|y p IH]; intros l H; cbn [leaf_getattrs app] in *; [now injection H as <-|].
  destruct l as [c|c|r n|s|]; try discriminate; match goal with |- context [if ?b then _ else _] => destruct b end; try discriminate; now apply IH.
Qed.
Lemma get_nested_below r s p q l : get_nested r s p = Ok l -> (forall s', l <> LSec s') -> get_nested r s (p ++ q) = leaf_getattrs l q.
Proof.
  revert r s. induction p as [|x p IH]; intros r s H N; cbn [get_nested app] in *.
  - injection H as <-. now elim (N s).
  - destruct (sec_getattr r s x) as [m|e]; [|discriminate]. destruct m as [c|c|ref n|s'|].
    4: now apply IH.
    all: now apply leaf_app.
Qed.
Lemma leaf_two y rest : leaf_getattrs LOther (y :: rest) = Raise AttributeError.
Proof. reflexivity. Qed.

Lemma lookup_below st p y rest x : see st p = Some x -> is_item x ->
  lookup_at st (p ++ y :: rest) = if has_attribute x y && match rest with [] => true | _ => false end then Ok LOther else Raise AttributeError.
Proof.
  intros S I. unfold see in S. destruct (lookup_at st p) as [l|] eqn:E; [|discriminate]. unfold lookup_at in *.
  rewrite (get_nested_below _ _ _ _ _ E) by (intros s' ->; injection S as <-; exact I).
  destruct l as [c|c|r n|s|]; try discriminate; injection S as <-; cbn [leaf_getattrs has_attribute is_item] in *; try easy; try change conf_reserved with names_of_configs; try change file_reserved with names_of_files.
  all: match goal with |- (if ?b then _ else _) = _ => destruct b end; [|reflexivity]; now destruct rest.
Qed.
Lemma gf_below st p y rest x : see st p = Some x -> is_item x ->
  get_func_or_section_configs (p ++ y :: rest) st = (st, Raise (below_error x y rest)).
Proof.
  intros S I. unfold get_func_or_section_configs, below_error. rewrite (lookup_below _ _ _ _ _ S I).
  now destruct (has_attribute x y && _).
Qed.
