(** Further theorems for C30: which configs are updated when a case follows another one.
    Specification vocabulary: IterateSame_Spec. *)
From Verif Require Import Iterate_Model IterateSame_Spec IterateSame_Proofs.
Local Open Scope string_scope.
Local Open Scope list_scope.

(** ** C30 *)

(** Before the first case all its configs are updated; later those that were not in the case before
    with the same path, keys, values and dict argument, and in their order. *)
Theorem C30_only_changes_updated : forall U it c w last s' o,
  (forall l, last = Some l -> Forall conf_wf l) -> Forall conf_wf c ->
  update_for_case U it c (IS w last) = (s', o) ->
  (exists e, o = Raise e /\ s' = IS w last /\ updated_confs last c = Raise e)
  \/ exists confs, (match last with None => confs = c | Some l => without (already_in l) c confs end)
       /\ batch_update U [] (it_base it) (it_strip it) (map (fun q => (LStr (fst q), snd q)) confs) w
          = (is_world s', o) /\ is_last s' = last.
Proof.
  intros U it c w last s' o WL WC. unfold update_for_case, bind, on_world. cbn [is_last is_world].
  destruct (updated_confs last c) as [confs|e] eqn:E.
  - destruct (batch_update _ _ _ _ _ _) as [w' r] eqn:B. intros [= <- <-]. right. exists confs.
    split; [|now split]. unfold updated_confs in E. destruct last as [l|]; [|now injection E].
    exact (not_in_last_iff _ _ _ WC (WL l eq_refl) E).
  - intros [= <- <-]. left. now exists e.
Qed.

(** The comparison goes through if all values compare normally. *)
Theorem C30_plain_cases_compare : forall last c,
  Forall conf_wf c -> Forall conf_plain c -> (forall l, last = Some l -> Forall conf_plain l) ->
  exists confs, updated_confs last c = Ok confs.
Proof.
  intros last c W P Q. destruct last as [l|]; [|now exists c].
  exact (plain_not_in_last _ _ W P (Q l eq_refl)).
Qed.

Example C30_ex_changes :
  updated_confs (Some [("f", Body None [("a", VInt 1); ("b", VInt 2)]); ("g", Body (Some [("x", VInt 1)]) [])])
    [("f", Body None [("b", VInt 2); ("a", VBool true)]); ("g", Body (Some [("x", VInt 1)]) []); ("h", Body None [])]
  = Ok [("h", Body None [])]
  /\ updated_confs (Some [("f", Body None [("a", VInt 1); ("b", VInt 2)]); ("g", Body (Some [("x", VInt 1)]) [])])
    [("f", Body None [("a", VInt 1)]); ("g", Body (Some []) [])]
  = Ok [("f", Body None [("a", VInt 1)]); ("g", Body (Some []) [])].
Proof. split; reflexivity. Qed.

Print Assumptions C30_only_changes_updated.
Print Assumptions C30_plain_cases_compare.
