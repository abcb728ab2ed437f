(** Statements about run_product with lists that can be changed in place. *)
From Verif Require Export Alias_Spec AliasIterate_Model.
Local Open Scope list_scope.

(** the run with values *)
Definition v_needs_update (filled : dict pyval) (last : option (dict pyval)) : res bool :=
  match last with
  | None => Ok true
  | Some l => match dict_eq filled l with Ok b => Ok (negb b) | Raise e => Raise e end
  end.
Definition v_case (params : list string) (defaults conf : dict pyval) (s : vst) (last : option (dict pyval))
  : vst * option (dict pyval) * res bool :=
  let filled := dupdate defaults conf in
  match v_needs_update filled last with
  | Raise e => (s, last, Raise e)
  | Ok b =>
      let '(s1, r) := if b then v_step params (VUpdate filled true) s else (s, Ok false) in
      match r with
      | Raise e => (s1, last, Raise e)
      | Ok u => (fst (v_step params VRun s1), Some filled, Ok u)
      end
  end.
Fixpoint v_cases (params : list string) (defaults : dict pyval) (cases : list (dict pyval)) (s : vst) (last : option (dict pyval))
  : vst * option (dict pyval) * res unit :=
  match cases with
  | [] => (s, last, Ok tt)
  | c :: rest =>
      match v_case params defaults c s last with
      | (s', last', Ok _) => v_cases params defaults rest s' last'
      | (s', last', Raise e) => (s', last', Raise e)
      end
  end.

(** updates as a caller may give them *)
Definition update_ok (h : heap) (d : dict hv) : Prop := dwf d /\ refs_ok h d /\ Forall key_ok (dkeys d).

(** two dicts have the same keys in the same order, share no list, and have the same contents *)
Definition copy_of (h : heap) (d : dict hv) (h' : heap) (d' : dict hv) : Prop :=
  dkeys d' = dkeys d /\ dcontents h' d' = dcontents h d
  /\ (forall l, holds d' l -> length h <= l < length h').

(** ---- example: two updates of xs, and n as in the file ---- *)
Definition ap_heap : heap := [[VInt 7]; [VInt 2]; [VInt 3]].
Definition ap_updates : list (dict hv) := [[("xs"%string, HRef 1)]; [("xs"%string, HRef 2)]].
