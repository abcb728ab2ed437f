(** Python values as far as the library looks at them: it stores them, compares them with [==],
    and tests whether they are item views. *)
From Coq Require Export ZArith.
From Verif Require Export Py_Exn Py_Dict.

Inductive pyval : Type :=
| VNone
| VBool (b : bool)
| VInt (z : Z)
| VStr (s : string)
| VList (l : list pyval)
| VView (path : string)          (* an ItemView of the selector, identified by its full path *)
| VFunc (name : string)          (* a function or class object *)
| VObj (id : nat)                (* an object compared by identity *)
| VFrame (id content : nat)      (* a pandas DataFrame/Series: object identity and content *)
| VArray (id : nat)              (* a numpy array with several elements *)
| VBadEq (id : nat).             (* an object whose __eq__ raises *)

(** Outcome of evaluating [x == y] in Python: a truth value, an array of truth values (which has
    no truth value itself), or an exception. *)
Inductive eqres : Type := EqBool (b : bool) | EqAmbig | EqRaise.

(** [x is y] for the values whose identity matters inside list comparison *)
Definition py_is (x y : pyval) : bool :=
  match x, y with
  | VFrame i _, VFrame j _ | VArray i, VArray j | VBadEq i, VBadEq j => Nat.eqb i j
  | _, _ => false
  end.

(** Python's [x == y]. Lists of different length are unequal; otherwise the elements are compared in
    order, identical elements count as equal, and an element comparison without truth value raises.
    A comparison of a frame with [==] (only possible inside lists, see [values_are_equal]) gives a
    frame, which has no truth value either. Simplification: comparing a multi-element array with
    anything gives an array. *)
Fixpoint py_eq (x y : pyval) {struct x} : eqres :=
  match x, y with
  | VArray _, VBadEq _ | VBadEq _, _ | _, VBadEq _ => EqRaise
  | VArray _, _ | _, VArray _ => EqAmbig
  | VFrame _ _, _ | _, VFrame _ _ => EqAmbig
  | VNone, VNone => EqBool true
  | VBool a, VBool b => EqBool (Bool.eqb a b)
  | VBool a, VInt z | VInt z, VBool a => EqBool (Z.eqb z (if a then 1 else 0)%Z)
  | VInt a, VInt b => EqBool (Z.eqb a b)
  | VStr a, VStr b => EqBool (String.eqb a b)
  | VView a, VView b => EqBool (String.eqb a b)
  | VFunc a, VFunc b => EqBool (String.eqb a b)
  | VObj a, VObj b => EqBool (Nat.eqb a b)
  | VList l, VList k =>
      if Nat.eqb (length l) (length k) then
        (fix go (l k : list pyval) {struct l} : eqres :=
           match l, k with
           | a :: l', b :: k' =>
               if py_is a b then go l' k'
               else match py_eq a b with
                    | EqBool true => go l' k'
                    | EqBool false => EqBool false
                    | _ => EqRaise
                    end
           | _, _ => EqBool true
           end) l k
      else EqBool false
  | _, _ => EqBool false
  end.

(** [_values_are_equal] followed by the caller's truth test, basemodels/config.py:177-191 and 154:
    pandas objects go through [.equals]; a raising [==] counts as unequal; an [==] whose result has
    no truth value makes the caller's [if not ...] raise ValueError (it is outside the [try]). *)
Definition values_are_equal (x y : pyval) : res bool :=
  match x, y with
  | VFrame _ c, VFrame _ c' => Ok (Nat.eqb c c')
  | VFrame _ _, _ => Ok false
  | _, VFrame _ _ => Ok false
  | _, _ => match py_eq x y with
            | EqBool b => Ok b
            | EqAmbig => Raise ValueError
            | EqRaise => Ok false
            end
  end.

(** Values containing only data that compares normally *)
Fixpoint plain (x : pyval) : bool :=
  match x with
  | VList l => forallb plain l
  | VFrame _ _ | VArray _ | VBadEq _ => false
  | _ => true
  end.

(** induction principle that looks into lists *)
Section PyvalInd.
  Variable P : pyval -> Prop.
  Hypotheses (HNone : P VNone) (HBool : forall b, P (VBool b)) (HInt : forall z, P (VInt z))
    (HStr : forall s, P (VStr s)) (HList : forall l, Forall P l -> P (VList l))
    (HView : forall p, P (VView p)) (HFunc : forall n, P (VFunc n)) (HObj : forall n, P (VObj n))
    (HFrame : forall n c, P (VFrame n c)) (HArray : forall n, P (VArray n)) (HBad : forall n, P (VBadEq n)).
  Fixpoint pyval_ind2 (x : pyval) : P x :=
    match x with
    | VNone => HNone | VBool b => HBool b | VInt z => HInt z | VStr s => HStr s
    | VList l => HList l ((fix go l := match l return Forall P l with
                                       | [] => Forall_nil _
                                       | a :: l' => Forall_cons _ (pyval_ind2 a) (go l')
                                       end) l)
    | VView p => HView p | VFunc n => HFunc n | VObj n => HObj n | VFrame n c => HFrame n c
    | VArray n => HArray n | VBadEq n => HBad n
    end.
End PyvalInd.

Lemma py_eq_refl_plain x : plain x = true -> py_eq x x = EqBool true.
Proof.
  induction x as [| | | |l IH| | | | | |] using pyval_ind2; cbn [plain py_eq]; intro H; try discriminate;
    try (now rewrite ?eqb_reflx, ?Z.eqb_refl, ?eqb_refl_s, ?Nat.eqb_refl); try reflexivity.
  rewrite Nat.eqb_refl. induction IH as [|a l Ha Hl IHl]; [reflexivity|].
  cbn in H. apply andb_true_iff in H as [H1 H2]. specialize (IHl H2).
  destruct (py_is a a); [exact IHl|]. now rewrite (Ha H1).
Qed.

Lemma values_refl_plain x : plain x = true -> values_are_equal x x = Ok true.
Proof.
  intro H. assert (E := py_eq_refl_plain x H). destruct x; cbn [values_are_equal]; rewrite ?E; try reflexivity.
  discriminate.
Qed.

Definition is_item_view (v : pyval) : bool := match v with VView _ => true | _ => false end.
