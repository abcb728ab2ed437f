(** What is said about the names of the items of class dicts. *)
From Verif Require Export ClassNames_Model PipeDict_Spec.
Local Open Scope string_scope.
Local Open Scope list_scope.

(** the tree with every item under its current name, as in the models where names do not change *)
Fixpoint seen (kc : nat -> callable) (h : heap) (c : ccoll) : coll :=
  match c with
  | CC n l _ => Coll n ((fix go (l : list cent) : list entry :=
                           match l with
                           | [] => []
                           | MItem i :: l' => EItem (h i) (TInst (kc i)) :: go l'
                           | MSec c' :: l' => EColl (seen kc h c') :: go l'
                           end) l)
  end.
Definition seen_found (kc : nat -> callable) (h : heap) (f : cfound) : found :=
  match f with MFItem i => FThing (TInst (kc i)) | MFSec c => FColl (seen kc h c) | MOther => FOther end.
Definition seen_res (kc : nat -> callable) (h : heap) (r : res cfound) : res found :=
  match r with Ok f => Ok (seen_found kc h f) | Raise e => Raise e end.
(** what is made of an element of the class dict, for [from_dict] *)
Definition view_of (u_new : pd -> res string) (k : callable) (v : pd) : res (string * thing) :=
  match u_new v with Ok n => Ok (n, TInst k) | Raise e => Raise e end.

(** every collection knows its entries by their current names *)
Inductive fresh (h : heap) : ccoll -> Prop :=
| Fresh n l : (forall c, In (MSec c) l -> fresh h c) -> fresh h (cc_new h n l).
(** the instances have numbers below [k] *)
Inductive below (k : nat) : ccoll -> Prop :=
| Below n l d : (forall i, In (MItem i) l -> i < k) -> (forall c, In (MSec c) l -> below k c) -> below k (CC n l d).
(** names lead to entries, and sections are known by their names *)
Inductive sane : ccoll -> Prop :=
| Sane n l d : (forall x m, dget x d = Some m -> exists e, nth_error l m = Some e /\ match e with MSec c => cc_name c = x | MItem _ => True end) ->
               (forall c, In (MSec c) l -> sane c) -> sane (CC n l d).

(** the last entry whose current name is [x] *)
Fixpoint last_now (h : heap) (x : string) (l : list cent) : option cent :=
  match l with
  | [] => None
  | e :: l' => match last_now h x l' with Some e' => Some e' | None => if String.eqb x (now h e) then Some e else None end
  end.
Definition found_of (e : cent) : cfound := match e with MItem i => MFItem i | MSec c => MFSec c end.

(** the part of the path of a new item that is there already *)
Fixpoint grown (c : ccoll) (path : list string) : list string :=
  match path with
  | [] => []
  | x :: rest => match cc_getattr c x with Ok (MFSec c') => x :: grown c' rest | _ => [] end
  end.
(** what is added there: the item or a new section *)
Definition added (rest : list string) (e e' : cent) : Prop :=
  match rest with [] => e' = e | x :: _ => exists c, e' = MSec c /\ cc_name c = x end.

(** an item lies in a collection: the names of the sections on the way, and the instance *)
Inductive lies : ccoll -> list string -> nat -> Prop :=
| L_here n l d i : In (MItem i) l -> lies (CC n l d) [] i
| L_sub n l d c p i : In (MSec c) l -> lies c p i -> lies (CC n l d) (cc_name c :: p) i.

(** a session: instances are initialised again, items are created *)
Inductive event : Type := Init (i : nat) (n : string) | Create (path : list string) (item : string).
Section Class.
Variable u_new : pd -> res string.
Definition step (s : cstate) (e : event) : cstate :=
  match e with
  | Init i n => rename i n s
  | Create path item => match ccreate u_new path item s with Ok (s', _) => s' | Raise _ => s end
  end.
Definition session (l : list event) (s : cstate) : cstate := fold_left step l s.

(** nothing is added to a section on the way to [q] *)
Fixpoint quiet (q : list string) (l : list event) (s : cstate) : Prop :=
  match l with
  | [] => True
  | e :: l' => match e with Create path _ => ~ exists r, q = grown (k_coll s) path ++ r | Init _ _ => True end /\ quiet q l' (step s e)
  end.
(** no instance changes its name *)
Fixpoint keeps_names (l : list event) (s : cstate) : Prop :=
  match l with
  | [] => True
  | e :: l' => match e with Init i n => n = k_names s i | Create _ _ => True end /\ keeps_names l' (step s e)
  end.
(** the same creations where names do not change *)
Definition static_step (k : callable) (c : coll) (e : event) : coll :=
  match e with
  | Init _ _ => c
  | Create path item => match u_new (PStr item) with
                        | Raise _ => c
                        | Ok n => match coll_set c path (EItem n (TInst k)) with Ok c' => c' | Raise _ => c end
                        end
  end.
End Class.

(** example: a class that takes the name as it is; a dict with the items a and b of a section s *)
Definition same_name (v : pd) : res string := match v with PStr s => Ok s | _ => Raise TypeError end.
Definition cn_dict : dict pd := [("s", PList [PStr "a"; PStr "b"])].
Definition cn_state : cstate :=
  let h := set_name 1 "b" (set_name 0 "a" (fun _ => "")) in MSt (cc_new h "ks" [MSec (cc_new h "s" [MItem 0; MItem 1])]) h 2.
