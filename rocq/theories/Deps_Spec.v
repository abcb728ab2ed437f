(** Specification vocabulary for C38 and C39. *)
From Verif Require Import Deps_Model.
From Coq Require Import Permutation.
Local Open Scope string_scope.
Local Open Scope list_scope.

Section Spec.
Context {V : Type} (u : user V).

(** What a file yields when the attributes of other items are simply looked up in [objs]: the items it reads and its
    assignments. [None] if it fails or an item is not loaded. *)
Fixpoint yields (objs : dict (dict V)) (p : prog V) : option (list string * dict V) :=
  match p with
  | Ret d => Some ([], dict_of d)
  | Fail _ => None
  | Read j k cont =>
      match dget j objs with
      | Some o => match dget k o with
                  | Some v => match yields objs (cont v) with Some (l, d) => Some (j :: l, d) | None => None end
                  | None => None
                  end
      | None => None
      end
  end.

(** every stored value that the file or a persisted update determines is that one, or equal to it as values are compared *)
Definition up_to_date (c all : dict V) : Prop :=
  forall k v w, dget k all = Some v -> dget k c = Some w -> w = v \/ u_eq u w v = true.

(** The config of [x], if loaded, is what its file yields for the present values of other items, overridden by its persisted
    updates; and everything it refers to knows that [x] depends on it. *)
Definition clean (s : st V) (x : string) : Prop :=
  forall c, dget x (cfgs s) = Some c ->
  exists l d, yields (objs s) (u_file u x) = Some (l, d) /\
    (forall j, In j l -> In x (dependents j s)) /\ up_to_date (vals c) (dupdate d (applied c)).

(** a file refers only to items before its own, in some order without cycles *)
Inductive reads_before (rank : string -> nat) (i : string) : prog V -> Prop :=
| RBRet d : reads_before rank i (Ret d)
| RBFail e : reads_before rank i (Fail e)
| RBRead j k cont : rank j < rank i -> (forall v, reads_before rank i (cont v)) -> reads_before rank i (Read j k cont).

Definition acyclic (rank : string -> nat) : Prop := forall i, reads_before rank i (u_file u i).

(** real dicts have distinct keys *)
Definition st_wf (s : st V) : Prop := forall i c, dget i (cfgs s) = Some c -> dwf (applied c).

Definition empty_st : st V := St [] [] [].

(** sets are iterated over in some order *)
Definition set_order : Prop := forall s l, Permutation (u_order u s l) l.

(** user code never raises [e] *)
Inductive never_fails (e : exn) : prog V -> Prop :=
| NFRet d : never_fails e (Ret d)
| NFFail e' : e' <> e -> never_fails e (Fail e')
| NFRead j k cont : (forall v, never_fails e (cont v)) -> never_fails e (Read j k cont).
Definition never_raises (e : exn) : Prop :=
  (forall i, never_fails e (u_file u i)) /\ (forall i c, u_init u i c <> Raise e) /\ (forall i o c, u_apply u i o c <> Raise e).

(** Python gave up because of the depth of calls; it says so only outside of config files, inside of them the lookup of the
    item that was too deep is reported as a wrong name *)
Definition gave_up (e : exn) : Prop := e = RecursionError \/ e = LibExn "ItemNotFoundException".

(** files of the items in [U] refer only to items in [U] *)
Inductive reads_within (U : list string) : prog V -> Prop :=
| RWRet d : reads_within U (Ret d)
| RWFail e : reads_within U (Fail e)
| RWRead j k cont : In j U -> (forall v, reads_within U (cont v)) -> reads_within U (Read j k cont).

(** recorded dependencies are between items of [U] and go upwards *)
Definition deps_within (rank : string -> nat) (U : list string) (s : st V) : Prop :=
  (forall j x, In x (dependents j s) -> In x U /\ rank j < rank x) /\ (forall j, NoDup (dependents j s)).
End Spec.
Arguments empty_st {V}.

(** ** For the independence of the visiting order *)
Section Order.
Context {V : Type}.

Definition with_order (u : user V) (order : st V -> list string -> list string) : user V :=
  User V (u_eq u) (u_file u) (u_inherited u) (u_init u) (u_apply u) order.

Record regular (u : user V) (keys : string -> string -> bool) : Prop := {
  reg_eq : forall v w, u_eq u v w = true -> v = w;
  reg_inherited : forall i, u_inherited u i = [];
  reg_init : forall i c c', (forall k, dget k c = dget k c') -> u_init u i c = u_init u i c';
  reg_apply : forall i o c, u_apply u i o c = u_init u i c;      (* e.g. __init__ is called again *)
  reg_keys : forall i objs l d k, yields objs (u_file u i) = Some (l, d) -> dmem k d = keys i k
}.

(** all values that files and persisted updates determine are stored, and loaded objects were made from their configs *)
Definition settled (u : user V) (keys : string -> string -> bool) (s : st V) : Prop :=
  st_wf s /\ (forall x, clean u s x) /\
  (forall x c k, dget x (cfgs s) = Some c -> keys x k = true \/ dmem k (applied c) = true -> dmem k (vals c) = true) /\
  (forall x o, dget x (objs s) = Some o -> exists c, dget x (cfgs s) = Some c /\ u_init u x (vals c) = Ok o).

Definition same_values (d d' : dict V) : Prop := forall k, dget k d = dget k d'.
End Order.
