(** What is said about creating entries of a loaded manager. *)
From Verif Require Export Create_Model Setup_Spec.
Local Open Scope string_scope.
Local Open Scope list_scope.

(** what is added where: in which kind of dict file, the file, the section in it, and the name of the entry *)
Record place : Type := Place { pl_general : bool; pl_file : path; pl_section : list string; pl_name : string }.
Definition general_place (s : setup) (p : list string) (n : string) : place := Place true (pipeline_file (su_folder s)) p n.
Definition class_place (s : setup) (p : list string) : place := Place false (dict_file (su_folder s) (hd "" p)) (removelast (tl p)) (last p "").

(** the path and the function do not fit together *)
Definition misfit (s : setup) (p : list string) (func : option (string * thing)) : Prop :=
  ((exists c, In c (su_classes s) /\ dget "name" c = Some (CStr (hd "" p))) /\ (func <> None \/ List.length p < 3)) \/
  ((forall c, In c (su_classes s) -> dget "name" c <> Some (CStr (hd "" p))) /\ func = None).
(** the place that belongs to the arguments *)
Inductive placed (s : setup) (p : list string) : option (string * thing) -> place -> Prop :=
| PlacedGeneral n t : (forall c, In c (su_classes s) -> dget "name" c <> Some (CStr (hd "" p))) -> placed s p (Some (n, t)) (general_place s p n)
| PlacedClass c : In c (su_classes s) -> dget "name" c = Some (CStr (hd "" p)) -> 3 <= List.length p -> placed s p None (class_place s p).

Section Entry.
Variable parse : bool -> string -> res (dict pd).
Variable view : string -> pd -> res (string * thing).
Variable save : bool -> option string -> string -> dict pd -> res string.

(** the dict file of the place held [d] in [f], and [text] is what is written for [d'], which has the new entry *)
Definition entered (f : fs) (pl : place) (d d' : dict pd) (text : string) : Prop :=
  load_dict parse (pl_general pl) f (pl_file pl) = Ok d /\ add_at d (pl_section pl) (new_entry (pl_general pl) (pl_name pl)) = (d', Ok tt) /\
  save (pl_general pl) (content f (pl_file pl)) (pl_name pl) d' = Ok text /\
  f (pl_file pl) <> Some Dir /\ (f (pl_file pl) <> None \/ f (parent (pl_file pl)) = Some Dir).

(** The text [new] says what it should: it can be read again, the names of the entries there were mean the same as before, and the
    new name means the object that was given. *)
Definition says (old new : string) (d d' : dict pd) (n : string) (t : thing) : Prop :=
  parse true new = Ok d' /\ (forall v, In v (viewed (PDict d)) -> view new v = view old v) /\ view new (PName n) = Ok (n, t).
End Entry.

(** what is seen of the config once the item at [p] has been created with the config [c]: sections on the way that were missing
    have no config of their own *)
Definition seen_with (st : cms) (p : list string) (c : config) (q : list string) : option seen :=
  if list_eq_dec string_dec q p then Some (SConf c)
  else match see st q with
       | Some v => Some v
       | None => if prefixb q p then Some (SSec (last q "") None) else None
       end.
