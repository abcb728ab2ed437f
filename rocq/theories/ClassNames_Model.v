(** Model of the names of the items of class dicts: pyfileconf/data/models/collection.py, pyfileconf/basemodels/collection.py,
    pyfileconf/basemodels/registrar.py and the part of main.py:408-456 (create) for class dicts.

    An item of a class dict is an instance, and its name is its attribute [key_attr], which its class may set as it likes and
    which changes when the instance is initialised again. Collections find their entries by the names these had when the
    collection was last changed. Simplification: the attribute is there and is a string. *)
From Verif Require Export PipeDict_Model.
Local Open Scope string_scope.
Local Open Scope list_scope.

(** A SpecificClassCollection: its name, its items, and [name_dict] with the position of the item in place of the item.
    Instances are numbered. *)
Inductive ccoll : Type := CC (name : string) (entries : list cent) (name_dict : dict nat)
with cent : Type := MItem (id : nat) | MSec (c : ccoll).
Definition cc_name (c : ccoll) : string := match c with CC n _ _ => n end.
Definition cc_entries (c : ccoll) : list cent := match c with CC _ l _ => l end.
Definition cc_index (c : ccoll) : dict nat := match c with CC _ _ d => d end.

(** The current names of the instances. *)
Definition heap : Type := nat -> string.
Definition set_name (i : nat) (n : string) (h : heap) : heap := fun j => if Nat.eqb i j then n else h j.
(** [getattr(obj_or_collection, key_attr)], data/models/collection.py:28-32 *)
Definition now (h : heap) (e : cent) : string := match e with MItem i => h i | MSec c => cc_name c end.

(** _set_name_map, data/models/collection.py:24-34; [n] is the position of the first entry of [l] *)
Fixpoint name_map (h : heap) (n : nat) (l : list cent) (d : dict nat) : dict nat :=
  match l with [] => d | e :: l' => name_map h (S n) l' (dset (now h e) n d) end.
(** Collection.__init__, basemodels/collection.py:40-54 *)
Definition cc_new (h : heap) (name : string) (l : list cent) : ccoll := CC name l (name_map h 0 l []).
(** append, basemodels/collection.py:86-88 *)
Definition cc_append (h : heap) (c : ccoll) (e : cent) : ccoll := cc_new h (cc_name c) (cc_entries c ++ [e]).

(** what a lookup gives *)
Inductive cfound : Type := MFItem (id : nat) | MFSec (c : ccoll) | MOther.
(** [getattr(collection, x)], basemodels/collection.py:68-72, like [coll_getattr] *)
Definition cc_getattr (c : ccoll) (x : string) : res cfound :=
  if mem x coll_reserved then Ok MOther
  else match dget x (cc_index c) with
       | None => Raise AttributeError
       | Some n => match nth_error (cc_entries c) n with
                   | Some (MItem i) => Ok (MFItem i)
                   | Some (MSec c') => Ok (MFSec c')
                   | None => Raise AttributeError        (* not possible *)
                   end
       end.
(** logic/get.py:8-39, like [coll_get] *)
Fixpoint cc_get (c : ccoll) (parts : list string) : res cfound :=
  match parts with
  | [] => Ok (MFSec c)
  | x :: rest => match cc_getattr c x with
                 | Raise e => Raise e
                 | Ok (MFSec c') => cc_get c' rest
                 | Ok f => match rest with [] => Ok f | _ :: _ => Raise AttributeError end
                 end
  end.

Fixpoint replace_nth (n : nat) (e : cent) (l : list cent) : list cent :=
  match l, n with
  | [], _ => []
  | _ :: l', 0 => e :: l'
  | a :: l', S m => a :: replace_nth m e l'
  end.
(** Registrar.set, registrar.py:76-97, from a collection on, like [coll_set]. The collections in between are changed in place:
    their own [name_dict] stays as it is. *)
Fixpoint cc_set (h : heap) (c : ccoll) (path : list string) (e : cent) : res ccoll :=
  match path with
  | [] => Ok (cc_append h c e)
  | x :: rest =>
      match cc_getattr c x with
      | Ok (MFSec c') => match cc_set h c' rest e, dget x (cc_index c) with
                        | Ok c2, Some n => Ok (CC (cc_name c) (replace_nth n (MSec c2) (cc_entries c)) (cc_index c))
                        | Raise r, _ => Raise r
                        | _, None => Raise AttributeError      (* not possible *)
                        end
      | Ok _ => Raise AttributeError
      | Raise _ => match cc_set h (cc_new h x []) rest e with
                   | Ok c2 => Ok (cc_append h c (MSec c2))
                   | Raise r => Raise r
                   end
      end
  end.

(** _output_config_files, data/models/collection.py:48-62: the config files of the items of a collection, in the order of writing *)
Fixpoint cc_files (h : heap) (base : list string) (c : ccoll) : list (list string) :=
  match c with
  | CC _ l _ =>
      (fix go (l : list cent) : list (list string) :=
         match l with
         | [] => []
         | MItem i :: l' => (base ++ [(h i ++ ".py")%string]) :: go l'
         | MSec c' :: l' => cc_files h (base ++ [cc_name c']) c' ++ go l'
         end) l
  end.

Section Class.
(** The name of a new instance made for an element of the class dict (data/logic/convert.py:8-20), if making it does not raise. *)
Variable u_new : pd -> res string.

(** A class dict in memory. *)
Record cstate : Type := MSt { k_coll : ccoll; k_names : heap; k_next : nat }.

(** making an instance *)
Definition make (v : pd) (h : heap) (next : nat) : res (heap * nat) :=
  match u_new v with Ok n => Ok (set_name next n h, S next) | Raise e => Raise e end.

(** Collection.__init__ with _transform_items, basemodels/collection.py:40-54 and 173-174, on the elements found *)
Inductive cpre : Type := CPreColl (c : ccoll) | CPreItem (v : pd).
Fixpoint ctransform (l : list cpre) (h : heap) (next : nat) : res (list cent * heap * nat) :=
  match l with
  | [] => Ok ([], h, next)
  | p :: r => match (match p with
                     | CPreColl c => Ok (MSec c, h, next)
                     | CPreItem v => match make v h next with Ok (h', n') => Ok (MItem next, h', n') | Raise e => Raise e end
                     end) with
              | Raise e => Raise e
              | Ok (e, h', n') => match ctransform r h' n' with Ok (es, h2, n2) => Ok (e :: es, h2, n2) | Raise x => Raise x end
              end
  end.
Definition cmk (name : string) (l : list cpre) (h : heap) (next : nat) : res (ccoll * heap * nat) :=
  match ctransform l h next with Ok (es, h', n') => Ok (cc_new h' name es, h', n') | Raise e => Raise e end.

(** Collection.from_dict and from_list, basemodels/collection.py:100-168, like [from_pd] *)
Fixpoint cfrom (name : string) (v : pd) (h : heap) (next : nat) : res (ccoll * heap * nat) :=
  match v with
  | PDict l =>
      match (fix go (l : list (string * pd)) (h : heap) (next : nat) : res (list cpre * heap * nat) :=
               match l with
               | [] => Ok ([], h, next)
               | (k, x) :: r =>
                   match x with
                   | PDict _ | PList _ =>
                       match cfrom k x h next with
                       | Raise e => Raise e
                       | Ok (c, h1, n1) => match go r h1 n1 with Ok (ps, h2, n2) => Ok (CPreColl c :: ps, h2, n2) | Raise e => Raise e end
                       end
                   | _ => go r h next
                   end
               end) l h next with
      | Ok (ps, h', n') => cmk name ps h' n'
      | Raise e => Raise e
      end
  | PList l =>
      match (fix go (l : list pd) (h : heap) (next : nat) : res (list cpre * heap * nat) :=
               match l with
               | [] => Ok ([], h, next)
               | x :: r =>
                   match (match x with
                          | PDict d =>
                              (fix go' (d : list (string * pd)) (h : heap) (next : nat) : res (list cpre * heap * nat) :=
                                 match d with
                                 | [] => Ok ([], h, next)
                                 | (k, y) :: d' =>
                                     match (match y with
                                            | PDict _ | PList _ =>
                                                match cfrom k y h next with Ok (c, h1, n1) => Ok (CPreColl c, h1, n1) | Raise e => Raise e end
                                            | _ => Ok (CPreItem y, h, next)
                                            end) with
                                     | Raise e => Raise e
                                     | Ok (p, h1, n1) => match go' d' h1 n1 with Ok (ps, h2, n2) => Ok (p :: ps, h2, n2) | Raise e => Raise e end
                                     end
                                 end) d h next
                          | _ => Ok ([CPreItem x], h, next)
                          end) with
                   | Raise e => Raise e
                   | Ok (ps, h1, n1) => match go r h1 n1 with Ok (ps', h2, n2) => Ok (ps ++ ps', h2, n2) | Raise e => Raise e end
                   end
               end) l h next with
      | Ok (ps, h', n') => cmk name ps h' n'
      | Raise e => Raise e
      end
  | _ => Ok (cc_new h name [], h, next)
  end.
Definition cload (name : string) (d : dict pd) : res cstate :=
  match cfrom name (PDict d) (fun _ => "") 0 with Ok (c, h, n) => Ok (MSt c h n) | Raise e => Raise e end.

(** Initialising an instance again, when it is loaded, updated, reset or refreshed (config/logic/apply.py:14-21): afterwards
    its name is [n]. *)
Definition rename (i : nat) (n : string) (s : cstate) : cstate := MSt (k_coll s) (set_name i n (k_names s)) (k_next s).

(** create for a class dict, main.py:419-455: [path] is section_path[1:-1], [item] its last part. The new state, and the config
    files written by scaffold_config_for (registrar.py:64-68), relative to the folder of the class dict. Lookups from the
    registrar go to the collection; for names of attributes of the registrar see [reg_set]. *)
Definition ccreate (path : list string) (item : string) (s : cstate) : res (cstate * list (list string)) :=
  match make (PStr item) (k_names s) (k_next s) with
  | Raise e => Raise e
  | Ok (h, n) => match cc_set h (k_coll s) path (MItem (k_next s)) with
                 | Raise e => Raise e
                 | Ok c => match cc_get c path with
                           | Ok (MFSec c') => Ok (MSt c h n, cc_files h path c')
                           | Ok _ => Raise AttributeError
                           | Raise e => Raise e
                           end
                 end
  end.
End Class.
