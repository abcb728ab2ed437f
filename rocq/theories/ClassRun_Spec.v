(** What is said about running the items of class dicts. *)
From Verif Require Export Setup_Spec FileStr_Model.
Local Open Scope string_scope.
Local Open Scope list_scope.

(** the item at a path is an instance of the class [k] *)
Definition is_inst (its : items) (path : string) (k : callable) : Prop :=
  exists b, get_func_or_collection its path = Ok (b, FThing (TInst k)).

(** paths of items in the class dict [nm] without the names that mean something else, like [plain_path] *)
Definition plain_item (config_folder nm : string) (p : list string) : Prop :=
  usable_path p /\ own_folder config_folder (nm :: p) /\
  Forall (fun x => mem x mgr_reserved = false /\ has_char dot x = false /\ x <> "") (nm :: p) /\
  Forall (fun x => hidden x = false) (removelast (nm :: p)) /\ last p "" <> "section".

(** the parameters of a class, with the item's name for [key_attr] *)
Definition named (it : item) (key_attr : string) (name_value : value) : item :=
  Item (i_imports it) (dset key_attr name_value (i_defaults it)) (i_always_imports it) (i_begin it) (i_end it).
