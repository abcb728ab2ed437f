(** Specification vocabulary for C32, C33 and C59. *)
From Verif Require Import Opts_Model.
Local Open Scope string_scope.
Local Open Scope list_scope.

(** the (option, value) pairs an operation sets, in order *)
Definition settings (op : oop) : list (string * pyval) :=
  match op with
  | OSet a v => [(a, v)]
  | OSets l => l
  | OReset a => [(a, default_value a)]
  | OResets l => map (fun a => (a, default_value a)) l
  | OResetAll => default_options
  | OAssign _ _ => []
  end.

(** the values log_folder is given, in order *)
Definition folders (l : list (string * pyval)) : list pyval :=
  map snd (filter (fun q => String.eqb (fst q) "log_folder") l).

(** log_folder is None or a string, as its type says *)
Definition folder_value (v : pyval) : Prop := v = VNone \/ exists f, v = VStr f.

(** only existing options are named, log_folder gets None or a string, nothing is assigned directly *)
Definition proper (op : oop) : Prop :=
  (forall a v, op <> OAssign a v) /\
  (forall a v, In (a, v) (settings op) -> In a option_attrs /\ (a = "log_folder" -> folder_value v)).

(** no value that is a folder is directly followed by a different folder *)
Fixpoint no_switch (now : pyval) (l : list pyval) : Prop :=
  match l with
  | [] => True
  | v :: rest => (now = VNone \/ v = VNone \/ v = now) /\ no_switch v rest
  end.

(** exactly one file handler, for the folder that is set, if one is set, and none otherwise *)
Definition matched (s : ost) : Prop :=
  match opt s "log_folder" with
  | VNone => o_handlers s = []
  | v => exists h, o_handlers s = [h] /\ h_folder h = v
  end.

(** a history of operations; stops at an exception *)
Definition history (open_log : ost -> option exn) (ops : list oop) : M ost unit := iterM (oop_run open_log) ops.

(** the same where the caller goes on after exceptions *)
Definition survive (open_log : ost -> option exn) (ops : list oop) (s : ost) : ost :=
  fold_left (fun s op => fst (oop_run open_log op s)) ops s.

(** all options have their built-in default *)
Definition all_default (s : ost) : Prop := forall a, In a option_attrs -> opt s a = default_value a.
