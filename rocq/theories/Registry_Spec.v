(** Specification for C05/C06, independent of how the registry is computed. *)
From Verif Require Import Registry_Model.

(** [m] is the newest manager called [name] in the history, it was really constructed (no option
    conflict), and nothing has removed it since. *)
Definition newest_live (ops : list reg_op) (name : string) (m : manager) : Prop :=
  exists before after a f,
    ops = before ++ OpNew a f m :: after /\
    m_name m = name /\ (a && f = false) /\
    (forall a' f' m', In (OpNew a' f' m') after -> m_name m' = name -> a' && f' = true) /\
    (forall m', In (OpDel m') after -> m_id m' <> m_id m) /\
    ~ In OpReset after.

(** Object identity: the same id means the same object (with the same name). *)
Definition ids_consistent (ops : list reg_op) : Prop :=
  forall m m', (exists a f, In (OpNew a f m) ops) \/ In (OpDel m) ops ->
               (exists a f, In (OpNew a f m') ops) \/ In (OpDel m') ops ->
               m_id m = m_id m' -> m = m'.

(** [file] (an absolute path) lies strictly inside [folder]: it is [folder] followed by at least one
    more non-empty, slash-free path component. *)
Definition strictly_inside (folder file : string) : Prop :=
  exists names, names <> [] /\
    (forall n, In n names -> n <> ""%string /\ has_char "/" n = false) /\
    file = (folder ++ "/" ++ join "/" names)%string.
