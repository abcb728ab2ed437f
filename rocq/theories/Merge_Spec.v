(** What a summary of a merge is to show. *)
From Verif Require Export Merge_Model.
Local Open Scope string_scope.
Local Open Scope list_scope.

Section Spec.
Variable V : Type.
Variable call_method : V -> string -> list V -> dict V -> res V.
Variable attribute : V -> string -> res V.
Variable shown_args : list V -> dict V -> string.

(** what was asked for: a method, else a function, else an attribute, else the method head *)
Definition asked (method : option string) (func : option (sfun V)) (attr : option string) : string + sfun V + string :=
  match method, func, attr with
  | Some m, _, _ => inl (inl m)
  | None, Some f, _ => inl (inr f)
  | None, None, Some a => inr a
  | None, None, None => inl (inl "head")
  end.
(** what it gives for a data frame *)
Definition gives (w : string + sfun V + string) (args : list V) (kw : dict V) (df : V) : res V :=
  match w with inl (inl m) => call_method df m args kw | inl (inr f) => sf_do f df args kw | inr a => attribute df a end.
(** how it is recorded *)
Definition recorded (w : string + sfun V + string) : use := match w with inl (inl m) => UMethod m | inl (inr f) => UFunction | inr a => UAttr a end.
(** how it is written in the title *)
Definition in_title (w : string + sfun V + string) (args : list V) (kw : dict V) : option string :=
  match w with
  | inl (inl m) => Some ("df." ++ m ++ "(" ++ shown_args args kw ++ ")")%string
  | inl (inr f) => match sf_name f with Some n => Some (n ++ "(df, " ++ shown_args args kw ++ ")")%string | None => None end
  | inr a => Some ("df." ++ a)%string
  end.
(** the exceptions that end a program *)
Definition ends_program (r : res V) : Prop := r = Raise KeyboardInterrupt \/ r = Raise SystemExit.
Definition as_summary (r : res V) : summary V := match r with Ok v => SVal v | Raise e => SExc e end.

(** a merge whose data are there *)
Definition loaded_merge (m : merge V) (l r : source V) (ldf rdf df : V) : Prop :=
  (exists more, me_sources m = l :: r :: more) /\ so_df l = Ok ldf /\ so_df r = Ok rdf /\ so_df (me_result m) = Ok df.
(** every function given has a name *)
Definition named (func : option (sfun V)) : Prop := forall f, func = Some f -> sf_name f <> None.
End Spec.
Arguments asked {V}. Arguments gives {V}. Arguments recorded {V}. Arguments in_title {V}. Arguments ends_program {V}. Arguments as_summary {V}.
Arguments loaded_merge {V}. Arguments named {V}.

(** Examples: data frames are numbers; head keeps a frame, describe fails on 2 *)
Definition mg_method (df : nat) (m : string) (args : list nat) (kw : dict nat) : res nat :=
  if String.eqb m "head" then Ok df else if Nat.eqb df 2 then Raise ValueError else Ok (10 + df).
Definition mg_attr (df : nat) (a : string) : res nat := if String.eqb a "size" then Ok 5 else Raise AttributeError.
Definition mg_args (args : list nat) (kw : dict nat) : string := "*(), **{}".
Definition mg_merge : merge nat := Merge [Source "a" (Ok 1); Source "b" (Ok 2)] (Source "c" (Ok 3)) "a-b".
Definition mg_show := display_merge_summary nat mg_method mg_attr mg_args mg_merge.
Definition mg_partial : sfun nat := SFun None (fun df _ _ => Ok df).
