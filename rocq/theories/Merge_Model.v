(** Model of the summaries of merges: pyfileconf/data/logic/merge/__init__.py:3-13, display.py:9-61 and summarize.py:4-15.

    Data frames, and what is passed to the summary, are opaque values; what their methods, attributes and the user's function do is given
    by functions, and each use is recorded with the data frame it was made of. Simplification: the text Python shows for the arguments is a
    parameter; reading an attribute, the method included, and calling it are one step. display_df_dict (of another package) gets the title
    and the dict that the model returns. *)
From Verif Require Export Py_Dict Py_Exn.
Local Open Scope string_scope.
Local Open Scope list_scope.
Local Open Scope monad_scope.

(** a function: its [__name__], which e.g. a partial lacks, and what it does with a data frame and the arguments *)
Record sfun (V : Type) : Type := SFun { sf_name : option string; sf_do : V -> list V -> dict V -> res V }.
Arguments SFun {V}. Arguments sf_name {V}. Arguments sf_do {V}.
(** a data source: its name and type, and its data, which may have to be loaded *)
Record source (V : Type) : Type := Source { so_name : string; so_df : res V }.
Arguments Source {V}. Arguments so_name {V}. Arguments so_df {V}.
Record merge (V : Type) : Type := Merge { me_sources : list (source V); me_result : source V; me_str : string }.
Arguments Merge {V}. Arguments me_sources {V}. Arguments me_result {V}. Arguments me_str {V}.

(** what is used of a data frame *)
Inductive use : Type := UMethod (m : string) | UFunction | UAttr (a : string).
(** a summary: a value, an exception kept as a value, or None *)
Inductive summary (V : Type) : Type := SVal (v : V) | SExc (e : exn) | SNone.
Arguments SVal {V}. Arguments SExc {V}. Arguments SNone {V}.

Section Merge.
Variable V : Type.
(** [df.m(args, kwargs)] and [df.a] *)
Variable call_method : V -> string -> list V -> dict V -> res V.
Variable attribute : V -> string -> res V.
(** the text of the arguments in the title: a star and the tuple, two stars and the dict *)
Variable shown_args : list V -> dict V -> string.

Definition MT := M (list (use * V)).
(** a step of the user's or the data frame's code *)
Definition make_use (w : use) (df : V) (r : res V) : MT V := fun t => (t ++ [(w, df)], r).
(** Exception, without those that end the program *)
Definition is_plain_exception (e : exn) : bool := match e with KeyboardInterrupt | SystemExit => false | _ => true end.
Definition kept (m : MT V) : MT (summary V) :=
  fun t => match m t with
           | (t', Ok v) => (t', Ok (SVal v))
           | (t', Raise e) => if is_plain_exception e then (t', Ok (SExc e)) else (t', Raise e)
           end.

(** get_summary_of_df, summarize.py:4-15. An argument called df is passed twice. *)
Definition get_summary_of_df (df : V) (args : list V) (kw : dict V) (method : option string) (func : option (sfun V)) (attr : option string) : MT (summary V) :=
  if dmem "df" kw then raise TypeError
  else match method with
       | Some m => kept (make_use (UMethod m) df (call_method df m args kw))
       | None => match func with
                 | Some f => kept (make_use UFunction df (sf_do f df args kw))
                 | None => match attr with
                           | Some a => kept (make_use (UAttr a) df (attribute df a))
                           | None => ret SNone
                           end
                 end
       end.

(** _df_dict_from_merge, display.py:54-61 *)
Definition lift {A} (r : res A) : MT A := fun t => (t, r).
Definition df_dict_from_merge (m : merge V) : MT (dict V) :=
  l <- lift (match me_sources m with l :: _ => Ok l | [] => Raise IndexError end) ;;
  ldf <- lift (so_df l) ;;
  r <- lift (match me_sources m with _ :: r :: _ => Ok r | _ => Raise IndexError end) ;;
  rdf <- lift (so_df r) ;;
  df <- lift (so_df (me_result m)) ;;
  ret (dset ("Result: " ++ so_name (me_result m))%string df
        (dset ("Right Dataset: " ++ so_name r)%string rdf [(("Left Dataset: " ++ so_name l)%string, ldf)])).

(** _disp_df_dict_from_merge, display.py:36-51; the dict comprehension keeps keys and order *)
Fixpoint summaries (args : list V) (kw : dict V) (method : option string) (func : option (sfun V)) (attr : option string) (d : dict V) : MT (dict (summary V)) :=
  match d with
  | [] => ret []
  | (n, df) :: rest =>
      s <- get_summary_of_df df args kw method func attr ;;
      r <- summaries args kw method func attr rest ;;
      ret ((n, s) :: r)
  end.
Definition disp_df_dict_from_merge (m : merge V) (args : list V) (kw : dict V) (method : option string) (func : option (sfun V)) (attr : option string) : MT (dict (summary V)) :=
  d <- df_dict_from_merge m ;; summaries args kw method func attr d.

(** display_merge_summary, display.py:9-33: the title and the dict that are displayed. The name [summary_disp] is assigned up to three
    times. *)
Definition display_merge_summary (m : merge V) (args : list V) (kw : dict V) (method : option string) (func : option (sfun V)) (attr : option string)
  : MT (string * dict (summary V)) :=
  if dmem "merge" kw then raise TypeError
  else
  let method := match attr, func, method with None, None, None => Some "head" | _, _, _ => method end in
  d <- disp_df_dict_from_merge m args kw method func attr ;;
  let t1 := match attr with Some a => Some ("df." ++ a)%string | None => None end in
  t2 <- match func with
        | Some f => match sf_name f with
                    | Some n => ret (Some (n ++ "(df, " ++ shown_args args kw ++ ")")%string)
                    | None => raise AttributeError
                    end
        | None => ret t1
        end ;;
  let t3 := match method with Some n => Some ("df." ++ n ++ "(" ++ shown_args args kw ++ ")")%string | None => t2 end in
  match t3 with
  | Some t => ret ((t ++ " called on: " ++ me_str m)%string, d)
  | None => raise (LibExn "UnboundLocalError")
  end.

(** merge/__init__.py:3-13 *)
Variable merge_df : V -> V -> V -> string -> res V.
Definition how_merge_df (df other ids : V) (how : string) : res V := merge_df df other ids how.
Definition outer_merge_df (df other ids : V) : res V := how_merge_df df other ids "outer".
Definition left_merge_df (df other ids : V) : res V := how_merge_df df other ids "left".
Definition right_merge_df (df other ids : V) : res V := how_merge_df df other ids "right".
End Merge.
