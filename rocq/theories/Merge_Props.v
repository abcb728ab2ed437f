(** C105: summaries of merges. *)
From Verif Require Import Merge_Spec Merge_Proofs.
Local Open Scope string_scope.
Local Open Scope list_scope.

(** A summary shows the two data sets and the result, in this order and under different names. Each is used once, also after others have
    failed; an exception is shown in place of the value. What is used is the method, else the function, else the attribute given, else
    head; and the title says just that. *)
Theorem C105_shown : forall V call_method attribute shown_args m args kw method func attr l r ldf rdf df t,
  let w := asked method func attr in let s x := gives call_method attribute w args kw x in
  loaded_merge m l r ldf rdf df -> dget "merge" kw = None -> dget "df" kw = None -> named func ->
  (forall x, In x [ldf; rdf; df] -> ~ ends_program (s x)) ->
  exists title, in_title shown_args w args kw = Some title /\
    display_merge_summary V call_method attribute shown_args m args kw method func attr t =
      (t ++ map (pair (recorded w)) [ldf; rdf; df],
       Ok ((title ++ " called on: " ++ me_str m)%string,
           [("Left Dataset: " ++ so_name l, as_summary (s ldf)); ("Right Dataset: " ++ so_name r, as_summary (s rdf));
            ("Result: " ++ so_name (me_result m), as_summary (s df))]%string)).
Proof. intros V cm at_ sa m args kw method func attr l r ldf rdf df t w s. apply shown. Qed.

(** A function without a name, like a partial, makes it fail after everything has been computed; even if a method is given, which is
    then what has been used. *)
Theorem C105_unnamed_function : forall V call_method attribute shown_args m args kw method f attr l r ldf rdf df t,
  let w := asked method (Some f) attr in let s x := gives call_method attribute w args kw x in
  loaded_merge m l r ldf rdf df -> dget "merge" kw = None -> dget "df" kw = None -> sf_name f = None ->
  (forall x, In x [ldf; rdf; df] -> ~ ends_program (s x)) ->
  display_merge_summary V call_method attribute shown_args m args kw method (Some f) attr t = (t ++ map (pair (recorded w)) [ldf; rdf; df], Raise AttributeError).
Proof. intros V cm at_ sa m args kw method f attr l r ldf rdf df t w s. apply unnamed. Qed.

(** Interrupts are not kept: nothing is used after them. *)
Theorem C105_interrupted : forall V call_method attribute shown_args m args kw method func attr l r ldf rdf df t e,
  let w := asked method func attr in let s x := gives call_method attribute w args kw x in
  loaded_merge m l r ldf rdf df -> dget "merge" kw = None -> dget "df" kw = None -> s ldf = Raise e -> ends_program (s ldf) ->
  display_merge_summary V call_method attribute shown_args m args kw method func attr t = (t ++ [(recorded w, ldf)], Raise e).
Proof. intros V cm at_ sa m args kw method func attr l r ldf rdf df t e w s. apply interrupted. Qed.

(** Arguments called df or merge cannot be passed on to the method or function; nothing is used then. *)
Theorem C105_names_taken : forall V call_method attribute shown_args m args kw method func attr l r ldf rdf df t,
  loaded_merge m l r ldf rdf df -> dget "merge" kw <> None \/ dget "df" kw <> None ->
  display_merge_summary V call_method attribute shown_args m args kw method func attr t = (t, Raise TypeError).
Proof. intros V cm at_ sa m args kw method func attr l r ldf rdf df t. apply names_taken. Qed.

(** A merge of fewer than two data sources has no summary, and data that cannot be loaded are not shown as an exception: it is passed on. *)
Theorem C105_no_data : forall V call_method attribute shown_args m args kw method func attr t, dget "merge" kw = None ->
  match me_sources m with
  | l :: r :: _ => forall e, so_df l = Raise e \/ (exists x, so_df l = Ok x) /\ (so_df r = Raise e \/ (exists x, so_df r = Ok x) /\ so_df (me_result m) = Raise e) ->
      display_merge_summary V call_method attribute shown_args m args kw method func attr t = (t, Raise e)
  | [l] => display_merge_summary V call_method attribute shown_args m args kw method func attr t = (t, match so_df l with Ok _ => Raise IndexError | Raise e => Raise e end)
  | [] => display_merge_summary V call_method attribute shown_args m args kw method func attr t = (t, Raise IndexError)
  end.
Proof. intros V cm at_ sa m args kw method func attr t. apply no_data. Qed.

(** The summary of a single data frame is None if nothing is asked for; head is the choice of the display only. *)
Theorem C105_nothing_asked : forall V call_method attribute df args kw t, dget "df" kw = None ->
  get_summary_of_df V call_method attribute df args kw None None None t = (t, Ok SNone).
Proof. intros V cm at_ df args kw t H. unfold get_summary_of_df, dmem. now rewrite H. Qed.

(** The three ways of merging pass their name on. *)
Theorem C105_ways_of_merging : forall V (merge_df : V -> V -> V -> string -> res V) df other ids,
  outer_merge_df V merge_df df other ids = merge_df df other ids "outer" /\ left_merge_df V merge_df df other ids = merge_df df other ids "left" /\
  right_merge_df V merge_df df other ids = merge_df df other ids "right".
Proof. repeat split. Qed.

(** A given method is not always enough. *)
Theorem C105_method_is_enough_refuted :
  snd (mg_show [] [] (Some "head") None None []) = Ok ("df.head(*(), **{}) called on: a-b", [("Left Dataset: a", SVal 1); ("Right Dataset: b", SVal 2); ("Result: c", SVal 3)]) /\
  snd (mg_show [] [] (Some "head") (Some mg_partial) None []) = Raise AttributeError.
Proof. split; reflexivity. Qed.
Example C105_example :
  snd (mg_show [] [] None None None []) = Ok ("df.head(*(), **{}) called on: a-b", [("Left Dataset: a", SVal 1); ("Right Dataset: b", SVal 2); ("Result: c", SVal 3)]) /\
  mg_show [] [] (Some "describe") None (Some "size") [] =
    ([(UMethod "describe", 1); (UMethod "describe", 2); (UMethod "describe", 3)],
     Ok ("df.describe(*(), **{}) called on: a-b", [("Left Dataset: a", SVal 11); ("Right Dataset: b", SExc ValueError); ("Result: c", SVal 13)])) /\
  snd (mg_show [] [] None None (Some "size") []) = Ok ("df.size called on: a-b", [("Left Dataset: a", SVal 5); ("Right Dataset: b", SVal 5); ("Result: c", SVal 5)]) /\
  loaded_merge mg_merge (Source "a" (Ok 1)) (Source "b" (Ok 2)) 1 2 3.
Proof. repeat split; try reflexivity. now exists []. Qed.

Print Assumptions C105_shown.
Print Assumptions C105_unnamed_function.
Print Assumptions C105_interrupted.
Print Assumptions C105_names_taken.
Print Assumptions C105_no_data.
Print Assumptions C105_nothing_asked.
Print Assumptions C105_ways_of_merging.
Print Assumptions C105_method_is_enough_refuted.
