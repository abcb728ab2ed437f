(** Lemmas about summaries of merges. *)
From Verif Require Import Merge_Spec.
Local Open Scope string_scope.
Local Open Scope list_scope.
Local Open Scope monad_scope.

Section Proofs.
Variable V : Type.
Variable call_method : V -> string -> list V -> dict V -> res V.
Variable attribute : V -> string -> res V.
Variable shown_args : list V -> dict V -> string.
Notation display := (display_merge_summary V call_method attribute shown_args).
Notation summ := (get_summary_of_df V call_method attribute).
Notation sums := (summaries V call_method attribute).

(** the method as it is after the first lines of display_merge_summary *)
Definition chosen (method : option string) (func : option (sfun V)) (attr : option string) : option string :=
  match attr, func, method with None, None, None => Some "head" | _, _, _ => method end.

Lemma kept_res w df r t : kept V (make_use V w df r) t = (t ++ [(w, df)], match r with Ok v => Ok (SVal v) | Raise e => if is_plain_exception e then Ok (SExc e) else Raise e end).
Proof. unfold kept, make_use. destruct r as [v|e]; [reflexivity|]. now destruct (is_plain_exception e). Qed.
Lemma summ_res df args kw method func attr t : dget "df" kw = None ->
  let w := asked method func attr in let r := gives call_method attribute w args kw df in
  summ df args kw (chosen method func attr) func attr t = (t ++ [(recorded w, df)], match r with Ok v => Ok (SVal v) | Raise e => if is_plain_exception e then Ok (SExc e) else Raise e end).
Proof.
  intros D. unfold get_summary_of_df, dmem. rewrite D. destruct method as [m|], func as [f|], attr as [a|]; cbn [chosen asked gives recorded]; apply kept_res.
Qed.
Lemma plain_summary (r : res V) : ~ ends_program r -> match r with Ok v => Ok (SVal v) | Raise e => if is_plain_exception e then Ok (SExc e) else Raise e end = Ok (as_summary r).
Proof. intros N. destruct r as [v|e]; [reflexivity|]. cbn [as_summary]. destruct e; try reflexivity; exfalso; apply N; [now left|now right]. Qed.
Lemma sums_res args kw method func attr : dget "df" kw = None ->
  let w := asked method func attr in forall d t, (forall n x, In (n, x) d -> ~ ends_program (gives call_method attribute w args kw x)) ->
  sums args kw (chosen method func attr) func attr d t =
    (t ++ map (fun nx => (recorded w, snd nx)) d, Ok (map (fun nx => (fst nx, as_summary (gives call_method attribute w args kw (snd nx)))) d)).
Proof.
  intros D w. induction d as [|[n x] d IH]; intros t N; [cbn; now rewrite app_nil_r|].
  cbn [summaries]. unfold bind at 1. rewrite summ_res by exact D. rewrite plain_summary by (eapply N; now left). unfold bind. rewrite IH by (intros n' x' H; eapply N; right; exact H).
  cbn. now rewrite <- app_assoc.
Qed.
Lemma data (m : merge V) l r ldf rdf df t : loaded_merge m l r ldf rdf df ->
  df_dict_from_merge V m t = (t, Ok [("Left Dataset: " ++ so_name l, ldf); ("Right Dataset: " ++ so_name r, rdf); ("Result: " ++ so_name (me_result m), df)]%string).
Proof. intros ((more & S) & L & R & D). unfold df_dict_from_merge, bind, lift. rewrite S, L, R, D. reflexivity. Qed.

Lemma computed m args kw method func attr l r ldf rdf df t :
  let w := asked method func attr in let s x := gives call_method attribute w args kw x in
  loaded_merge m l r ldf rdf df -> dget "df" kw = None -> (forall x, In x [ldf; rdf; df] -> ~ ends_program (s x)) ->
  disp_df_dict_from_merge V call_method attribute m args kw (chosen method func attr) func attr t =
    (t ++ map (pair (recorded w)) [ldf; rdf; df],
     Ok [("Left Dataset: " ++ so_name l, as_summary (s ldf)); ("Right Dataset: " ++ so_name r, as_summary (s rdf)); ("Result: " ++ so_name (me_result m), as_summary (s df))]%string).
Proof.
  intros w s L D N. unfold disp_df_dict_from_merge, bind at 1. rewrite (data _ _ _ _ _ _ _ L). rewrite sums_res; [reflexivity|exact D|].
  intros n x H. apply N. destruct H as [[= _ <-]|[[= _ <-]|[[= _ <-]|[]]]]; cbn; auto.
Qed.

Lemma shown m args kw method func attr l r ldf rdf df t :
  let w := asked method func attr in let s x := gives call_method attribute w args kw x in
  loaded_merge m l r ldf rdf df -> dget "merge" kw = None -> dget "df" kw = None -> named func -> (forall x, In x [ldf; rdf; df] -> ~ ends_program (s x)) ->
  exists title, in_title shown_args w args kw = Some title /\
    display m args kw method func attr t =
      (t ++ map (pair (recorded w)) [ldf; rdf; df],
       Ok ((title ++ " called on: " ++ me_str m)%string,
           [("Left Dataset: " ++ so_name l, as_summary (s ldf)); ("Right Dataset: " ++ so_name r, as_summary (s rdf)); ("Result: " ++ so_name (me_result m), as_summary (s df))]%string)).
Proof.
  intros w s L M D F N. unfold display_merge_summary, dmem. rewrite M. fold (chosen method func attr). cbv zeta. unfold bind at 1.
  rewrite (computed m args kw method func attr l r ldf rdf df t L D N). fold w. change (gives call_method attribute w args kw) with s.
  destruct method as [me|], func as [f|], attr as [a|]; cbn [chosen asked in_title w]; try (destruct (sf_name f) as [n|] eqn:E; [|exfalso; now apply (F f)]);
    eexists; (split; [reflexivity|]); reflexivity.
Qed.
Lemma unnamed m args kw method f attr l r ldf rdf df t :
  let w := asked method (Some f) attr in let s x := gives call_method attribute w args kw x in
  loaded_merge m l r ldf rdf df -> dget "merge" kw = None -> dget "df" kw = None -> sf_name f = None -> (forall x, In x [ldf; rdf; df] -> ~ ends_program (s x)) ->
  display m args kw method (Some f) attr t = (t ++ map (pair (recorded w)) [ldf; rdf; df], Raise AttributeError).
Proof.
  intros w s L M D F N. unfold display_merge_summary, dmem. rewrite M. fold (chosen method (Some f) attr). cbv zeta. unfold bind at 1.
  rewrite (computed m args kw method (Some f) attr l r ldf rdf df t L D N). unfold bind. rewrite F. reflexivity.
Qed.
Lemma interrupted m args kw method func attr l r ldf rdf df t e :
  let w := asked method func attr in let s x := gives call_method attribute w args kw x in
  loaded_merge m l r ldf rdf df -> dget "merge" kw = None -> dget "df" kw = None -> s ldf = Raise e -> ends_program (s ldf) ->
  display m args kw method func attr t = (t ++ [(recorded w, ldf)], Raise e).
Proof.
  intros w s L M D E P. unfold display_merge_summary, dmem. rewrite M. fold (chosen method func attr). cbv zeta. unfold bind at 1, disp_df_dict_from_merge, bind at 1.
  rewrite (data _ _ _ _ _ _ _ L). cbn [summaries]. unfold bind at 1. rewrite summ_res by exact D. fold w. change (gives call_method attribute w args kw ldf) with (s ldf). rewrite E.
  assert (X : is_plain_exception e = false) by (rewrite E in P; destruct P as [[= ->] | [= ->]]; reflexivity). now rewrite X.
Qed.
Lemma names_taken m args kw method func attr l r ldf rdf df t :
  loaded_merge m l r ldf rdf df -> dget "merge" kw <> None \/ dget "df" kw <> None -> display m args kw method func attr t = (t, Raise TypeError).
Proof.
  intros L H. unfold display_merge_summary, dmem. destruct (dget "merge" kw) eqn:M; [reflexivity|]. destruct H as [H|H]; [now exfalso|]. cbv zeta. unfold bind at 1, disp_df_dict_from_merge, bind at 1.
  rewrite (data _ _ _ _ _ _ _ L). cbn [summaries]. unfold bind at 1, get_summary_of_df, dmem. destruct (dget "df" kw); [reflexivity|now exfalso].
Qed.
Lemma no_data m args kw method func attr t : dget "merge" kw = None ->
  match me_sources m with
  | l :: r :: _ => forall e, so_df l = Raise e \/ (exists x, so_df l = Ok x) /\ (so_df r = Raise e \/ (exists x, so_df r = Ok x) /\ so_df (me_result m) = Raise e) ->
      display m args kw method func attr t = (t, Raise e)
  | [l] => display m args kw method func attr t = (t, match so_df l with Ok _ => Raise IndexError | Raise e => Raise e end)
  | [] => display m args kw method func attr t = (t, Raise IndexError)
  end.
Proof.
  intros M. unfold display_merge_summary, dmem. rewrite M. cbv zeta. unfold bind at 1, disp_df_dict_from_merge, bind at 1, df_dict_from_merge, bind, lift.
  destruct (me_sources m) as [|l [|r more]].
  - reflexivity.
  - destruct (so_df l); reflexivity.
  - intros e [-> |((x & ->) & [-> |((y & ->) & ->)])]; reflexivity.
Qed.
End Proofs.
