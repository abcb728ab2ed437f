(** From the definition of a function to its config file. *)
From Verif Require Import Whole_Spec FuncArgs_Proofs ItemLoad_Proofs FileStr_Proofs Exec_Proofs ExecText_Proofs ExecSave_Proofs.
Local Open Scope string_scope.
Local Open Scope list_scope.

Lemma default_pairs (l : list string) (ds : list expr) m :
  combine l (map Some (repeat ast_none m) ++ map Some ds) =
  map (fun q => (fst q, Some (match snd q with Some e => e | None => ast_none end))) (combine l (repeat None m ++ map Some ds)).
Proof.
  revert m ds. induction l as [|x l IH]; intros m ds; [reflexivity|]. destruct m as [|m]; cbn [repeat map app].
  - destruct ds as [|e ds]; [reflexivity|]. cbn [map app combine fst snd]. f_equal. exact (IH 0 ds).
  - cbn [map app combine fst snd]. f_equal. apply IH.
Qed.

Lemma src_written a : a_posonly a = [] -> (forall x, ~ In (x, None) (a_kwonly a)) ->
  src_dict a = map (fun q => (fst q, Some (snd q))) (written_defaults a).
Proof.
  intros P K. unfold src_dict, written_defaults, params. rewrite !map_app. f_equal.
  - unfold positional. cbn [sig_of s_posonly s_args s_defaults]. rewrite P. cbn [map app]. rewrite !map_length, map_id, default_pairs, map_map. reflexivity.
  - cbn [sig_of s_kwonly]. rewrite !map_map. apply map_ext_in. intros [x [e|]] H; [reflexivity|]. exfalso. exact (K x H).
Qed.

Lemma written_names a : a_posonly a = [] -> (forall x, ~ In (x, None) (a_kwonly a)) -> length (a_defaults a) <= length (a_args a) ->
  map fst (written_defaults a) = map arg_name (all_args a).
Proof. intros P K L. rewrite <- (src_dict_keys a L), (src_written a P K). unfold dkeys. now rewrite map_map. Qed.

Lemma annotation_get a k : NoDup (map arg_name (all_args a)) -> dget k (src_annotations a) = annotation_of a k.
Proof.
  unfold src_annotations, annotation_of. generalize (all_args a). intros l N. induction l as [|x l IH]; [reflexivity|]. inversion N as [|? ? Nx Nl]; subst.
  unfold annotations_of. cbn [flat_map find]. fold (annotations_of l). rewrite dget_app. destruct (String.eqb_spec (arg_name x) k) as [E|E].
  - destruct (arg_ann x) as [e|]; cbn [dget].
    + subst k. now rewrite String.eqb_refl.
    + destruct (dget k (annotations_of l)) eqn:D; [|reflexivity]. apply dget_Some_In in D. apply annotations_in in D as (b & e0 & Hb & Nb & _). exfalso. apply Nx. rewrite E, <- Nb. now apply in_map.
  - destruct (arg_ann x) as [e|]; cbn [dget]; [|now apply IH]. destruct (String.eqb_spec k (arg_name x)) as [F|F]; [congruence|]. now apply IH.
Qed.

(** the values of the config file *)
Definition values_written (prints : expr -> list string) (shows : expr -> string) (a : arguments) : dict value :=
  map (fun q => (fst q, Value (match annotation_of a (fst q) with Some x => Some (shows x) | None => None end) (prints (snd q)))) (written_defaults a).

Lemma config_values_written prints shows a : args_ok a -> a_posonly a = [] -> (forall x, ~ In (x, None) (a_kwonly a)) ->
  config_values prints shows (src_dict a) (src_annotations a) = values_written prints shows a.
Proof.
  intros N P K. unfold config_values, values_written. rewrite (src_written a P K), map_map. apply map_ext. intros [k e]. cbn [fst snd].
  rewrite annotation_get; [reflexivity|]. unfold args_ok in N. now apply NoDup_r in N.
Qed.

Lemma brought_function l d : brought (function_item l d) = d.
Proof.
  unfold brought, function_item. cbn [i_end i_defaults]. change (dfilter _ []) with (@nil (string * value)). rewrite app_nil_r. rewrite <- (map_id d) at 2. apply map_ext. intros [k [[x|] s]]; reflexivity.
Qed.

Lemma function_item_ok prints shows a il py meaning : args_ok a -> FuncArgs_Spec.plain a -> a_posonly a = [] -> (forall j, In j il -> imp_ok j) -> printable py meaning prints shows a ->
  item_ok (function_item il (values_written prints shows a)).
Proof.
  intros N (L & K & _) P I Pr. unfold item_ok. rewrite brought_function. cbn [function_item i_defaults i_end i_imports i_always_imports i_begin]. split; [|split; [apply dwf_nil|split; [|split; [|now left]]]].
  - unfold dwf, dkeys, values_written. rewrite map_map. change (NoDup (map fst (written_defaults a))). rewrite (written_names a P K L). unfold args_ok in N. now apply NoDup_r in N.
  - intros x v H. apply in_map_iff in H as ([k e] & [= <- <-] & H). cbn [fst snd]. exact (proj1 (Pr k e H)).
  - intros p [H|[<-|[]]].
    + apply in_map_iff in H as (j & <- & H). exact (I j H).
    + split; [reflexivity|]. right. split; [discriminate|]. repeat constructor.
Qed.

(** the assignment read for a parameter *)
Lemma read_from_split (d1 : dict value) q d2 es : read_from (d1 ++ q :: d2) es ->
  exists es1 a es2, es = es1 ++ a :: es2 /\ read_from d1 es1 /\ parse_lines (assign_lines (fst q) (snd q)) = Ok [SAssign a] /\ a_target a = TgName (fst q).
Proof.
  unfold read_from. intros H. apply Forall2_app_inv_l in H as (es1 & r & H1 & H2 & ->). inversion H2 as [|? a ? es2 [A B] H3]; subst. exists es1, a, es2. auto.
Qed.

(** A call that is given the values of the defaults does what a call without them does. *)
Lemma fill_same (kw : dict pyval) (l : list (string * option pyval)) r : (forall x d, In (x, Some d) l -> dget x kw = None \/ dget x kw = Some d) -> fill [] l = Ok r -> fill kw l = Ok r.
Proof.
  revert r. induction l as [|[x d] l IH]; intros r H E; [exact E|]. cbn [fill dget] in *. destruct d as [v|]; [|discriminate].
  assert (G : (match dget x kw with Some w => Some w | None => Some v end) = Some v) by (destruct (H x v (or_introl eq_refl)) as [-> | ->]; reflexivity). rewrite G.
  destruct (fill [] l) as [b|] eqn:F; [|discriminate]. rewrite (IH b); [exact E| |reflexivity]. intros y w Hy. apply H. now right.
Qed.
Lemma call_same (s : sig pyval) kw b : (forall k, In k (dkeys kw) -> by_name s k = true) -> (forall x d, In (x, Some d) (params s) -> dget x kw = None \/ dget x kw = Some d) ->
  FuncArgs_Spec.call s [] [] = Ok b -> FuncArgs_Spec.call s [] kw = Ok b.
Proof.
  intros N V. unfold FuncArgs_Spec.call. rewrite skipn_nil, combine_nil. cbn [dfilter].
  assert (A : dfilter (by_name s) kw = kw) by (apply dfilter_all; exact N).
  assert (B : dfilter (fun k => negb (by_name s k)) kw = []) by (apply dfilter_nil; intros k Hk; now rewrite (N k Hk)).
  rewrite A, B. cbn [app existsb orb]. assert (C : existsb (fun k => dmem k (@nil (string * pyval))) (dkeys kw) = false) by (generalize (dkeys kw); intros l; induction l as [|k l IH]; [reflexivity|exact IH]).
  rewrite C. cbn. destruct (fill [] (params s)) as [p|] eqn:F; [|discriminate]. intros H. now rewrite (fill_same kw (params s) p V F).
Qed.

Lemma named_key e n : FuncArgs_Spec.named e [n] -> n <> "DataPipeline" -> fst (collection_key e None) = Ok (Some n).
Proof.
  intros V N. apply view_named in V. unfold collection_key, public_name. assert (S : set_name e = Ok (Some n, None)).
  { unfold set_name. rewrite V. destruct (String.eqb_spec n "DataPipeline"); [contradiction|reflexivity]. }
  apply (plain_access e (Some n) S (APublic true) None). now left.
Qed.

(** the view of an item that stands for a function *)
Lemma view_of_item {obj} (im : string -> res obj) ga kind l e n m x o : FuncArgs_Spec.named e [n] -> n <> "DataPipeline" -> clear_for l n -> bound_to l n = Some (m, Some x) ->
  load_item im ga l e = Ok o -> item_view im ga kind l e = Ok (n, kind o).
Proof.
  intros V N C B L. unfold item_view. rewrite L, (named_key e n V N). unfold make_view. rewrite (view_named e n V). destruct (object_import n l m x C B) as [r ->]. reflexivity.
Qed.

(** a parameter with a default, and the expression of the default *)
Lemma combine_map_r {A B C} (g : B -> C) (l : list A) (r : list B) : combine l (map g r) = map (fun q => (fst q, g (snd q))) (combine l r).
Proof. revert r. induction l as [|x l IH]; intros [|y r]; try reflexivity. cbn [map combine fst snd]. f_equal. apply IH. Qed.
Lemma params_map {V} (ev : expr -> V) a : params (sig_of ev a) = map (fun q => (fst q, match snd q with Some e => Some (ev e) | None => None end)) (params (sig_of (fun e => e) a)).
Proof.
  unfold params. rewrite map_app. f_equal.
  - unfold positional. cbn [sig_of s_posonly s_args s_defaults]. rewrite map_id, !map_length. rewrite <- (combine_map_r (fun o => match o with Some e => Some (ev e) | None => None end)). f_equal. rewrite map_app, map_map. f_equal.
    + generalize (length (map arg_name (a_posonly a) ++ map arg_name (a_args a)) - length (a_defaults a)). intros k. induction k as [|k IH]; [reflexivity|]. cbn [repeat map]. now rewrite <- IH.
    + now rewrite map_map.
  - cbn [sig_of s_kwonly]. rewrite !map_map. apply map_ext. intros [x [e|]]; reflexivity.
Qed.
Lemma param_default {V} (ev : expr -> V) a y v : In (y, Some v) (params (sig_of ev a)) -> exists e, In (y, e) (written_defaults a) /\ v = ev e.
Proof.
  rewrite params_map. intros H. apply in_map_iff in H as ([z [e|]] & Ez & H); cbn [fst snd] in Ez; [|discriminate]. injection Ez as -> <-.
  exists e. split; [|reflexivity]. unfold written_defaults. apply in_map_iff. exists (y, Some e). auto.
Qed.

Lemma missing_values prints shows a il al : missing (function_item il (values_written prints shows a)) al =
  map (fun q => (fst q, Value (match annotation_of a (fst q) with Some x => Some (shows x) | None => None end) (prints (snd q))))
      (filter (fun q => negb (contains_varname al (fst q))) (written_defaults a)).
Proof.
  unfold missing. rewrite brought_function. unfold values_written, dfilter. generalize (written_defaults a). intros l. induction l as [|[k e] l IH]; [reflexivity|].
  cbn [map filter fst snd]. destruct (negb (contains_varname al k)); cbn [map fst snd]; now rewrite IH.
Qed.
