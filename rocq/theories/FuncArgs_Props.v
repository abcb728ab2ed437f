(** C49: which config entries reach a function, C50: defaults taken from signatures, C62: imports for defaults and annotations,
    C63: finding the definition of an item. *)
From Verif Require Import FuncArgs_Model FuncArgs_Spec FuncArgs_Proofs Imports_Proofs Imports_Props.
Local Open Scope string_scope.
Local Open Scope list_scope.

(* ------------------------------------------------------------------ *)
(** * C49 *)

(** A function gets exactly the config entries for its parameters, with their values; the keyword-only parameters only count if
    one of them has a default. *)
Theorem C49_passed : forall (V : Type) (none : V) (s : sig V) (c : dict V), sig_ok s -> exists kw, kwargs_for none c s = Ok kw /\
  forall k v, dget k kw = Some v <-> dget k c = Some v /\ (In k (s_posonly s ++ s_args s) \/ In k (map fst (s_kwonly s)) /\ exists y w, In (y, Some w) (s_kwonly s)).
Proof. intros. now apply passed_iff. Qed.
Example C49_passed_example : sig_ok sig_f /\ kwargs_for 0 [("z", 9); ("c", 8); ("a", 7)] sig_f = Ok [("c", 8); ("a", 7)].
Proof. split; [|reflexivity]. split; [cbn; auto|]. cbn. repeat constructor; cbn; intuition discriminate. Qed.

(** Without parameters given by position only, and with a default for a keyword-only parameter if there are such parameters,
    the call succeeds exactly if the config has the parameters without default; every parameter gets the value from the config
    or else its default, nothing goes to [*args] and [**kwargs]. *)
Theorem C49_function_runs : forall (V : Type) (none : V) (s : sig V) (c : dict V), sig_ok s -> s_posonly s = [] -> visible s ->
  (forall x, In (x, None) (params s) -> dmem x c = true) ->
  exists kw b, kwargs_for none c s = Ok kw /\ call s [] kw = Ok (Bound b [] []) /\ dkeys b = map fst (params s) /\
    forall x d, In (x, d) (params s) -> dget x b = match dget x c with Some v => Some v | None => d end.
Proof. intros. now apply call_function. Qed.
Theorem C49_missing_raises : forall (V : Type) (none : V) (s : sig V) (c : dict V) x, sig_ok s -> In (x, None) (params s) -> dmem x c = false ->
  exists kw, kwargs_for none c s = Ok kw /\ call s [] kw = Raise TypeError.
Proof. intros V none s c x. apply run_missing. Qed.
Example C49_function_example : visible sig_f /\ params sig_f = [("a", None); ("b", Some 1); ("c", None); ("d", Some 2)] /\
  call sig_f [] [("c", 8); ("a", 7)] = Ok (Bound [("a", 7); ("b", 1); ("c", 8); ("d", 2)] [] []) /\ call sig_f [] [("a", 7)] = Raise TypeError.
Proof. split; [right; exists "d", 2; cbn; auto|]. split; [reflexivity|]. split; reflexivity. Qed.

(** If all keyword-only parameters are required, no config makes the function run. *)
Theorem C49_required_keyword_only_refuted : exists s : sig nat, sig_ok s /\ forall c, exists kw, kwargs_for 0 c s = Ok kw /\ call s [] kw = Raise TypeError.
Proof.
  assert (H : sig_ok sig_g) by (split; [cbn; auto|]; cbn; repeat constructor; cbn; intuition discriminate).
  exists sig_g. split; [exact H|]. intros c. apply (run_kwonly 0 sig_g c H); [discriminate|]. intros y w [K|[]]. discriminate.
Qed.
Theorem C49_keyword_only : forall (V : Type) (none : V) (s : sig V) (c : dict V), sig_ok s -> s_kwonly s <> [] -> (forall y w, ~ In (y, Some w) (s_kwonly s)) ->
  exists kw, kwargs_for none c s = Ok kw /\ call s [] kw = Raise TypeError.
Proof. intros V none s c. apply run_kwonly. Qed.

(** A parameter given by position only is passed by name: without a default the function never runs; with one it runs only if
    the config has no entry for it, or it has [**kwargs], which then get the entry while the parameter has its default. *)
Theorem C49_positional_only_required : forall (V : Type) (none : V) (s : sig V) (c : dict V) x, sig_ok s -> In x (s_posonly s) -> In (x, None) (params s) ->
  exists kw, kwargs_for none c s = Ok kw /\ call s [] kw = Raise TypeError.
Proof. intros V none s c x. apply run_posonly_required. Qed.
Theorem C49_positional_only_configured : forall (V : Type) (none : V) (s : sig V) (c : dict V) x, sig_ok s -> In x (s_posonly s) -> dmem x c = true -> s_varkw s = false ->
  exists kw, kwargs_for none c s = Ok kw /\ call s [] kw = Raise TypeError.
Proof. intros V none s c x. apply run_posonly_named. Qed.
Theorem C49_positional_only_to_kwargs : forall (V : Type) (none : V) (s : sig V) (c : dict V) x v w b, sig_ok s -> In x (s_posonly s) -> dget x c = Some v -> In (x, Some w) (params s) ->
  forall kw, kwargs_for none c s = Ok kw -> call s [] kw = Ok b -> dget x (b_params b) = Some w /\ dget x (b_kwargs b) = Some v.
Proof. intros V none s c x v w b. apply run_posonly_kwargs. Qed.
Example C49_positional_only_example :
  kwargs_for 0 [("p", 3)] sig_h = Ok [("p", 3)] /\ call sig_h [] [("p", 3)] = Raise TypeError /\
  kwargs_for 0 [("p", 3)] sig_h2 = Ok [("p", 3)] /\ call sig_h2 [] [("p", 3)] = Ok (Bound [("p", 5); ("q", 1)] [] [("p", 3)]).
Proof. repeat split. Qed.

(** A function that takes any keywords does not get the other entries of the config. *)
Theorem C49_other_keywords_refuted : exists (s : sig nat) c k kw b, s_varkw s = true /\ dmem k c = true /\ kwargs_for 0 c s = Ok kw /\ call s [] kw = Ok b /\
  dmem k (b_params b) = false /\ dmem k (b_kwargs b) = false.
Proof. exists sig_k, [("a", 1); ("extra", 2)], "extra", [("a", 1)], (Bound [("a", 1)] [] []). repeat split. Qed.

(** A class is called in the same way, [obj] being the new object. An entry with the name of the first parameter makes it fail. *)
Theorem C49_class_runs : forall (V : Type) (none : V) (s : sig V) (c : dict V) self rest obj, sig_ok s -> s_posonly s = [] -> s_args s = self :: rest -> visible s -> dmem self c = false ->
  (forall x, In (x, None) (params s) -> x <> self -> dmem x c = true) ->
  exists kw b, kwargs_for none c s = Ok kw /\ call s [obj] kw = Ok (Bound b [] []) /\ dget self b = Some obj /\
    forall x d, In (x, d) (params s) -> x <> self -> dget x b = match dget x c with Some v => Some v | None => d end.
Proof. intros V none s c self rest obj. apply class_runs. Qed.
Theorem C49_class_entry_for_self_raises : forall (V : Type) (none : V) (s : sig V) (c : dict V) self rest obj, sig_ok s -> s_posonly s = [] -> s_args s = self :: rest -> dmem self c = true ->
  exists kw, kwargs_for none c s = Ok kw /\ call s [obj] kw = Raise TypeError.
Proof. intros V none s c self rest obj. apply class_self. Qed.
Example C49_class_example : kwargs_for 0 [("name", 5); ("x", 1)] sig_K = Ok [("name", 5)] /\ call sig_K [99] [("name", 5)] = Ok (Bound [("self", 99); ("name", 5); ("n", 3)] [] []).
Proof. split; reflexivity. Qed.

(** Applying a config to an object runs __init__ again with the entries for its parameters: all other parameters go back to
    their defaults. An entry for the first parameter is ignored. *)
Theorem C49_object_updated : forall (V : Type) (none : V) (s : sig V) (c : dict V) self rest obj, sig_ok s -> s_posonly s = [] -> s_args s = self :: rest -> length (s_defaults s) <= length rest -> visible s ->
  (forall x, In (x, None) (params s) -> x <> self -> dmem x c = true) ->
  exists kw b, relevant_for_obj none c s = Ok kw /\ call s [obj] kw = Ok (Bound b [] []) /\ dget self b = Some obj /\
    forall x d, In (x, d) (params s) -> x <> self -> dget x b = match dget x c with Some v => Some v | None => d end.
Proof. intros V none s c self rest obj. apply object_updated. Qed.
Example C49_object_example : relevant_for_obj 0 [("name", 5); ("self", 1)] sig_K = Ok [("name", 5)].
Proof. reflexivity. Qed.
(** If the object has its own function for updates ([u]), the parameters of __init__ count nevertheless: an entry that only
    __init__ knows makes the update fail. *)
Theorem C49_update_function_raises : forall (V : Type) (none : V) (s u : sig V) (c : dict V) self rest obj k, sig_ok s -> s_posonly s = [] -> s_args s = self :: rest -> length (s_defaults s) <= length rest -> visible s ->
  In k (rest ++ map fst (s_kwonly s)) -> dmem k c = true -> by_name u k = false -> s_varkw u = false ->
  exists kw, relevant_for_obj none c s = Ok kw /\ call u [obj] kw = Raise TypeError.
Proof. intros V none s u c self rest obj k. apply update_unknown. Qed.
Example C49_update_function_example : by_name sig_M "name" = false /\ call sig_M [99] [("name", 5)] = Raise TypeError.
Proof. split; reflexivity. Qed.

(* ------------------------------------------------------------------ *)
(** * C50 *)

(** The defaults of a function: every parameter it sees once, in order, with its default or None. *)
Theorem C50_defaults : forall (V : Type) (none : V) (s : sig V), sig_ok s -> exists d, function_args_as_dict none false s = Ok d /\ dkeys d = map fst (seen s) /\ NoDup (dkeys d) /\
  forall x o, In (x, o) (seen s) -> dget x d = Some (match o with Some v => v | None => none end).
Proof. intros V none s. apply defaults_spec. Qed.
(** The defaults belong to the last parameters. *)
Theorem C50_alignment : forall (V : Type) (none : V) (s : sig V) i x, sig_ok s -> nth_error (s_posonly s ++ s_args s) i = Some x ->
  exists d, function_args_as_dict none false s = Ok d /\
    dget x d = Some (let n := length (s_posonly s ++ s_args s) - length (s_defaults s) in if Nat.ltb i n then none else nth (i - n) (s_defaults s) none).
Proof. intros V none s i x. apply alignment. Qed.
Example C50_defaults_example : function_args_as_dict 0 false sig_f = Ok [("a", 0); ("b", 1); ("c", 0); ("d", 2)] /\ function_args_as_dict 0 false sig_h2 = Ok [("p", 5); ("q", 1)].
Proof. split; reflexivity. Qed.
(** Keyword-only parameters are missing if all of them are required. *)
Theorem C50_keyword_only_refuted : exists s : sig nat, sig_ok s /\ function_args_as_dict 0 false s = Ok [] /\ params s = [("c", None)].
Proof. exists sig_g. split; [|split; reflexivity]. split; [cbn; auto|]; cbn; repeat constructor; cbn; intuition discriminate. Qed.

(** The defaults of a method: those without the first parameter. It raises if there is none or if it has a default itself. *)
Theorem C50_method : forall (V : Type) (none : V) (s : sig V) self rest, sig_ok s -> s_posonly s = [] -> s_args s = self :: rest -> length (s_defaults s) <= length rest -> visible s ->
  exists d, function_args_as_dict none true s = Ok d /\ params s = (self, None) :: params (drop_first s) /\
    dkeys d = rest ++ map fst (s_kwonly s) /\ forall x o, In (x, o) (params s) -> x <> self -> dget x d = Some (match o with Some v => v | None => none end).
Proof.
  intros V none s self rest H P A L Hv. pose proof (drop_ok s self rest H P A L) as Ho. pose proof (drop_params s self rest P A L) as Hp. rewrite method_dict by (rewrite P, A; discriminate). destruct (defaults_spec none (drop_first s) Ho) as (d & E & K & _ & G). rewrite (seen_all _ (drop_visible s Hv)) in K, G.
  exists d. split; [exact E|]. split; [exact Hp|]. split.
  - rewrite K, params_keys by exact Ho. rewrite drop_kwonly. unfold drop_first. now rewrite P, A.
  - intros x o Hx N. rewrite Hp in Hx. destruct Hx as [Hx|Hx]; [congruence|]. now apply G.
Qed.
Theorem C50_method_raises : forall (V : Type) (none : V) (s : sig V), sig_ok s ->
  (s_posonly s ++ s_args s = [] -> function_args_as_dict none true s = Raise IndexError) /\
  (s_posonly s ++ s_args s <> [] -> length (s_defaults s) = length (s_posonly s ++ s_args s) -> function_args_as_dict none true s = Raise assertion_error).
Proof. intros V none s. apply method_raises. Qed.
Example C50_method_example : function_args_as_dict 0 true sig_K = Ok [("name", 0); ("n", 3)] /\ function_args_as_dict 0 true sig_N = Raise assertion_error.
Proof. split; reflexivity. Qed.

(** A string in a list of class items becomes an object with that name and the defaults, or None, for the rest. *)
Theorem C50_placeholder : forall (V : Type) (none : V) (s : sig V) rest obj key (name : V), sig_ok s -> s_posonly s = [] -> s_args s = "self" :: rest -> visible s -> key <> "self" -> In key (map fst (params s)) ->
  exists kw b, empty_obj_args none key name s = Ok kw /\ call s [obj] kw = Ok (Bound b [] []) /\ dget "self" b = Some obj /\ dget key b = Some name /\
    forall x d, In (x, d) (params s) -> x <> "self" -> x <> key -> dget x b = Some (match d with Some v => v | None => none end).
Proof. intros V none s rest obj key name. apply placeholder. Qed.
Example C50_placeholder_example : empty_obj_args 0 "name" 7 sig_K = Ok [("name", 7); ("n", 3)] /\ call sig_K [99] [("name", 7); ("n", 3)] = Ok (Bound [("self", 99); ("name", 7); ("n", 3)] [] []).
Proof. split; reflexivity. Qed.
(** This fails if the key is not a parameter, or if the first parameter has another name than self. *)
Theorem C50_placeholder_key : forall (V : Type) (none : V) (s : sig V) rest obj key (name : V), sig_ok s -> s_posonly s = [] -> s_args s = "self" :: rest -> s_varkw s = false -> ~ In key (map fst (params s)) ->
  exists kw, empty_obj_args none key name s = Ok kw /\ call s [obj] kw = Raise TypeError.
Proof. intros V none s rest obj key name. apply placeholder_key. Qed.
Theorem C50_placeholder_first_parameter : forall (V : Type) (none : V) (s : sig V) self rest obj key (name : V), sig_ok s -> s_posonly s = [] -> s_args s = self :: rest -> self <> "self" ->
  exists kw, empty_obj_args none key name s = Ok kw /\ call s [obj] kw = Raise TypeError.
Proof. intros V none s self rest obj key name. apply placeholder_self. Qed.
Example C50_placeholder_raises_example : (exists kw, empty_obj_args 0 "name" 7 sig_M = Ok kw /\ call sig_M [99] kw = Raise TypeError) /\ (exists kw, empty_obj_args 0 "name" 7 sig_L = Ok kw /\ call sig_L [99] kw = Raise TypeError).
Proof. split; eexists; (split; [reflexivity|reflexivity]). Qed.

(** The config made from a signature makes the function run, with None for the parameters without default. *)
Theorem C50_scaffold_runs : forall (V : Type) (none : V) (s : sig V), sig_ok s -> s_posonly s = [] -> visible s -> exists c kw b, function_args_as_dict none false s = Ok c /\ kwargs_for none c s = Ok kw /\ call s [] kw = Ok (Bound b [] []) /\
  forall x d, In (x, d) (params s) -> dget x b = Some (match d with Some v => v | None => none end).
Proof. intros V none s. apply scaffold_runs. Qed.
Example C50_scaffold_example : call sig_f [] [("a", 0); ("b", 1); ("c", 0); ("d", 2)] = Ok (Bound [("a", 0); ("b", 1); ("c", 0); ("d", 2)] [] []).
Proof. reflexivity. Qed.

(** Reading the source gives the same: for a signature that can be scaffolded, without parameters given by position only, the
    defaults from the source have the values of those found at run time. *)
Theorem C50_source_agrees : forall (V : Type) (ev : expr -> V) none a, args_ok a -> plain a -> a_posonly a = [] -> ev ast_none = none ->
  exists ds anns d, args_dicts a = Ok (ds, anns) /\ function_args_as_dict none false (sig_of ev a) = Ok d /\ dkeys d = dkeys ds /\
    forall x e, dget x ds = Some (Some e) -> dget x d = Some (ev e).
Proof.
  intros V ev none a Ha (L & K & _) P Hn. exists (src_dict a), (src_annotations a). eexists. split; [rewrite args_dicts_spec by exact Ha; now rewrite (proj2 (Nat.leb_le _ _) L)|]. split; [now apply source_agrees|]. split; [unfold dkeys; rewrite map_map; now apply map_ext|].
  intros x e H. rewrite (dget_map (fun o => match o with Some e => ev e | None => none end) x (src_dict a)). now rewrite H.
Qed.
Example C50_source_example : args_ok ex_args /\ plain ex_args /\ args_dicts ex_args = Ok ([("x", Some (Other "None" [])); ("y", Some (Other "Call" [Name "helper"; Other "1" []]))], [("x", Sub (Name "List") (Name "int")); ("y", Name "T")]).
Proof.
  split; [cbn; repeat constructor; cbn; intuition discriminate|]. split; [|reflexivity]. split; [cbn; auto|]. split; [intros x []|]. intros x e [<-|[<-|[]]] E; injection E as <-; eexists; repeat constructor.
Qed.

(* ------------------------------------------------------------------ *)
(** * C62 *)

(** The imports for defaults and annotations are found exactly if the signature can be read and every name it needs stands in
    an import statement of its module. *)
Theorem C62_found_iff : forall set_list is_builtin_type, set_order set_list -> forall a imports assigns m, args_ok a ->
  (exists l, arg_imports set_list is_builtin_type a imports assigns m = Ok l) <->
  plain a /\ forall n, needs is_builtin_type a n -> exists i, In i imports /\ mentions i n.
Proof. exact arg_imports_iff. Qed.
(** Otherwise, for a signature that can be read, the exception is this one. *)
Theorem C62_raises : forall set_list is_builtin_type, set_order set_list -> forall a imports assigns m n, args_ok a -> plain a -> needs is_builtin_type a n -> (forall i, In i imports -> ~ mentions i n) ->
  arg_imports set_list is_builtin_type a imports assigns m = Raise (LibExn "NoImportMatchingNameException").
Proof. exact arg_imports_missing. Qed.
(** Each name the signature needs is bound by the imports to what it is bound to in the module. *)
Theorem C62_binds_the_names : forall set_list is_builtin_type, set_order set_list -> forall a imports assigns m l n, args_ok a ->
  arg_imports set_list is_builtin_type a imports assigns m = Ok l -> needs is_builtin_type a n -> clear_for imports n ->
  exists j t, In j l /\ bindings j = [(n, t)] /\ bound_to imports n = Some t.
Proof. exact arg_imports_give. Qed.
(** Nothing else is imported. *)
Theorem C62_nothing_else : forall set_list is_builtin_type, set_order set_list -> forall a imports assigns m l j, args_ok a ->
  arg_imports set_list is_builtin_type a imports assigns m = Ok l -> In j l ->
  exists n, needs is_builtin_type a n /\ (get_import_for_name n imports = Ok j \/ contains_varname assigns n = true /\ j = ObjImp [n] m []).
Proof. exact arg_imports_nothing_else. Qed.
Example C62_example : set_order ex_set /\
  arg_imports ex_set ex_builtin ex_args ex_imports ex_assigns "pkg.inner" =
  Ok [ObjImp ["helper"] "lib.tools" []; ObjImp ["List"] "typing" []; ObjImp ["Tool"] "lib.tools" [("Tool", "T")]].
Proof. split; [intros l; split; [apply NoDup_nodup|intros x; apply nodup_In]|]. vm_compute. reflexivity. Qed.

(** Defaults cannot use the variables of the module itself, although an import is made for them. *)
Theorem C62_module_variable_refuted : exists e assigns, contains_varname assigns "SIZE" = true /\ expr_names e = ["SIZE"] /\ forall m imports, (forall i, In i imports -> ~ mentions i "SIZE") ->
  arg_imports ex_set ex_builtin (one_default e) imports assigns m = Raise (LibExn "NoImportMatchingNameException").
Proof.
  exists (Name "SIZE"), ex_assigns. split; [reflexivity|]. split; [reflexivity|]. intros m imports H.
  apply (arg_imports_missing ex_set ex_builtin) with "SIZE"; [|cbn; repeat constructor; cbn; intuition|split; [cbn; auto|]; split; [intros x []|]; intros x e [<-|[]] E; discriminate|left; exists (Name "SIZE"), ["SIZE"]; split; [now left|]; split; [apply named_name|now left]|exact H].
  intros l; split; [apply NoDup_nodup|intros x; apply nodup_In].
Qed.
(** Nor functions that are built in, as in [x=float("inf")]; nor a lambda, whose parameter is taken for a name that is needed. *)
Theorem C62_builtin_in_default_refuted : exists e, expr_names e = ["float"] /\ ex_builtin "float" = true /\
  arg_imports ex_set ex_builtin (one_default e) ex_imports ex_assigns "m" = Raise (LibExn "NoImportMatchingNameException").
Proof. exists (Other "Call" [Name "float"; Str "inf"]). repeat split. Qed.
Theorem C62_lambda_refuted : exists e, e = Other "Lambda" [Name "y"] /\ arg_imports ex_set ex_builtin (one_default e) ex_imports ex_assigns "m" = Raise (LibExn "NoImportMatchingNameException").
Proof. eexists. repeat split. Qed.
(** Annotations with a class of the same module, an ellipsis or None, a longer dotted name, or in quotes as a whole. *)
Theorem C62_annotations_refuted :
  arg_imports ex_set ex_builtin (one_arg (ann "x" (Name "Own"))) ex_imports ex_assigns "m" = Raise (LibExn "NoImportMatchingNameException") /\
  arg_imports ex_set ex_builtin (one_arg (ann "x" (Sub (Name "List") (Other "Ellipsis" [])))) ex_imports ex_assigns "m" = Raise (LibExn "NotImplementedError") /\
  arg_imports ex_set ex_builtin (one_arg (ann "x" ast_none)) ex_imports ex_assigns "m" = Raise (LibExn "NotImplementedError") /\
  arg_imports ex_set ex_builtin (one_arg (ann "x" (Attr (Attr (Name "a") "b") "C"))) ex_imports ex_assigns "m" = Raise AttributeError /\
  arg_imports ex_set ex_builtin (one_arg (ann "x" (Str "List[int]"))) ex_imports ex_assigns "m" = Raise (LibExn "NoImportMatchingNameException").
Proof. repeat split. Qed.
(** A required keyword-only parameter, or defaults for parameters given by position only. *)
Theorem C62_parameters_refuted :
  arg_imports ex_set ex_builtin (Args [] [] [] false [(a_ "c", None)] false) ex_imports ex_assigns "m" = Raise AttributeError /\
  arg_imports ex_set ex_builtin (Args [a_ "p"] [a_ "q"] [ast_none; ast_none] false [] false) ex_imports ex_assigns "m" = Raise assertion_error.
Proof. split; reflexivity. Qed.

(* ------------------------------------------------------------------ *)
(** * C63 *)

(** What an item stands for is found through any chain of imports, also renaming ones, if each name is bound in one way. *)
Theorem C63_found : forall set_list is_builtin_type file_of m name m2 d, stands_for file_of m name m2 d -> clear_files file_of ->
  exists k f, file_of m2 = Ok f /\ forall fuel j n, k <= fuel -> imports_as j n m name -> extract_args set_list is_builtin_type fuel file_of n j = read_def set_list is_builtin_type f m2 d.
Proof. exact extract_finds. Qed.
(** The config of an item of a pipeline dict therefore comes from the definition of what it stands for. *)
Theorem C63_item : forall set_list is_builtin_type dict_imports item n m x file_of m2 d, named item [n] -> clear_for dict_imports n -> bound_to dict_imports n = Some (m, Some x) ->
  clear_files file_of -> stands_for file_of m x m2 d ->
  exists k f, file_of m2 = Ok f /\ forall fuel, k <= fuel ->
    default_config set_list is_builtin_type fuel file_of dict_imports item =
    match read_def set_list is_builtin_type f m2 d with
    | Raise e => Raise e
    | Ok (a, l) => match args_dicts a with Ok (ds, anns) => Ok (ds, anns, l) | Raise e => Raise e end
    end.
Proof. exact item_config. Qed.
(** Whatever is returned comes from the only definition of some name in some module. *)
Theorem C63_only_definitions : forall set_list is_builtin_type file_of fuel n i a l, extract_args set_list is_builtin_type fuel file_of n i = Ok (a, l) ->
  exists m f name d, file_of m = Ok f /\ flat_map (defs_in name) (src_body f) = [d] /\ read_def set_list is_builtin_type f m d = Ok (a, l).
Proof. exact extract_only. Qed.
(** What counts as a definition of a name in a module. *)
Theorem C63_definitions : forall name m d, In d (flat_map (defs_in name) m) <-> exists s, In s m /\ defines name s d.
Proof.
  intros name m d. rewrite in_flat_map. split; intros (s & I & H); exists s; (split; [exact I|]); [now apply defs_in_sound|now apply defs_in_complete].
Qed.
(** An item that is no single name is an error. *)
Theorem C63_item_with_several_names : forall set_list is_builtin_type fuel file_of l item a b r, named item (a :: b :: r) ->
  default_config set_list is_builtin_type fuel file_of l item = Raise ValueError.
Proof. intros set_list is_builtin_type fuel file_of l item a b r H. apply named_iff in H. unfold default_config, view_name. now rewrite H. Qed.
(** So is one without a name, such as a number, and one whose name is imported along with other modules in one statement
    that was made by hand (the statements of files are taken apart before). *)
Theorem C63_item_without_name : forall set_list is_builtin_type fuel file_of l item, named item [] ->
  default_config set_list is_builtin_type fuel file_of l item = Raise (LibExn "NoImportStatementException").
Proof. intros set_list is_builtin_type fuel file_of l item H. apply named_iff in H. unfold default_config, view_name. now rewrite H. Qed.
Theorem C63_several_modules : forall set_list is_builtin_type fuel file_of n ms r, List.length ms <> 1 ->
  extract_args set_list is_builtin_type (S fuel) file_of n (ModImp ms r) = Raise ValueError.
Proof. intros set_list is_builtin_type fuel file_of n [|m [|m' ms]] r H; [reflexivity|now elim H|reflexivity]. Qed.
(** An __init__ whose first parameter can not be left out, such as [def __init__( *args)], is an error too. *)
Theorem C63_init_without_self : forall set_list is_builtin_type fuel file_of m name f a, file_of m = Ok f -> flat_map (defs_in name) (src_body f) = [("__init__", a)] -> a_args a = [] ->
  extract_args set_list is_builtin_type (S fuel) file_of name (ObjImp [name] m []) = Raise IndexError.
Proof. intros set_list is_builtin_type fuel file_of m name f a F D A. cbn [extract_args imp_module]. rewrite F. cbn [imp_renames map]. unfold find_def. cbn [smem existsb]. rewrite D. unfold without_first. now rewrite A. Qed.
Example C63_ex_named : named (Other "Call" [Attr (Name "f") "g"; Elts [Sub (Name "a") (Name "b"); Str "c"]]) ["f"; "a"; "b"].
Proof. apply named_iff. reflexivity. Qed.
Example C63_example : clear_files ex_files /\ exists d, stands_for ex_files "pkg" "go" "pkg.inner" ("run", ex_args) /\
  default_config ex_set ex_builtin 2 ex_files [ObjImp ["go"] "pkg" []] (Name "go") = Ok (d, [("x", Sub (Name "List") (Name "int")); ("y", Name "T")],
    [ObjImp ["helper"] "lib.tools" []; ObjImp ["List"] "typing" []; ObjImp ["Tool"] "lib.tools" [("Tool", "T")]]) /\ dkeys d = ["x"; "y"] /\
  default_config ex_set ex_builtin 2 ex_files [ObjImp ["K"] "pkg" []] (Name "K") = Ok ([("n", Some ast_none)], [], []).
Proof.
  split; [exact ex_clear|]. eexists. split; [eapply stands_there; [reflexivity|reflexivity|reflexivity|]; eapply stands_here; reflexivity|]. split; [vm_compute; reflexivity|]. split; reflexivity.
Qed.

(** A class without its own __init__ is not found in its module; it would have to be imported there. *)
Theorem C63_class_without_init_refuted : exists file_of, (exists f, file_of "pkg.inner" = Ok f /\ In (SClass "D" []) (src_body f)) /\
  forall fuel, default_config ex_set ex_builtin (S (S fuel)) file_of [ObjImp ["D"] "pkg" []] (Name "D") = Raise (LibExn "NoImportMatchingNameException").
Proof. exists ex_files. split; [eexists; split; [reflexivity|cbn; tauto]|]. intros fuel. vm_compute. reflexivity. Qed.
(** Two definitions of one name, as in the branches of a try statement, are an error. *)
Theorem C63_two_definitions_refuted : exists file_of, forall fuel, default_config ex_set ex_builtin (S fuel) file_of [ObjImp ["alt"] "pkg.inner" []] (Name "alt") = Raise ValueError.
Proof. exists ex_files. intros fuel. vm_compute. reflexivity. Qed.
(** An item written as a name in a module is looked for under the name of the module. *)
Theorem C63_item_of_module_refuted : exists file_of f, file_of "pkg" = Ok f /\ bound_to (src_imports f) "K" = Some ("pkg.inner", Some "K") /\
  forall fuel, default_config ex_set ex_builtin (S fuel) file_of [ModImp ["pkg"] []] (Attr (Name "pkg") "K") = Raise (LibExn "NoImportMatchingNameException").
Proof. exists ex_files. eexists. split; [reflexivity|]. split; [reflexivity|]. intros fuel. vm_compute. reflexivity. Qed.
(** If self can be given by position only, another parameter is left out. *)
Theorem C63_positional_only_self_refuted : exists file_of f a, file_of "pkg.inner" = Ok f /\ flat_map (defs_in "P") (src_body f) = [("__init__", a)] /\ map arg_name (a_posonly a ++ a_args a) = ["self"; "n"] /\
  forall fuel, default_config ex_set ex_builtin (S fuel) file_of [ObjImp ["P"] "pkg.inner" []] (Name "P") = Ok ([], [], []).
Proof. exists ex_files. do 2 eexists. split; [reflexivity|]. split; [reflexivity|]. split; [reflexivity|]. intros fuel. vm_compute. reflexivity. Qed.
(** Imports in a circle: RecursionError, however deep the recursion may be. *)
Theorem C63_circle_refuted : exists file_of, forall fuel, default_config ex_set ex_builtin fuel file_of [ObjImp ["f"] "left" []] (Name "f") = Raise RecursionError.
Proof.
  exists ex_files. intros fuel. assert (H : forall fuel, extract_args ex_set ex_builtin fuel ex_files "f" (ObjImp ["f"] "left" []) = Raise RecursionError /\ extract_args ex_set ex_builtin fuel ex_files "f" (ObjImp ["f"] "right" []) = Raise RecursionError).
  { induction fuel0 as [|n [IH1 IH2]]; [split; reflexivity|]. split; [exact IH2|exact IH1]. }
  specialize (H fuel). destruct H as [H _]. unfold default_config. change (view_name (Name "f")) with (@Ok (option string) (Some "f")). cbv iota beta. replace (get_import_for_name "f" [ObjImp ["f"] "left" []]) with (@Ok imp (ObjImp ["f"] "left" [])) by reflexivity. rewrite H. reflexivity.
Qed.

Print Assumptions C49_passed.
Print Assumptions C49_function_runs.
Print Assumptions C49_missing_raises.
Print Assumptions C49_required_keyword_only_refuted.
Print Assumptions C49_keyword_only.
Print Assumptions C49_positional_only_required.
Print Assumptions C49_positional_only_configured.
Print Assumptions C49_positional_only_to_kwargs.
Print Assumptions C49_other_keywords_refuted.
Print Assumptions C49_class_runs.
Print Assumptions C49_class_entry_for_self_raises.
Print Assumptions C49_object_updated.
Print Assumptions C49_update_function_raises.
Print Assumptions C50_defaults.
Print Assumptions C50_alignment.
Print Assumptions C50_keyword_only_refuted.
Print Assumptions C50_method.
Print Assumptions C50_method_raises.
Print Assumptions C50_placeholder.
Print Assumptions C50_placeholder_key.
Print Assumptions C50_placeholder_first_parameter.
Print Assumptions C50_scaffold_runs.
Print Assumptions C50_source_agrees.
Print Assumptions C62_found_iff.
Print Assumptions C62_raises.
Print Assumptions C62_binds_the_names.
Print Assumptions C62_nothing_else.
Print Assumptions C62_module_variable_refuted.
Print Assumptions C62_builtin_in_default_refuted.
Print Assumptions C62_lambda_refuted.
Print Assumptions C62_annotations_refuted.
Print Assumptions C62_parameters_refuted.
Print Assumptions C63_found.
Print Assumptions C63_item.
Print Assumptions C63_only_definitions.
Print Assumptions C63_definitions.
Print Assumptions C63_item_with_several_names.
Print Assumptions C63_item_without_name.
Print Assumptions C63_several_modules.
Print Assumptions C63_class_without_init_refuted.
Print Assumptions C63_two_definitions_refuted.
Print Assumptions C63_item_of_module_refuted.
Print Assumptions C63_positional_only_self_refuted.
Print Assumptions C63_circle_refuted.
Print Assumptions C63_init_without_self.
