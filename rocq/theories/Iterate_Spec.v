(** Specification vocabulary for C28-C31 and C56. *)
From Verif Require Import Iterate_Model ConfigTree_Spec Runner_Spec ConfigOps_Proofs.
Local Open Scope list_scope.

(* ------------------------------------------------------------------ *)
(** * C28: all combinations *)

(** the distinct elements in order of first appearance *)
Fixpoint first_seen (l : list string) : list string :=
  match l with
  | [] => []
  | x :: rest => x :: filter (fun y => negb (String.eqb x y)) (first_seen rest)
  end.

(** the updates given for each section path *)
Definition choices (updates : list conf) : list (list conf) :=
  map (fun p => filter (fun c => String.eqb p (fst c)) updates) (first_seen (map fst updates)).

(** a way to choose one element of each list, as positions *)
Definition selects {A} (idx : list nat) (ls : list (list A)) (chosen : list A) : Prop :=
  length idx = length ls /\ length chosen = length ls /\
  forall j l, nth_error ls j = Some l -> exists i a, nth_error idx j = Some i /\ nth_error chosen j = Some a /\ nth_error l i = Some a.

(** strictly before in lexicographic order, the last position varying fastest *)
Inductive lex_before : list nat -> list nat -> Prop :=
| lex_here a b l l' : a < b -> lex_before (a :: l) (b :: l')
| lex_later a l l' : lex_before l l' -> lex_before (a :: l) (a :: l').

(* ------------------------------------------------------------------ *)
(** * C29: what is stored for a section path *)

(** equal up to [True == 1] and [False == 0], the only different plain values that Python considers equal *)
Fixpoint norm (v : pyval) : pyval :=
  match v with
  | VBool b => VInt (if b then 1 else 0)%Z
  | VList l => VList (map norm l)
  | v => v
  end.
Definition same_value (v w : pyval) : Prop := norm v = norm w.

(** where a full section path leads: the manager's runner, the config object addressed, the config *)
Definition manager_name (fp : string) : string := manager_of (mk_sp fp).
Definition inner_path (fp : string) : string := relative (mk_sp fp).
Definition rs_at (w : world) (fp : string) : option rs :=
  match dget (manager_name fp) w with Some p => Some (pm_rs p) | None => None end.
Definition ref_at (w : world) (fp : string) : option cref :=
  match rs_at w fp with Some s => target (r_cms s) (path_parts (inner_path fp)) | None => None end.
Definition config_at (w : world) (fp : string) : option config :=
  match rs_at w fp, ref_at w fp with Some s, Some r => current (r_cms s) r | _, _ => None end.
(** the values set by sections above, the project and the local config *)
Definition layers_at (w : world) (fp : string) : list (dict pyval) :=
  match rs_at w fp, ref_at w fp with Some s, Some r => overriding_layers (r_cms s) (rpath r) | _, _ => [] end.

Definition world_wf (w : world) : Prop := forall n p, dget n w = Some p -> rs_wf (pm_rs p).

(** the mentioned configs are different objects and none is the config of a section above another one *)
Definition independent (w : world) (fps : list string) : Prop :=
  forall fp fq r r', In fp fps -> In fq fps -> fp <> fq -> manager_name fp = manager_name fq ->
    ref_at w fp = Some r -> ref_at w fq = Some r' -> r' <> r /\ ~ In r' (map CSec ([] :: prefixes (rpath r))).

(** sections above do not contradict each other and do not set any of the given keys *)
Definition inherits_quietly (w : world) (fp : string) (keys : list string) : Prop :=
  (forall r, ref_at w fp = Some r -> rpath r <> []) /\
  forall L L' k v v', In L (layers_at w fp) -> In L' (layers_at w fp) -> dget k L = Some v -> dget k L' = Some v' ->
    v' = v /\ ~ In k keys.

(** the keys some update sets at a section path *)
Definition keys_set (updates : list conf) (p : string) : list string :=
  flat_map (fun c => if String.eqb p (fst c) then dkeys (b_vals (snd c)) else []) updates.

(** values that compare normally, under names that are no parameters of _update *)
Definition plain_dict (d : dict pyval) : Prop := forall k v, dget k d = Some v -> plain v = true.
Definition ordinary (d : dict pyval) : Prop :=
  plain_dict d /\ forall k, In k (dkeys d) -> ~ In k ["d_"; "pyfileconf_persist"; "section_path_str"]%string.

(** the side conditions of C29 *)
Record isolated (w : world) (it : iter) (updates : list conf) : Prop := Isolated {
  iso_wf : world_wf w;
  iso_base : it_base it <> Some ""%string;
  iso_indep : independent w (map (fun c => full_path (it_base it) (fst c)) updates);
  iso_quiet : forall p, In p (map fst updates) -> inherits_quietly w (full_path (it_base it) p) (keys_set updates p);
  iso_defaults : forall fp d, dget fp (it_defaults it) = Some d -> ordinary d;
  iso_updates : forall p b, In (p, b) updates -> dwf (b_vals b) /\ plain_dict (b_vals b) }.

(** what key [k] of the config at path [p] should be during a case *)
Definition case_value (defaults : dict pyval) (b : body) (k : string) : option pyval :=
  match dget k defaults with
  | None => None
  | Some d => match dget k (b_vals b) with Some v => Some v | None => Some d end
  end.

(** the arguments an object currently works with: bound keywords of a partial, those of the last (re-)initialisation of an
    instance *)
Definition arguments (o : lobj) : dict pyval :=
  match o with LPartial _ _ _ kw => kw | LInst _ _ calls => last calls [] end.
Definition agree (args : dict pyval) (expected : string -> option pyval) : Prop :=
  forall k v e, dget k args = Some v -> expected k = Some e -> same_value v e.

(** objects that were loaded before the iteration agree with the configs *)
Definition loaded_in_step (w : world) (it : iter) (updates : list conf) : Prop :=
  forall p s o d, In p (map fst updates) -> rs_at w (full_path (it_base it) p) = Some s ->
    dget (inner_path (full_path (it_base it) p)) (r_loaded s) = Some o ->
    dget (full_path (it_base it) p) (it_defaults it) = Some d -> agree (arguments o) (fun k => dget k d).

(* ------------------------------------------------------------------ *)
(** * C30: executed cases *)

(** the cases were executed one after the other, with these results *)
Inductive executed (U : world -> string -> user) (it : iter) : list case -> ist -> ist -> list result -> Prop :=
| ex_none s : executed U it [] s s []
| ex_case c cs s s1 s2 r rs : run_case U it c s = (s1, Ok r) -> executed U it cs s1 s2 rs -> executed U it (c :: cs) s s2 (r :: rs).

(* ------------------------------------------------------------------ *)
(** * C31: single updates *)

(** one call [manager.update(d_, section_path_str=path, pyfileconf_persist=persist, **kwargs)] *)
Record single : Type := Single { s_manager : string; s_path : string; s_d : option (dict pyval); s_persist : bool; s_kw : dict pyval }.

Definition single_update (U : world -> string -> user) (x : single) (w : world) : world * res unit :=
  match dget (s_manager x) w with
  | None => (w, Raise (LibExn "NoPipelineManagerForSectionPathException"))
  | Some p => let '(s, _, r) := pm_update (U w (s_manager x)) [] (s_d x) (Some (s_path x)) (s_persist x) (s_kw x) (pm_rs p) in
              (dset (s_manager x) (PMS (pm_base p) (pm_items p) (pm_setting p) s) w, r)
  end.

(** the same as an entry of a batch *)
Definition as_body (x : single) : body := Body (s_d x) (("pyfileconf_persist"%string, VBool (s_persist x)) :: s_kw x).

(** one after the other up to the first failure *)
Inductive in_sequence (U : world -> string -> user) : list single -> world -> world -> res unit -> Prop :=
| seq_done w : in_sequence U [] w w (Ok tt)
| seq_next x l w w1 w2 o : single_update U x w = (w1, Ok tt) -> in_sequence U l w1 w2 o -> in_sequence U (x :: l) w w2 o
| seq_fail x l w w1 e : single_update U x w = (w1, Raise e) -> in_sequence U (x :: l) w w1 (Raise e).

(** the ways to address the item at [path] of the manager [name] in a batch, given the base section path and whether the
    manager's name is dropped from views *)
Inductive addresses : option string -> bool -> sp_like -> string -> string -> Prop :=
| ad_str strip name path : addresses None strip (LStr (name ++ "." ++ path)) name path
| ad_sp strip name path : addresses None strip (LSp (mk_sp (name ++ "." ++ path))) name path
| ad_view name path : addresses None false (LView (name ++ "." ++ path)) name path
| ad_base_str strip name path : addresses (Some name) strip (LStr path) name path
| ad_base_sp strip name path : addresses (Some name) strip (LSp (mk_sp path)) name path
| ad_base_view name path : addresses (Some name) true (LView (name ++ "." ++ path)) name path.

(** names that are no parameters of update *)
Definition free_kwargs (kw : dict pyval) : Prop := forall k, In k ["self"; "d_"; "section_path_str"; "pyfileconf_persist"]%string -> dget k kw = None.
