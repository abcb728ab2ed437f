(** Model of pyfileconf/iterate.py (class IterativeRunner), the default hooks of pyfileconf/plugin/default_hooks.py it
    uses, and PipelineManager.run_product / run_product_gen (pyfileconf/main.py:161-197).

    Simplification: the deep copies taken of the given updates (iterate.py:233) are not distinguished from the originals,
    i.e. the updates given here are the copies. Section paths in the updates are strings. *)
From Verif Require Export Batch_Model.
Local Open Scope list_scope.
Local Open Scope monad_scope.

(** one update dict: its section_path_str and the other entries *)
Definition conf : Type := string * body.
Definition case : Type := list conf.

(* ------------------------------------------------------------------ *)
(** * The cases *)

(** [combined_dicts[sp].append(conf)] *)
Definition add_to_group (groups : dict (list conf)) (c : conf) : dict (list conf) :=
  dset (fst c) ((match dget (fst c) groups with Some l => l | None => [] end) ++ [c]) groups.

(** _get_configs_by_section_path_dict, iterate.py:199-233 *)
Definition configs_by_section_path (updates : list conf) : dict (list conf) :=
  fold_left add_to_group updates [].

(** itertools.product *)
Fixpoint product {A} (ls : list (list A)) : list (list A) :=
  match ls with
  | [] => [[]]
  | l :: rest => flat_map (fun x => map (cons x) (product rest)) l
  end.

(** get_config_product, iterate.py:167-196 *)
Definition get_config_product (updates : list conf) : list case :=
  product (dvals (configs_by_section_path updates)).

(** IterativeRunner.get_cases, iterate.py:58-66, with the cases other plugins contribute (called before the default one)
    and the modification plugins make *)
Definition get_cases (contributed : list (list case)) (modify : list case -> list case) (updates : list conf) : list case :=
  modify (concat (contributed ++ [get_config_product updates])).

(* ------------------------------------------------------------------ *)
(** * Comparing update dicts *)

(** [v == w] of two entries with the shortcut for identical objects *)
Definition entry_eq (v w : pyval) : res bool :=
  if py_is v w then Ok true
  else match py_eq v w with
       | EqBool b => Ok b
       | EqAmbig | EqRaise => Raise ValueError     (* which exception it is does not matter here *)
       end.

Fixpoint entries_eq (a : list (string * pyval)) (b : dict pyval) : res bool :=
  match a with
  | [] => Ok true
  | (k, v) :: rest => match dget k b with
                      | None => Ok false
                      | Some w => match entry_eq v w with
                                  | Ok true => entries_eq rest b
                                  | r => r
                                  end
                      end
  end.

Definition dict_eq (a b : dict pyval) : res bool :=
  if Nat.eqb (length a) (length b) then entries_eq a b else Ok false.

Definition conf_size (c : conf) : nat := length (b_vals (snd c)) + (match b_d (snd c) with Some _ => 1 | None => 0 end).

(** [conf == other]. The defaults come first in the filled dicts, so the values are compared before the paths.
    Simplification: section_path_str and d_ are compared last. *)
Definition conf_eq (c c' : conf) : res bool :=
  if Nat.eqb (conf_size c) (conf_size c') then
    match entries_eq (b_vals (snd c)) (b_vals (snd c')) with
    | Ok true => if String.eqb (fst c) (fst c') then
                   match b_d (snd c), b_d (snd c') with
                   | None, None => Ok true
                   | Some d, Some d' => dict_eq d d'
                   | _, _ => Ok false
                   end
                 else Ok false
    | r => r
    end
  else Ok false.

(** [conf in last_case] *)
Fixpoint conf_in (c : conf) (l : case) : res bool :=
  match l with
  | [] => Ok false
  | c' :: rest => match conf_eq c c' with
                  | Ok false => conf_in c rest
                  | r => r
                  end
  end.

(** [[conf for conf in case if conf not in last_case]], default_hooks.py:47-51 *)
Fixpoint not_in_last (l : case) (last : case) : res case :=
  match l with
  | [] => Ok []
  | c :: rest => match conf_in c last with
                 | Raise e => Raise e
                 | Ok b => match not_in_last rest last with
                           | Raise e => Raise e
                           | Ok l' => Ok (if b then l' else c :: l')
                           end
                 end
  end.

Definition updated_confs (last : option case) (l : case) : res case :=
  match last with Some last => not_in_last l last | None => Ok l end.

(* ------------------------------------------------------------------ *)
(** * The runner *)

(** _get_full_section_path_str, iterate.py:98-101 *)
Definition full_path (base : option string) (p : string) : string :=
  match base with
  | None => p
  | Some b => if String.eqb b "" then p else path_str (sp_join (mk_sp b) (mk_sp p))
  end.

(** the fields of IterativeRunner *)
Record iter : Type := It {
  it_base : option string;
  it_strip : bool;
  it_items : list section_path;
  it_cases : list case;
  it_defaults : dict (dict pyval) }.

Section Iter.
Variable U : world -> string -> user.
(** hook for subclasses, iterate.py:154-164; always True in the class itself *)
Variable should_run : case -> bool.

(** one step of the loop in get_defaults, iterate.py:78-84 *)
Definition default_for_path (fp : string) : M world (option (dict pyval)) :=
  let sp := mk_sp fp in
  on_manager U (manager_of sp) (fun _ _ =>
    r <- on_cms (cm_get (relative sp)) ;;
    match r with
    | None => ret None
    | Some r => c <- on_cms (deref r) ;; ret (Some (c_vals c))
    end).

Fixpoint defaults_loop (fps : list string) (acc : dict (dict pyval)) : M world (dict (dict pyval)) :=
  match fps with
  | [] => ret acc
  | fp :: rest => d <- default_for_path fp ;;
                  defaults_loop rest (match d with Some d => dset fp d acc | None => acc end)
  end.

(** IterativeRunner.get_defaults, iterate.py:69-86 *)
Definition get_defaults (base : option string) (cases : list case) : M world (dict (dict pyval)) :=
  match cases with
  | [] => raise IndexError
  | c :: _ => defaults_loop (map (fun q => full_path base (fst q)) c) []
  end.

(** IterativeRunner.__init__, iterate.py:31-56 *)
Definition iter_new (contributed : list (list case)) (modify : list case -> list case)
  (paths : list sp_like) (updates : list conf) (base : option string) (strip : bool) : M world iter :=
  items <- lift (list_from_ambiguous paths base strip) ;;
  let cases := get_cases contributed modify updates in
  defaults <- get_defaults base cases ;;
  ret (It base strip items cases defaults).

(** [{**defaults, **conf}], iterate.py:91-93 *)
Definition fill_conf (defaults : dict pyval) (c : conf) : conf :=
  let inherited := dfilter (fun k => negb (String.eqb k "section_path_str") &&
                                     negb (match b_d (snd c) with Some _ => String.eqb k "d_" | None => false end))%bool defaults in
  (fst c, Body (b_d (snd c)) (dupdate inherited (b_vals (snd c)))).

(** _fill_case_with_defaults, iterate.py:89-96 *)
Fixpoint fill_case (it : iter) (c : case) : res case :=
  match c with
  | [] => Ok []
  | q :: rest => match dget (full_path (it_base it) (fst q)) (it_defaults it) with
                 | None => Raise KeyError
                 | Some d => match fill_case it rest with
                             | Ok l => Ok (fill_conf d q :: l)
                             | Raise e => Raise e
                             end
                 end
  end.

(** IterativeRunner._run, iterate.py:138-152 *)
Definition run_items (it : iter) : M world result :=
  results <- mapM (fun sp => on_manager U (manager_of sp) (fun p u =>
                     pm_run (pm_items p) u (pm_setting p) (AStr (relative sp)))) (it_items it) ;;
  match results with
  | [r] => ret r
  | _ => ret (RList results)
  end.

(** The state while iterating: the managers and the attribute [last_case]. *)
Record ist : Type := IS { is_world : world; is_last : option case }.

Definition on_world {A} (m : M world A) : M ist A :=
  fun s => let '(w, r) := m (is_world s) in (IS w (is_last s), r).

(** pyfileconf_iter_update_for_case, default_hooks.py:32-57 *)
Definition update_for_case (it : iter) (c : case) : M ist unit :=
  confs <- (fun s => (s, updated_confs (is_last s) c)) ;;
  on_world (batch_update U [] (it_base it) (it_strip it) (map (fun q => (LStr (fst q), snd q)) confs)).

(** IterativeRunner._run_case, iterate.py:131-136 *)
Definition run_case (it : iter) (c : case) : M ist result :=
  filled <- lift (fill_case it c) ;;
  update_for_case it filled ;;;
  r <- on_world (run_items it) ;;
  modify (fun s => IS (is_world s) (Some filled)) ;;;
  ret r.

(** the loop of IterativeRunner.run, iterate.py:110-117 *)
Fixpoint run_cases (it : iter) (l : list case) : M ist (list (case * result)) :=
  match l with
  | [] => ret []
  | c :: rest => if should_run c
                 then r <- run_case it c ;; more <- run_cases it rest ;; ret ((c, r) :: more)
                 else run_cases it rest
  end.

(** IterativeRunner.run, iterate.py:103-120 *)
Definition iter_run (it : iter) (collect : bool) : M ist (list (case * result)) :=
  l <- run_cases it (it_cases it) ;; ret (if collect then l else []).

(** IterativeRunner.run_gen, iterate.py:122-129: the generator's own state is the cases not tried yet. [None] is the end of
    the iteration; after an exception the generator is finished. *)
Fixpoint gen_next (it : iter) (rest : list case) (s : ist) : ist * list case * res (option (case * result)) :=
  match rest with
  | [] => (s, [], Ok None)
  | c :: rest' => if should_run c
                  then match run_case it c s with
                       | (s', Ok r) => (s', rest', Ok (Some (c, r)))
                       | (s', Raise e) => (s', [], Raise e)
                       end
                  else gen_next it rest' s
  end.

(** asking the generator for [k] results *)
Fixpoint gen_take (it : iter) (k : nat) (rest : list case) (s : ist) : ist * list case * list (res (option (case * result))) :=
  match k with
  | O => (s, rest, [])
  | S k => let '(s1, rest1, o) := gen_next it rest s in
           let '(s2, rest2, os) := gen_take it k rest1 s1 in
           (s2, rest2, o :: os)
  end.

End Iter.

(** PipelineManager.run_product, main.py:162-185 (no plugins) *)
Definition run_product U (name : string) (paths : list sp_like) (updates : list conf) (collect : bool) : M world (list (case * result)) :=
  it <- iter_new U [] (fun l => l) paths updates (Some name) true ;;
  fun w => let '(s, r) := iter_run U (fun _ => true) it collect (IS w None) in (is_world s, r).
