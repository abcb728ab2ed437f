(** Model of the texts that running an item produces for the log: Runner._run_one_func, runner.py:185-194, with
    dict_as_function_kwarg_str, config/logic/write.py:3-6, and _assignment_output_repr, assignments/logic/write.py:12-65. The texts are
    made whether or not anything is logged. *)
From Verif Require Export View_Model.
Local Open Scope string_scope.
Local Open Scope list_scope.

Definition nl : string := String (Ascii.ascii_of_nat 10) "".
Definition tab : string := String (Ascii.ascii_of_nat 9) "".

Section Report.
Variable u : user.
Variable ua : lobj -> string -> uattr.
Variable sel : vsel.
(** [str(value)] *)
Variable txt : pyval -> res string.

(** _assignment_output_repr without modules. [_is_selector(value)] reads the attribute [_is_selector], which for a view of an item
    goes through ItemView.__getattr__ (itemview.py:32-72); only AttributeError means that there is none. Simplification: anything
    else found under this name is true. Reading the attribute of other values has no effect. Functions and classes have a name;
    of the other values none has. *)
Definition value_text (v : pyval) (w : world) : world * res string :=
  match v with
  | VView p => match view_getattr u ua sel p "_is_selector" w with
               | (w1, Ok _) => (w1, Ok "Selector()")
               | (w1, Raise AttributeError) => (w1, Ok ("s." ++ p)%string)
               | (w1, Raise e) => (w1, Raise e)
               end
  | VFunc x => (w, Ok x)
  | VStr x => (w, Ok ("r'" ++ x ++ "'")%string)
  | _ => (w, txt v)
  end.

(** _key_value_pair_to_assignment_str for every entry, assignments/logic/write.py:7-9 *)
Fixpoint kwarg_lines (d : dict pyval) (w : world) : world * res (list string) :=
  match d with
  | [] => (w, Ok [])
  | (k, v) :: rest =>
      match value_text v w with
      | (w1, Raise e) => (w1, Raise e)
      | (w1, Ok t) => match kwarg_lines rest w1 with
                      | (w2, Ok l) => (w2, Ok ((k ++ " = " ++ t)%string :: l))
                      | (w2, Raise e) => (w2, Raise e)
                      end
      end
  end.
Definition kwarg_str (d : dict pyval) (w : world) : world * res string :=
  match kwarg_lines d w with
  | (w1, Ok l) => (w1, Ok (nl ++ tab ++ join ("," ++ nl ++ tab) l ++ nl)%string)
  | (w1, Raise e) => (w1, Raise e)
  end.

(** an operation of the runner of manager [n] *)
Definition on_runner {A} (n : string) (f : M rs A) (w : world) : world * res A :=
  match dget n w with
  | None => (w, Raise no_manager)
  | Some m => let '(r, o) := f (g_rs (v_gs m)) in (dset n (VMgr (v_items m) (v_klasses m) (GS (g_full (v_gs m)) r)) w, o)
  end.

(** Runner._run_one_func, runner.py:185-194, with its log, without the dependency record. [txt] is also used for the result. *)
Definition reported_run_func (n path : string) (w : world) : world * list string * res result :=
  match dget n w with
  | None => (w, [], Raise no_manager)
  | Some m =>
      match on_runner n (get_func_and_config (v_items m) path) w with
      | (w1, Raise e) => (w1, [], Raise e)
      | (w1, Ok (_, _, d)) =>
          match on_runner n (get_one_func_with_config (v_items m) path) w1 with
          | (w2, Raise e) => (w2, [], Raise e)
          | (w2, Ok o) =>
              match kwarg_str d w2 with
              | (w3, Raise e) => (w3, [], Raise e)
              | (w3, Ok t) =>
                  let line := ("Running function " ++ path ++ "(" ++ t ++ ")")%string in
                  match on_runner n (call_object u path o) w3 with
                  | (w4, Raise e) => (w4, [line], Raise e)
                  | (w4, Ok r) => match r with
                                  | RVal v => match txt v with
                                              | Ok t' => (w4, [line; ("Result:" ++ nl ++ t' ++ nl)%string], Ok r)
                                              | Raise e => (w4, [line], Raise e)
                                              end
                                  | RList _ => (w4, [line], Ok r)      (* not possible *)
                                  end
                  end
              end
          end
      end
  end.
End Report.

(** Reading a raw string literal, after the opening [r'] : up to the first quote that is not behind a backslash which itself is not;
    both characters stay part of the value, and the line must not end. [esc] says that the previous character escapes this one. *)
Fixpoint read_raw (esc : bool) (s : string) : option (string * string) :=
  match s with
  | "" => None
  | String c r =>
      if Ascii.eqb c (Ascii.ascii_of_nat 10) && negb esc then None
      else if Ascii.eqb c "'" && negb esc then Some ("", r)
      else match read_raw (negb esc && Ascii.eqb c "\") r with Some (a, b) => Some (String c a, b) | None => None end
  end.
