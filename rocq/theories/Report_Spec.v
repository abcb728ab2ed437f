(** Statements about the log of a run. *)
From Verif Require Export Report_Model View_Spec.
Local Open Scope string_scope.
Local Open Scope list_scope.

(** The text of a value that is no view. *)
Definition prints (txt : pyval -> res string) (v : pyval) (t : string) : Prop :=
  match v with
  | VView _ => False
  | VFunc x => t = x
  | VStr x => t = ("r'" ++ x ++ "'")%string
  | _ => txt v = Ok t
  end.
(** one line for every value *)
Definition prints_all (txt : pyval -> res string) (d : dict pyval) (lines : list string) : Prop :=
  Forall2 (fun kv l => exists t, prints txt (snd kv) t /\ l = (fst kv ++ " = " ++ t)%string) d lines.
Definition running_line (path : string) (lines : list string) : string :=
  let line_end := String "010" "" in let indent := String "009" "" in
  ("Running function " ++ path ++ "(" ++ line_end ++ indent ++ join ("," ++ line_end ++ indent) lines ++ line_end ++ ")")%string.
Definition result_line (t : string) : string := ("Result:" ++ String "010" "" ++ t ++ String "010" "")%string.

(** the world after an operation of the runner of manager [n] *)
Definition with_rs (n : string) (m : vmgr) (r : rs) (w : world) : world := dset n (VMgr (v_items m) (v_klasses m) (GS (g_full (v_gs m)) r)) w.

(** The body of a raw string literal delimited by single quotes: characters other than quotes, backslashes and line ends, and
    backslashes followed by any character. *)
Inductive raw_body : string -> Prop :=
| raw_nil : raw_body ""
| raw_char c s : c <> "'"%char -> c <> "\"%char -> c <> Ascii.ascii_of_nat 10 -> raw_body s -> raw_body (String c s)
| raw_pair c s : raw_body s -> raw_body (String "\" (String c s)).

(** For examples: the world of View_Spec after setting the parameter "own" of p.a.b.f to a value. *)
Definition rx_txt (v : pyval) : res string :=
  match v with VInt _ => Ok "1" | VObj 3 => Raise (UserExn 5) | VObj _ => Ok "<object>" | VStr s => Ok s | _ => Ok "None" end.
Definition rx_w (v : pyval) : world := fst (view_setattr vx_user "p.a.b.f" "own" v vx_w).
(** a user whose class K of p.x.y cannot be created *)
Definition rx_user : user := User (u_call vx_user) (fun k _ => if String.eqb (f_id k) "K" then Some (UserExn 9) else None) (u_post_run vx_user) [].
(** a user whose functions return an object *)
Definition rx_obj (n : nat) : user := User (fun _ _ _ => Ok (VObj n)) (fun _ _ => None) (fun _ => []) [].

(** A run gets as far as the call: the values for the log and the object to be called. *)
Definition ready (its : items) (path : string) (s : rs) (d : dict pyval) (s2 : rs) (o : lobj) : Prop :=
  exists s1 f b, get_func_and_config its path s = (s1, Ok (f, b, d)) /\ get_one_func_with_config its path s1 = (s2, Ok o).
(** the state after the call *)
Definition after_call (s2 : rs) (path : string) (o : lobj) : rs := RS (r_cms s2) (r_loaded s2) (r_next s2) (r_calls s2 ++ [(path, o)]).
