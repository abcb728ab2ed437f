(** What is said about dict files and the trees built from them. *)
From Verif Require Export PipeDict_Model.
Local Open Scope string_scope.
Local Open Scope list_scope.

(** what stands at a path of a nested dict, following keys of dicts only *)
Fixpoint lookup (v : pd) (path : list string) : option pd :=
  match path with
  | [] => Some v
  | x :: rest => match v with
                 | PDict d => match dget x d with Some v' => lookup v' rest | None => None end
                 | _ => None
                 end
  end.

Definition is_dict (v : pd) : bool := match v with PDict _ => true | _ => false end.
Definition is_list (v : pd) : bool := match v with PList _ => true | _ => false end.
Definition is_section (v : pd) : bool := is_dict v || is_list v.

(** the list standing at a path, nothing counts as an empty one *)
Definition list_at (d : dict pd) (path : list string) : list pd :=
  match lookup (PDict d) path with Some (PList l) => l | _ => [] end.

(** keys of the dict at a path; none if there is nothing *)
Definition keys_at (d : dict pd) (q : list string) : list string :=
  match lookup (PDict d) q with Some (PDict e) => dkeys e | _ => [] end.

(** some section on the way to [path] holds something else than sections *)
Definition passes_through_leaf (d : dict pd) (path : list string) : Prop :=
  exists q r v, path = q ++ r /\ q <> [] /\ r <> [] /\ lookup (PDict d) q = Some v /\ is_dict v = false.

(** every dict in [v] has distinct keys, as real ones do *)
Fixpoint pd_wf (v : pd) : Prop :=
  match v with
  | PList l => (fix all (l : list pd) := match l with [] => True | x :: r => pd_wf x /\ all r end) l
  | PDict l => dwf l /\ (fix all (l : list (string * pd)) := match l with [] => True | (_, x) :: r => pd_wf x /\ all r end) l
  | _ => True
  end.

(** a Python identifier that is not a keyword or constant (ASCII) *)
Definition letters : string := "abcdefghijklmnopqrstuvwxyzABCDEFGHIJKLMNOPQRSTUVWXYZ_".
Definition name_char (c : ascii) : bool := has_char c letters || has_char c "0123456789".
Definition reserved_words : list string :=
  ["None"; "True"; "False"; "and"; "as"; "assert"; "async"; "await"; "break"; "class"; "continue"; "def"; "del"; "elif"; "else";
   "except"; "finally"; "for"; "from"; "global"; "if"; "import"; "in"; "is"; "lambda"; "nonlocal"; "not"; "or"; "pass"; "raise";
   "return"; "try"; "while"; "with"; "yield"].
Definition good_name (n : string) : Prop :=
  match n with
  | EmptyString => False
  | String c r => has_char c letters = true /\ all_chars name_char r = true
  end /\ ~ In n reserved_words.

(** a key that can stand between double quotes: no double quote, backslash, NUL, newline or return *)
Definition newline : ascii := ascii_of_nat 10.
Definition return_char : ascii := ascii_of_nat 13.
Definition plain_char (c : ascii) : bool :=
  negb (Ascii.eqb c dquote || Ascii.eqb c "\" || Ascii.eqb c (ascii_of_nat 0) || Ascii.eqb c newline || Ascii.eqb c return_char).
Definition plain_key (k : string) : Prop := all_chars plain_char k = true.

(** a nested dict in which all entries are names: directly or in lists *)
Fixpoint names_only (v : pd) : Prop :=
  match v with
  | PName n => good_name n
  | PList l => (fix all (l : list pd) := match l with [] => True
                                         | PName n :: r => good_name n /\ all r
                                         | _ => False end) l
  | PDict l => (fix all (l : list (string * pd)) := match l with [] => True
                                                    | (k, x) :: r => plain_key k /\ names_only x /\ all r end) l
  | _ => False
  end.

(** all keys of dicts in [v] satisfy [K] and everything that is neither dict nor list satisfies [L] *)
Fixpoint pd_all (K : string -> Prop) (L : pd -> Prop) (v : pd) : Prop :=
  match v with
  | PList l => (fix all (l : list pd) := match l with [] => True | x :: r => pd_all K L x /\ all r end) l
  | PDict l => (fix all (l : list (string * pd)) := match l with [] => True
                                                    | (k, x) :: r => K k /\ pd_all K L x /\ all r end) l
  | _ => L v
  end.
Definition plain_keys : pd -> Prop := pd_all plain_key (fun _ => True).

(** a nested dict, with lists, of strings without NUL characters *)
Definition no_nul (s : string) : Prop := all_chars (fun c => negb (Ascii.eqb c (ascii_of_nat 0))) s = true.
Definition strings_only : pd -> Prop := pd_all no_nul (fun v => match v with PStr s => no_nul s | _ => False end).

(** what the writer of pipeline dicts can handle: names, and lists of names *)
Fixpoint writable (v : pd) : bool :=
  match v with
  | PName _ | PStr _ => true
  | POther _ => false
  | PList l => forallb (fun x => match x with PName _ => true | _ => false end) l
  | PDict l => forallb (fun kv => writable (snd kv)) l
  end.

(** a path whose parts are not names that the registrar or its collections define themselves *)
Definition usable_path (path : list string) : Prop :=
  match path with [] => False | x :: _ => mem x reg_reserved = false /\ x <> "collection" end /\
  Forall (fun x => mem x coll_reserved = false) path.

(** the elements of lists that become items of the tree *)
Fixpoint viewed (v : pd) : list pd :=
  match v with
  | PDict l => flat_map (fun kv => match snd kv with PDict _ | PList _ => viewed (snd kv) | _ => [] end) l
  | PList l => flat_map (fun x => match x with
                                  | PDict d => flat_map (fun kv => match snd kv with
                                                                   | PDict _ | PList _ => viewed (snd kv)
                                                                   | y => [y]
                                                                   end) d
                                  | _ => [x]
                                  end) l
  | _ => []
  end.

Section Written.
  Variable view : pd -> res (string * thing).

  (** [written v path i]: the dict or list [v] has the item [i] at [path]. The path consists of the keys of
      the dicts passed and the item's own name; a dict in a list does not count as a level, and the key of
      an item in such a dict does not matter. *)
  Inductive written : pd -> list string -> pd -> Prop :=
  | W_key d k v rest i : In (k, v) d -> is_section v = true -> written v rest i -> written (PDict d) (k :: rest) i
  | W_item l i n t : In i l -> is_dict i = false -> view i = Ok (n, t) -> written (PList l) [n] i
  | W_sub l d k v rest i : In (PDict d) l -> In (k, v) d -> is_section v = true -> written v rest i ->
                           written (PList l) (k :: rest) i
  | W_val l d k v n t : In (PDict d) l -> In (k, v) d -> is_section v = false -> view v = Ok (n, t) ->
                        written (PList l) [n] v.

  (** [section_at v path s]: the dict or list [s] stands at [path] *)
  Inductive section_at : pd -> list string -> pd -> Prop :=
  | S_here v : section_at v [] v
  | S_key d k v rest s : In (k, v) d -> is_section v = true -> section_at v rest s -> section_at (PDict d) (k :: rest) s
  | S_sub l d k v rest s : In (PDict d) l -> In (k, v) d -> is_section v = true -> section_at v rest s ->
                           section_at (PList l) (k :: rest) s.
End Written.

(** no two entries of one section have the same name *)
Fixpoint distinct_names (c : coll) : Prop :=
  match c with
  | Coll _ es => NoDup (map entry_name es) /\
                 (fix all (l : list entry) := match l with
                                              | [] => True
                                              | EItem _ _ :: r => all r
                                              | EColl c' :: r => distinct_names c' /\ all r
                                              end) es
  end.

(** the dict file reads as a dict and the tree in memory is what would be built from it *)
Definition in_sync (view : pd -> res (string * thing)) (w : world) : Prop :=
  exists d, read false "pipeline_dict" (w_text w) = Some d /\ plain_keys (PDict d) /\
            from_dict view (coll_name (w_coll w)) d = Ok (w_coll w).
Definition in_sync_class (view : pd -> res (string * thing)) (w : world) : Prop :=
  exists d, read true "class_dict" (w_text w) = Some d /\ strings_only (PDict d) /\
            from_dict view (coll_name (w_coll w)) d = Ok (w_coll w).

(** a sequence of calls of [create]: path, name and what the name imports as *)
Definition creates (black : string -> res string) (l : list (list string * string * thing)) : M world unit :=
  iterM (fun x => match x with (path, func, t) => create black path func t end) l.
Definition creates_class (black : string -> res string) (l : list (list string * string * thing)) : M world unit :=
  iterM (fun x => match x with (path, item, t) => create_class black path item t end) l.
