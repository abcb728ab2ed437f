(** What a single argument of an item goes through: a small machine (C96). *)
From Verif Require Export Runner_Model ConfigTree_Spec Runner_Spec Isolation_Spec LastSet_Spec.
From Verif Require Import Iterate_Spec.
From Coq Require Import ZArith.
Local Open Scope string_scope.
Local Open Scope list_scope.

(** What is known about the argument in one of the configs that override the item's: its value, the update that is remembered for
    refreshes, and what the file says. *)
Record lay : Type := Lay { l_val : option pyval; l_kept : option pyval; l_file : option pyval }.
(** the argument: its value in the item's config, the update that is remembered, its value in the loaded object if there is one,
    and the configs around *)
Record arg : Type := Arg { a_own : pyval; a_kept : option pyval; a_obj : option pyval; a_around : cref -> lay }.

Definition equal (v w : pyval) : bool := match py_eq v w with EqBool b => b | _ => false end.
Definition either {A} (o o' : option A) : option A := match o with Some v => Some v | None => o' end.

(** the value that counts among those around: the local config's, then that of the innermost section, and so on outwards *)
Definition refs (p : list string) : list cref := CLocal :: map CSec (rev (prefixes p)) ++ [CSec []].
Definition over (p : list string) (a : arg) : option pyval :=
  fold_right (fun r rest => either (l_val (a_around a r)) rest) None (refs p).

(** Looking the config up: what counts around is stored in the item's config, as if it had been set there. *)
Definition look (p : list string) (a : arg) : arg :=
  match over p a with Some v => Arg v (Some v) (a_obj a) (a_around a) | None => a end.
Definition load (a : arg) : arg := Arg (a_own a) (a_kept a) (Some (a_own a)) (a_around a).
(** the object, if there is one, gets the config's value *)
Definition hand_on (a : arg) : arg := match a_obj a with Some _ => load a | None => a end.

Definition ref_dec (r r' : cref) : {r = r'} + {r <> r'}.
Proof. repeat decide equality. Defined.
Definition put_around (r : cref) (l : lay) (a : arg) : arg :=
  Arg (a_own a) (a_kept a) (a_obj a) (fun r' => if ref_dec r' r then l else a_around a r').
Definition remember (persist : bool) (v : pyval) (kept : option pyval) : option pyval := if persist then Some v else kept.

(** An update of a config around. An update that changes no value that is already there is dropped as a whole; [more]: it changes
    one under another name. *)
Definition set_around (more : bool) (r : cref) (v : pyval) (persist : bool) (a : arg) : arg :=
  let l := a_around a r in
  if more || match l_val l with Some old => negb (equal old v) | None => false end
  then put_around r (Lay (Some v) (remember persist v (l_kept l)) (l_file l)) a else a.

(** A reset of a section around the item: everything below it is what the files say, and no update is remembered. The object stays. *)
Definition begins (q p : list string) : bool := if list_eq_dec string_dec (firstn (List.length q) p) q then true else false.
Definition below (q : list string) (r : cref) : bool := match r with CSec q' => begins q q' | _ => false end.
Definition read_again (q : list string) (file : pyval) (a : arg) : arg :=
  Arg file None (a_obj a) (fun r => let l := a_around a r in if below q r then Lay (l_file l) None (l_file l) else l).

Definition move (path k : string) (file : pyval) (more : bool) (op : rop) (a : arg) : arg :=
  let p := path_parts path in
  match op with
  | RGet q => if String.eqb q path then match a_obj a with Some _ => a | None => load (look p a) end else a
  | RRun _ (AStr q) => if String.eqb q path then match a_obj a with Some _ => look p a | None => load (look p a) end else a
  | RRun _ (AList _) => a
  | RUpdate d (Some q) persist kw =>
      match gives k d kw with
      | Some v => if String.eqb q path
                  then if more || negb (equal (a_own a) v) then hand_on (Arg v (remember persist v (a_kept a)) (a_obj a) (a_around a)) else a
                  else set_around more (CSec (path_parts q)) v persist a
      | None => if String.eqb q path && more then hand_on a else a
      end
  | RUpdate d None persist kw => match gives k d kw with Some v => set_around more CLocal v persist a | None => a end
  | RReset (Some q) _ =>
      if String.eqb q path then if more || negb (equal (a_own a) file) then hand_on (Arg file None (a_obj a) (a_around a)) else a
      else if begins (path_parts q) p then read_again (path_parts q) file a else a
  | RReset None _ => put_around CLocal (Lay None None None) a
  | RRefresh q =>
      if String.eqb q path
      then let v := match a_kept a with Some w => w | None => file end in
           if more || negb (equal (a_own a) v)
           then let b := Arg v (a_kept a) (a_obj a) (a_around a) in
                match a_obj a with Some _ => load (look p b) | None => b end
           else a
      else let r := CSec (path_parts q) in let l := a_around a r in
           put_around r (Lay (either (l_kept l) (either (l_file l) (l_val l))) (l_kept l) (l_file l)) a
  end.

(** The operation changes a value under another name. *)
Definition others_change (k : string) (vals updates : dict pyval) : Prop :=
  exists k' old new, k' <> k /\ dget k' vals = Some old /\ dget k' updates = Some new /\ values_are_equal old new <> Ok true.
Definition changes_more (k : string) (s : rs) (op : rop) : Prop :=
  let st := r_cms s in
  let config_at q := match target st (path_parts q) with Some r => current st r | None => None end in
  let from_file c := match c_file c with Some ref => match read_file (cs_disk st) ref with Ok d => d | Raise _ => [] end | None => [] end in
  match op with
  | RUpdate d q _ kw =>
      exists c, match q with Some q => config_at q | None => Some (cs_local st) end = Some c /\
        others_change k (c_vals c) (dupdate match d with Some e => e | None => [] end kw)
  | RReset (Some q) _ => exists c, config_at q = Some c /\ others_change k (c_vals c) (ddel "d_" (from_file c))
  | RRefresh q => exists c, config_at q = Some c /\ others_change k (c_vals c) (dupdate (from_file c) (c_applied c))
  | _ => False
  end.

(** the machine follows the operations *)
Fixpoint moves (base : string) (its : items) (u : user) (path k : string) (file : pyval) (s : rs) (ops : list rop) (a a' : arg) : Prop :=
  match ops with
  | [] => a' = a
  | op :: rest => exists more : bool, (more = true <-> changes_more k s op) /\
      moves base its u path k file (rop_run base its u s op) rest (move path k file more op a) a'
  end.

(** what the machine says is what is there *)
Definition same_opt (o o' : option pyval) : Prop :=
  match o, o' with Some v, Some w => same_value v w | None, None => True | _, _ => False end.
Definition lay_shows (k : string) (disk : dir) (l : lay) (c : config) : Prop :=
  same_opt (dget k (c_vals c)) (l_val l) /\ same_opt (dget k (c_applied c)) (l_kept l) /\
  forall ref content, c_file c = Some ref -> read_file disk ref = Ok content -> same_opt (dget k content) (l_file l).
Definition a_shows (path k : string) (a : arg) (s : rs) : Prop :=
  let p := path_parts path in let st := r_cms s in
  (exists c, current st (CItem p) = Some c /\ same_opt (dget k (c_vals c)) (Some (a_own a)) /\ same_opt (dget k (c_applied c)) (a_kept a)) /\
  (forall r c, In r (refs p) -> current st r = Some c -> lay_shows k (cs_disk st) (a_around a r) c) /\
  match dget path (r_loaded s) with
  | Some o => same_opt (dget k (arguments o)) (a_obj a) /\ a_obj a <> None
  | None => a_obj a = None
  end.

(** the operations: as in C95, without its restrictions on what updates mention *)
Definition permitted (base path k : string) (op : rop) : Prop :=
  foreign base (path_parts path) op \/
  match op with
  | RGet q | RRun _ (AStr q) => q = path
  | RUpdate d q _ kw =>
      dwf kw /\ dwf (match d with Some e => e | None => [] end) /\ (forall v, gives k d kw = Some v -> plain v = true) /\
      match q with Some q => exists t, path_parts path = path_parts q ++ t | None => True end
  | RReset None _ => True
  | RReset (Some q) false | RRefresh q => exists t, path_parts path = path_parts q ++ t
  | RRun _ (AList _) | RReset (Some _) true => False
  end.
(** those on the item and around it go through *)
Definition passes (base : string) (u : user) (path : string) (s : rs) (op : rop) : Prop :=
  let near q := exists t, path_parts path = path_parts q ++ t in
  match op with
  | RUpdate d q persist kw => match q with Some q => near q | None => True end -> snd (runner_update u d q persist kw s) = Ok tt
  | RReset (Some q) ac => near q -> snd (runner_reset base u (Some q) ac s) = Ok tt
  | RRefresh q => near q -> snd (runner_refresh u q s) = Ok tt
  | _ => True
  end.
Fixpoint all_pass (base : string) (its : items) (u : user) (path : string) (s : rs) (ops : list rop) : Prop :=
  match ops with
  | [] => True
  | op :: rest => passes base u path s op /\ all_pass base its u path (rop_run base its u s op) rest
  end.

(** the item is a function, or a class or instance that accepts all arguments *)
Definition accepting (its : items) (u : user) (path : string) (x : callable) : Prop :=
  item_of its path x /\ (is_func its path x \/ forall args, u_init u x args = None).

(** the argument after loading: the files' values *)
Definition from_files (k : string) (file : pyval) (st : cms) : arg :=
  Arg file None None (fun r => match current st r with
                               | Some c => Lay (dget k (c_vals c)) None (dget k (c_vals c))
                               | None => Lay None None None
                               end).

(** no operation changes a value under another name *)
Fixpoint alone (base : string) (its : items) (u : user) (k : string) (s : rs) (ops : list rop) : Prop :=
  match ops with
  | [] => True
  | op :: rest => ~ changes_more k s op /\ alone base its u k (rop_run base its u s op) rest
  end.
(** the operation does not set the item's own config *)
Definition leaves_item (path : string) (op : rop) : Prop :=
  match op with RUpdate _ (Some q) _ _ | RReset (Some q) _ | RRefresh q => q <> path | _ => True end.

(** Example: the section's value is taken over by the item when it is looked up, and stays there. *)
Definition oa_ops : list rop :=
  [RRun Plain (AStr "sec.f"); RUpdate None (Some "sec") true [("y", VInt 5)]; RRun Plain (AStr "sec.f");
   RUpdate None (Some "sec.f") true [("y", VInt 8)]; RRun Plain (AStr "sec.f"); RUpdate None (Some "sec.f") false [("x", VInt 2)];
   RRun Plain (AStr "sec.f"); RReset (Some "sec.f") false; RRun Plain (AStr "sec.f"); RRefresh "sec.f"; RRun Plain (AStr "sec.f")].
Definition oa_calls (s : rs) : list (option pyval) :=
  map (fun c => dget "y" (arguments (snd c))) (filter (fun c => String.eqb (fst c) "sec.f") (r_calls s)).
(** the machine alone: which operations change more is given *)
Definition oa_run (flags : list bool) (ops : list rop) (a : arg) : arg :=
  fold_left (fun a fo => move "sec.f" "y" (VInt 0) (fst fo) (snd fo) a) (List.combine flags ops) a.
Definition oa_flags : list bool := [false; false; false; false; false; true; false; true; false; false; false].
Definition oa_then (ops : list rop) : rs := fold_left (rop_run "base" is_items is_user) ops is_start.
Definition oa_start : arg := from_files "y" (VInt 0) (r_cms is_start).
(** Example with a section that has no config of its own, around the section that has one. *)
Definition ra_disk : dir :=
  Dir [] [("a", Dir [] [("b", Dir [("section.py", Ok [("y", VInt 1)]); ("f.py", Ok [("x", VInt 1); ("y", VInt 0)])] [])])].
Definition ra_items : items := Items [] (Coll "base" [EColl (Coll "a" [EColl (Coll "b" [EItem "f" (TFunc (Fn "f" ["x"; "y"]))])])]).
Definition ra_start : rs :=
  match runner_load "base" ra_disk 0 with Ok s => s | Raise _ => RS (CMS (Sec "" None [] []) empty_config (Dir [] []) []) [] 0 [] end.
Definition ra_ops : list rop :=
  [RUpdate None (Some "a.b.f") true [("y", VInt 8)]; RUpdate None (Some "a.b") true [("y", VInt 5)]; RReset (Some "a") false; RRun Plain (AStr "a.b.f");
   RUpdate None (Some "a.b") true [("y", VInt 6)]; RReset (Some "a") false; RUpdate None (Some "a.b.f") false [("x", VInt 2)]; RRun Plain (AStr "a.b.f")].
Definition ra_then (ops : list rop) : rs := fold_left (rop_run "base" ra_items is_user) ops ra_start.
Definition ra_calls (s : rs) : list (option pyval) := map (fun c => dget "y" (arguments (snd c))) (r_calls s).
Definition ra_run (flags : list bool) (ops : list rop) (a : arg) : arg :=
  fold_left (fun a fo => move "a.b.f" "y" (VInt 0) (fst fo) (snd fo) a) (List.combine flags ops) a.
Definition ra_flags : list bool := [false; false; false; false; false; false; true; false].
