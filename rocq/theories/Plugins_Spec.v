(** Statements about plugins. *)
From Verif Require Export Plugins_Model.
From Verif Require Import Iterate_Example.
Local Open Scope string_scope.
Local Open Scope list_scope.

Definition same_place (a b : place) : bool := match a, b with First, First | Normal, Normal | Last, Last => true | _, _ => false end.
(** the implementations of a hook that want to be called at a place, in the order the plugins were registered *)
Definition at_place {A} (pl : place) (hook : plugin -> option (place * A)) (ps : plm) : list A :=
  flat_map (fun p => match hook p with Some (q, f) => if same_place q pl then [f] else [] | None => [] end) ps.
(** all of them *)
Definition all_of {A} (hook : plugin -> option (place * A)) (ps : plm) : list A :=
  flat_map (fun p => match hook p with Some (_, f) => [f] | None => [] end) ps.
(** no plugin wants to be called before or after the others *)
Definition no_places {A} (hook : plugin -> option (place * A)) (ps : plm) : Prop :=
  forall p pl f, In p ps -> hook p = Some (pl, f) -> pl = Normal.

(** what plugins contribute to a run, in the order they are called *)
Definition contributions (ps : plm) (a : uarg) : list contrib := snd (pre_run_hooks (calls pl_pre_run ps) a).
Definition as_arg (a : uarg) : run_arg := match a with UOne i => AStr (uitem_path i) | UMany l => AList (map uitem_path l) end.

(** what a plugin contributes to a batch of updates in a list *)
Definition contributed_updates (updates : list upd) (h : bhook) : list upd :=
  match bh_fun h (if bh_reads h then updates else []) with BNone => [] | BSame => updates | BNew l => l end.
Definition own_updates (o : bres) : list upd := match o with BNew l => l | _ => [] end.

(** a plugin with nothing but the given hook *)
Definition nothing (name : string) : plugin := Plugin name None None None None None None None.
Definition pre_run_plugin (name : string) pl f : plugin := Plugin name (Some (pl, f)) None None None None None None.
Definition post_run_plugin (name : string) pl f : plugin := Plugin name None (Some (pl, f)) None None None None None.
Definition update_plugin (name : string) pl f : plugin := Plugin name None None (Some (pl, f)) None None None None.
Definition batch_plugin (name : string) pl h : plugin := Plugin name None None None (Some (pl, h)) None None None.
Definition case_plugin (name : string) pl f : plugin := Plugin name None None None None (Some (pl, f)) None None.

(** For examples: a manager with two functions *)
Definition pg_disk : ConfigTree_Model.dir := Dir [("f.py", Ok [("a", VInt 1)]); ("g.py", Ok [("a", VInt 2)])] [].
Definition pg_items : items := Items [] (Coll "root" [EItem "f" (TFunc (Fn "f" ["a"])); EItem "g" (TFunc (Fn "g" ["a"]))]).
Definition pg_user : user := ex_U [] "m".
Definition pg_rs : rs := loaded "m" pg_disk.
Definition pg_world : world := [("m", PMS "m" pg_items Plain pg_rs)].
