(** Specifications for the configs of sections as dependents. *)
From Verif Require Export SectionDeps_Model ConfigTree_Spec.
From Verif Require Import Iterate_Example.
Local Open Scope string_scope.
Local Open Scope list_scope.

(** An example: [a.f] has x = 1. In manager [b], section.py of [sec] sets y and the file of [sec.g] sets z to a.f's x, and the
    project's section.py sets v to it. *)
Definition sd_disk_a : dir := Dir [("f.py", Ok [("x", VInt 1)])] [].
Definition sd_disk_b (v : pyval) : dir := Dir [("section.py", Ok [("v", v)])] [("sec", Dir [("section.py", Ok [("y", v)]); ("g.py", Ok [("z", v)])] [])].
Definition sd_x (w : world) : pyval :=
  match dget "a" w with
  | Some p => match read_cref (r_cms (pm_rs p)) (CItem ["f"]) with
              | Some c => match dget "x" (c_vals c) with Some v => v | None => VNone end
              | None => VNone
              end
  | None => VNone
  end.
Definition sd_files (w : world) (name : string) : dir := if String.eqb name "a" then sd_disk_a else sd_disk_b (sd_x w).
Definition sd_items_a : items := Items [] (Coll "root" [EItem "f" (TFunc (Fn "f" ["x"]))]).
Definition sd_items_b : items := Items [] (Coll "root" [EColl (Coll "sec" [EItem "g" (TFunc (Fn "g" ["z"]))])]).
Definition sd_rs (its : items) (base : string) (disk : dir) (path : string) : rs := fst (runner_get its (ex_U [] "a") path (loaded base disk)).
(** both items are loaded *)
Definition sd_world : world :=
  [("a", PMS "defaults" sd_items_a Plain (sd_rs sd_items_a "defaults" sd_disk_a "f"));
   ("b", PMS "defaults" sd_items_b Plain (sd_rs sd_items_b "defaults" (sd_disk_b (VInt 1)) "sec.g"))].
Definition sd_config (w : world) (name : string) (r : cref) : option (dict pyval) :=
  match dget name w with Some p => option_map c_vals (read_cref (r_cms (pm_rs p)) r) | None => None end.
