(** Specification of C68 *)
From Verif Require Import Names_Model.
Local Open Scope string_scope.
Local Open Scope list_scope.

(** some name of the module is the object *)
Definition in_mod (o : nat) (m : pmod) : Prop := exists k, In (k, Some o) m.
(** the module would be considered *)
Definition considered (n : string) : Prop := should_skip_module name_skip n = false.
(** [n] is the first module considered that has the object *)
Definition first_with (mods : pmods) (o : nat) (n : string) : Prop :=
  exists before m after, mods = before ++ (n, m) :: after /\ considered n /\ in_mod o m /\ forall n' m', In (n', m') before -> considered n' -> ~ in_mod o m'.
(** modules and their names are dicts *)
Definition mods_ok (mods : pmods) : Prop := dwf mods /\ forall n m, In (n, m) mods -> NoDup (map fst m).

(** an object defined as [f] in [pkg.lib] (0), imported by the script under another name; another object (1) *)
Definition nx_name (o : nat) : option string := match o with 0 => Some "f" | 1 => Some "f" | 2 => None | _ => Some "other" end.
Definition nx_lib : pmod := [("__name__", Some 9); ("f", Some 0)].
Definition nx_mods : pmods := [("sys", [("path", Some 8)]); ("__main__", [("f", Some 0)]); ("pkg.lib", nx_lib)].
Definition nx_mods2 : pmods := [("sys", [("path", Some 8)]); ("__main__", [("g", Some 3)]); ("pkg.lib", nx_lib)].
Definition nx_alias : pmods := [("sys", [("path", Some 8)]); ("pkg.user", [("helper", Some 0)]); ("pkg.lib", nx_lib)].
Definition nx_other : pmods := [("sys", [("path", Some 8)]); ("pkg.user", [("f", Some 1); ("helper", Some 0)]); ("pkg.lib", nx_lib)].
Definition nx_broken : pmods := [("sys", [("path", Some 8)]); ("pkg.lib", [("collect", None); ("f", Some 0)])].
