(** Model of a session with a manager: operations on its items, loads in between (PipelineManager.load and reload,
    pyfileconf/main.py:284-317, 545-571), and changes of files by others. An operation goes to the runner made by the last load that
    succeeded; before the first one it raises. The config manager reads files when it needs them (C99), so it sees changes of files.

    Simplification: what the user's functions do to files is left out, and so is the wiping of imported modules (C52). *)
From Verif Require Export Setup_Model Runner_Spec.
Local Open Scope string_scope.
Local Open Scope list_scope.

(** [SEdit]: the files are changed by somebody else, in any way. *)
Inductive sop : Type := SOp (op : rop) | SLoad | SEdit (g : fs -> fs).

Section Session.
Variable parse : bool -> string -> res (dict pd).
Variable view : string -> pd -> res (string * thing).
Variable inst : ccfg -> pd -> res (string * thing).
Variable cfg : bool -> string -> thing -> option string -> res string.
Variable config_dir : fs -> ConfigTree_Model.dir.
Variable s : setup.
Variable u : user.

(** the number of the next object *)
Definition next_of (p : pm) : nat := match p_runner p with Some (_, r) => r_next r | None => 0 end.

(** the runner's config manager, once the config files have changed *)
Definition notice (f : fs) (p : pm) : pm :=
  match p_runner p with
  | None => p
  | Some (i, r) => PM (p_items p) (Some (i, RS (CMS (cs_root (r_cms r)) (cs_local (r_cms r)) (config_dir f) (cs_trace (r_cms r))) (r_loaded r) (r_next r) (r_calls r)))
  end.
(** the files and the manager after a step *)
Definition session_step (fp : fs * pm) (op : sop) : fs * pm :=
  let '(f, p) := fp in
  match op with
  | SOp op => match p_runner p with
              | None => (f, p)
              | Some (i, r) => (f, PM (p_items p) (Some (i, rop_run (su_config_folder s) i u r op)))
              end
  | SLoad => let '(l, p', _) := pm_load parse view inst cfg config_dir s (next_of p) f p in (final f l, notice (final f l) p')
  | SEdit g => (g f, notice (g f) p)
  end.
Definition session (fp : fs * pm) (ops : list sop) : fs * pm := fold_left session_step ops fp.
End Session.
