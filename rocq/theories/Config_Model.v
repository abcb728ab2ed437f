(** Model of one config object: pyfileconf/basemodels/config.py (class ConfigBase) and the
    single-object part of pyfileconf/config/models/manager.py. *)
From Verif Require Export Py_Val.

(** Where a config came from: the names of the folders below the config base folder and the file
    name, e.g. (["a"; "b"], "f.py") for <base>/a/b/f.py. *)
Definition fileref : Type := list string * string.

(** ConfigBase.__init__, basemodels/config.py:22-46. [c_vals] is the dict itself, [c_applied] is
    [_applied_updates], [c_file] is [_file]. Not modelled here: annotations, imports,
    begin_assignments and the always_* fields (they only matter when a file is written). *)
Record config : Type := Cfg {
  c_name : option string;
  c_vals : dict pyval;
  c_applied : dict pyval;
  c_file : option fileref }.

(** [ActiveFunctionConfig()] *)
Definition empty_config : config := Cfg None [] [] None.

(** ActiveFunctionConfigFile.load, config/models/file.py:14-27: a fresh config holding the names
    assigned in the file *)
Definition loaded_config (name : string) (ref : fileref) (content : dict pyval) : config :=
  Cfg (Some name) content [] (Some ref).

(** [E] if it is not None else {} *)
Definition opt_dict (e : option (dict pyval)) : dict pyval :=
  match e with Some d => d | None => [] end.

(** ConfigBase.update, basemodels/config.py:65-74 *)
Definition cfg_update (c : config) (e : option (dict pyval)) (persist : bool) (f : dict pyval) : config :=
  let all_updates := dupdate (opt_dict e) f in
  Cfg (c_name c)
      (dupdate (dupdate (c_vals c) (opt_dict e)) f)
      (if persist then dupdate (c_applied c) all_updates else c_applied c)
      (c_file c).

(** the loop of ConfigBase.would_update, basemodels/config.py:149-155 *)
Fixpoint would_update_loop (vals : dict pyval) (updates : list (string * pyval)) : res bool :=
  match updates with
  | [] => Ok false
  | (k, v) :: rest =>
      match dget k vals with
      | None => would_update_loop vals rest
      | Some orig => match values_are_equal orig v with
                     | Raise e => Raise e
                     | Ok false => Ok true
                     | Ok true => would_update_loop vals rest
                     end
      end
  end.

(** ConfigBase.would_update, basemodels/config.py:136-157 *)
Definition would_update (c : config) (e : option (dict pyval)) (f : dict pyval) : res bool :=
  would_update_loop (c_vals c) (dupdate (opt_dict e) f).

(** the values a refresh would store, basemodels/config.py:131-132 and 170-171; [content] is what the
    file evaluates to now *)
Definition refresh_updates (c : config) (content : dict pyval) : dict pyval :=
  dupdate content (c_applied c).

(** ConfigBase.refresh, basemodels/config.py:124-134: the values are passed as keyword arguments of
    [update(self, E=None, pyfileconf_persist=True, **F)], so keys with those names collide. [E] is
    taken as the positional dict: None means nothing, anything else (no dict values in [pyval])
    cannot be unpacked. *)
Definition cfg_refresh (c : config) (content : dict pyval) : res (config * dict pyval) :=
  let all_updates := refresh_updates c content in
  if dmem "self" all_updates || dmem "pyfileconf_persist" all_updates then Raise TypeError
  else match dget "E" all_updates with
       | None => Ok (cfg_update c None false all_updates, all_updates)
       | Some VNone => Ok (cfg_update c None false (ddel "E" all_updates), all_updates)
       | Some _ => Raise TypeError
       end.

(** ConfigBase.change_from_refresh, basemodels/config.py:159-174 *)
Definition change_from_refresh (c : config) (content : dict pyval) : res (dict pyval) :=
  let final_updates := refresh_updates c content in
  match would_update c (Some final_updates) [] with
  | Raise e => Raise e
  | Ok true => Ok final_updates
  | Ok false => Ok []
  end.

(** ConfigManager.update on one config object, config/models/manager.py:59-66 with 316-325:
    keyword updates are passed through [_determine_and_track_if_config_would_be_updated(config_, ...,
    **kwargs)] and [ConfigBase.update(E, ...)], so the keywords [config_] and (when something
    changes) [E] collide. Returns the config and whether it was updated. *)
Definition cfg_checked_update (c : config) (d : option (dict pyval)) (persist : bool) (kwargs : dict pyval)
  : res (config * bool) :=
  if dmem "config_" kwargs then Raise TypeError
  else match would_update c (Some (dupdate (opt_dict d) kwargs)) [] with
       | Raise e => Raise e
       | Ok false => Ok (c, false)
       | Ok true => if dmem "E" kwargs then Raise TypeError
                    else Ok (cfg_update c d persist kwargs, true)
       end.

(** ConfigManager.refresh on one config object, config/models/manager.py:72-77 and 327-331. Returns
    the config, whether it was refreshed, and the updates. *)
Definition cfg_checked_refresh (c : config) (content : dict pyval) : res (config * bool * dict pyval) :=
  match change_from_refresh c content with
  | Raise e => Raise e
  | Ok [] => Ok (c, false, [])
  | Ok (_ :: _) => match cfg_refresh c content with
                   | Raise e => Raise e
                   | Ok (c', u) => Ok (c', true, u)
                   end
  end.

(** ConfigBase.__getattr__, basemodels/config.py:55-59: the missing [return] makes every existing key
    read as None *)
Definition cfg_getattr (c : config) (attr : string) : res pyval :=
  if dmem attr (c_vals c) then Ok VNone else Raise AttributeError.
