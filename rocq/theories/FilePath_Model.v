(** Model of the names pyfileconf takes from file paths. *)
From Verif Require Export SectionPath_Model Registry_Model.

(** posixpath.basename: what follows the last slash *)
Definition basename (p : string) : string := last (split slash p) ""%string.

(** the name of a config section, ConfigSection.from_files, pyfileconf/config/models/section.py:75 *)
Definition config_section_name (cwd basepath : string) : string := basename (abspath cwd basepath).

(** the name of a file's interface, ConfigFileBase.__init__, pyfileconf/basemodels/file.py:44-46:
    the name given or the file's own without ".py" *)
Definition config_file_name (filepath : string) (name : option string) : string :=
  match name with Some n => n | None => strip_py (basename filepath) end.
