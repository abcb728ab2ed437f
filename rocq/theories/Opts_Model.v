(** Model of the options system: pyfileconf/opts/__init__.py, pyfileconf/opts/filelog.py and the file handler functions of
    pyfileconf/logger/logger.py:29-55.

    Not modelled: log messages about option changes (level DEBUG, below the logger's level), handlers of the logger that are
    no TimedRotatingFileHandler, special method names used as option names. *)
From Verif Require Export Py_Val Py_Dict Py_Exn.
Local Open Scope string_scope.
Local Open Scope list_scope.
Local Open Scope monad_scope.

(** A TimedRotatingFileHandler attached to the logger, with what it was created from (logger.py:37-41). *)
Record handler : Type := Handler { h_folder : pyval; h_freq : pyval; h_keep : pyval }.

(** [o_vals]: the attributes of the global [options] object. [o_assigned]: attributes of the options interface that were
    replaced by plain assignment, e.g. [pyfileconf.options.log_stdout = True]; the class has no __setattr__, so this
    replaces the PyfileconfOption object. [o_handlers]: the logger's file handlers. *)
Record ost : Type := OS { o_vals : dict pyval; o_assigned : dict pyval; o_handlers : list handler }.

(** opts/__init__.py:27-32 *)
Definition option_attrs : list string := ["log_stdout"; "log_folder"; "log_file_rollover_freq"; "log_file_num_keep"].

(** opts/__init__.py:38-43, 51: DEFAULT_OPTIONS *)
Definition default_options : dict pyval :=
  [("log_stdout", VBool false); ("log_folder", VNone); ("log_file_rollover_freq", VStr "D"); ("log_file_num_keep", VInt 0)].

Definition fresh : ost := OS default_options [] [].

Definition opt (s : ost) (name : string) : pyval := match dget name (o_vals s) with Some v => v | None => VNone end.

(** [orig_value != val] *)
Definition differs (v w : pyval) : res bool :=
  match py_eq v w with
  | EqBool b => Ok (negb b)
  | EqAmbig | EqRaise => Raise ValueError
  end.

Section Opts.
(** Whether creating the log folder and opening the log file raises; may depend on everything. An invalid rollover frequency
    makes TimedRotatingFileHandler raise too. *)
Variable open_log : ost -> option exn.

(** logger.add_file_handler, logger.py:30-43 *)
Definition add_file_handler : M ost unit := fun s =>
  match opt s "log_folder" with
  | VNone => (s, Raise ValueError)
  | folder => match open_log s with
              | Some e => (s, Raise e)
              | None => (OS (o_vals s) (o_assigned s)
                           (o_handlers s ++ [Handler folder (opt s "log_file_rollover_freq") (opt s "log_file_num_keep")]), Ok tt)
              end
  end.

(** logger.remove_file_handler, logger.py:46-54 *)
Definition remove_file_handler : M ost unit := fun s =>
  match o_handlers s with
  | [_] => (OS (o_vals s) (o_assigned s) [], Ok tt)
  | _ => (s, Raise ValueError)
  end.

(** add_file_handler_if_log_folder_exists_else_remove_handler, filelog.py:6-10 *)
Definition log_folder_callback (v : pyval) : M ost unit :=
  match v with VNone => remove_file_handler | _ => add_file_handler end.

Definition store (name : string) (v : pyval) : M ost unit :=
  modify (fun s => OS (dset name v (o_vals s)) (o_assigned s) (o_handlers s)).

(** PyfileconfOption.value setter, opts/__init__.py:71-76: stored first, then the callback *)
Definition set_value (name : string) (v : pyval) : M ost unit :=
  orig <- gets (fun s => opt s name) ;;
  store name v ;;;
  if String.eqb name "log_folder" then
    b <- lift (differs orig v) ;;
    if b then log_folder_callback v else ret tt
  else ret tt.

Definition default_value (name : string) : pyval :=
  match dget name default_options with Some v => v | None => VNone end.

(** [getattr(self, attr)] giving an option object. Anything else has neither a settable [value] nor a [reset].
    Simplification: frames assigned to the attribute, which allow setting attributes, do not either. *)
Definition option_object (attr : string) : M ost unit := fun s =>
  if existsb (String.eqb attr) option_attrs && negb (dmem attr (o_assigned s)) then (s, Ok tt) else (s, Raise AttributeError).

(** set_option, opts/__init__.py:177-188 *)
Definition set_option (attr : string) (v : pyval) : M ost unit := option_object attr ;;; set_value attr v.

(** set_options, opts/__init__.py:190-206 *)
Definition set_options (updates : list (string * pyval)) : M ost unit := iterM (fun q => set_option (fst q) (snd q)) updates.

(** reset_option and PyfileconfOption.reset, opts/__init__.py:208-217 and 82-84 *)
Definition reset_option (attr : string) : M ost unit := option_object attr ;;; set_value attr (default_value attr).

(** reset_options, opts/__init__.py:219-227 *)
Definition reset_options (attrs : list string) : M ost unit := iterM reset_option attrs.

(** reset, opts/__init__.py:166-175 *)
Definition reset_all : M ost unit := reset_options option_attrs.

(** [pyfileconf.options.attr = v] *)
Definition assign_attr (attr : string) (v : pyval) : M ost unit :=
  modify (fun s => OS (o_vals s) (dset attr v (o_assigned s)) (o_handlers s)).

(** The uses of the interface. *)
Inductive oop : Type :=
| OSet (attr : string) (v : pyval)
| OSets (updates : list (string * pyval))
| OReset (attr : string)
| OResets (attrs : list string)
| OResetAll
| OAssign (attr : string) (v : pyval).

Definition oop_run (op : oop) : M ost unit :=
  match op with
  | OSet a v => set_option a v
  | OSets l => set_options l
  | OReset a => reset_option a
  | OResets l => reset_options l
  | OResetAll => reset_all
  | OAssign a v => assign_attr a v
  end.

(** Code using it: operations, exceptions of its own, and with-blocks. [with options:] resets on the way out, also if the body
    raises (opts/__init__.py:229-233); an exception of the reset replaces the one of the body. *)
Inductive oprog : Type :=
| POp (op : oop)
| PRaise (e : exn)
| PWith (body : list oprog).

Definition leave (r : res unit) : M ost unit := fun s =>
  match reset_all s with
  | (s', Ok _) => (s', r)
  | (s', Raise e) => (s', Raise e)
  end.

Fixpoint oprog_run (p : oprog) : M ost unit :=
  match p with
  | POp op => oop_run op
  | PRaise e => raise e
  | PWith body => fun s =>
      let '(s', r) := (fix go (l : list oprog) (s : ost) : ost * res unit :=
                         match l with
                         | [] => (s, Ok tt)
                         | p :: rest => match oprog_run p s with
                                        | (s', Ok _) => go rest s'
                                        | (s', Raise e) => (s', Raise e)
                                        end
                         end) body s in
      leave r s'
  end.

End Opts.
