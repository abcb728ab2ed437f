(** Model of SpecificClassConfig.from_obj (pyfileconf/data/models/config.py:44-82), which makes a config from an object, and of the
    base class for the user's classes (pyfileconf/userbase.py). Neither is used inside the library. *)
From Verif Require Export FuncArgs_Spec.
Local Open Scope string_scope.
Local Open Scope list_scope.

Section FromObj.
Context {V : Type}.
Variable none : V.
Variable is_none : V -> bool.                (* [value is None] *)
Variable as_str : V -> option string.        (* isinstance(value, str) *)

(** A value in the config: an object, ast_none, or ast_str of a string (data/models/astitems.py:3, 10-11). *)
Inductive cval : Type := CObj (v : V) | CNone | CStr (t : string).

(** [{key: value if value is not None else ast_none for ...}], config.py:53 *)
Definition blank (d : dict V) : dict cval := map (fun q => (fst q, if is_none (snd q) then CNone else CObj (snd q))) d.

(** Reading an attribute of the object. Simplification: reading it twice gives the same. *)
Variable attr : string -> res V.

(** _obj_attr_is_none, config.py:77-82: getattr with a default catches AttributeError only *)
Definition obj_attr_is_none (x : string) : res bool :=
  match attr x with
  | Ok v => Ok (is_none v)
  | Raise AttributeError => Ok true
  | Raise e => Raise e
  end.

(** config.py:56-58 *)
Fixpoint fill_attrs (l : list string) (d : dict cval) : res (dict cval) :=
  match l with
  | [] => Ok d
  | x :: rest => match obj_attr_is_none x with
                 | Raise e => Raise e
                 | Ok true => fill_attrs rest d
                 | Ok false => match attr x with
                               | Raise e => Raise e
                               | Ok v => fill_attrs rest (dset x (CObj v) d)
                               end
                 end
  end.

(** SpecificClassConfig.from_obj, config.py:44-72, up to the call of the constructor; [s] is the signature of klass.__init__ *)
Definition from_obj (s : sig V) (key_attr : string) : res (dict cval) :=
  match class_function_args_as_dict none s with
  | Raise e => Raise e
  | Ok d => match fill_attrs (dkeys d) (blank d) with
            | Raise e => Raise e
            | Ok c => match dget key_attr c with
                      | None => Raise KeyError
                      | Some (CObj v) => match as_str v with
                                         | Some t => Ok (dset key_attr (CStr t) c)
                                         | None => Ok c
                                         end
                      | Some _ => Ok c
                      end
            end
  end.
End FromObj.
Arguments cval : clear implicits.
Arguments CNone {V}. Arguments CStr {V}.

(** PyfileconfBase._pyfileconf_update_, userbase.py:11-20: [self] and any keywords, which are passed to __init__. [s] is the signature
    of __init__; what __init__ itself does is left out. *)
Definition base_sig {V} : sig V := Sig [] ["self"] [] false [] true.
Definition base_update {V} (s : sig V) (obj : V) (kw : dict V) : res (bound V) :=
  match call base_sig [obj] kw with
  | Ok b => call s [obj] (b_kwargs b)
  | Raise e => Raise e
  end.
