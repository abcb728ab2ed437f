(** Why an entry cannot be created (C88). *)
From Verif Require Export Create_Spec.
Local Open Scope string_scope.
Local Open Scope list_scope.

Section CreateErr.
Variable parse : bool -> string -> res (dict pd).
Variable save : bool -> option string -> string -> dict pd -> res string.

(** [d] is what the dict file of the place says; there may be no pipeline dict *)
Definition dict_there (f : fs) (pl : place) (d : dict pd) : Prop :=
  (pl_general pl = true /\ f (pl_file pl) = None /\ d = []) \/
  exists text, f (pl_file pl) = Some (File text) /\ parse (pl_general pl) text = Ok d.

Inductive entry_fault (f : fs) (pl : place) : exn -> Prop :=
| Dict_missing : pl_general pl = false -> f (pl_file pl) = None -> entry_fault f pl AttributeError
| Dict_folder : f (pl_file pl) = Some Dir -> entry_fault f pl OSError
| Dict_text text e : f (pl_file pl) = Some (File text) -> parse (pl_general pl) text = Raise e -> entry_fault f pl e
| Through_entries d : dict_there f pl d -> passes_through_leaf d (pl_section pl) -> entry_fault f pl TypeError
| Onto_sections d v : dict_there f pl d -> PipeDict_Spec.lookup (PDict d) (pl_section pl) = Some v -> is_list v = false -> entry_fault f pl ValueError
| Not_saved d d' e : dict_there f pl d -> add_at d (pl_section pl) (new_entry (pl_general pl) (pl_name pl)) = (d', Ok tt) ->
    save (pl_general pl) (content f (pl_file pl)) (pl_name pl) d' = Raise e -> entry_fault f pl e
| No_folder d d' text : dict_there f pl d -> add_at d (pl_section pl) (new_entry (pl_general pl) (pl_name pl)) = (d', Ok tt) ->
    save (pl_general pl) (content f (pl_file pl)) (pl_name pl) d' = Ok text ->
    f (pl_file pl) = None -> f (parent (pl_file pl)) <> Some Dir -> entry_fault f pl OSError.
End CreateErr.
