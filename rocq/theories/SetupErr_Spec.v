(** Why loading a manager is refused (C70). *)
From Verif Require Export Setup_Spec.
Local Open Scope string_scope.
Local Open Scope list_scope.

Section SetupErr.
Variable parse : bool -> string -> res (dict pd).
Variable view : string -> pd -> res (string * thing).
Variable inst : ccfg -> pd -> res (string * thing).

Definition has_value (key : string) (c : ccfg) : Prop := exists v, dget key c = Some v /\ v <> CNone.

(** what is wrong with the description of a class dict; every line presupposes that those before do not apply *)
Inductive class_fault (f : fs) (folder : path) (c : ccfg) : exn -> Prop :=
| No_name_or_class : ~ has_value "name" c \/ ~ has_value "class" c -> class_fault f folder c ValueError
| Name_no_string v : dget "name" c = Some v -> v <> CNone -> has_value "class" c -> (forall n, v <> CStr n) -> class_fault f folder c TypeError
| No_file n : dget "name" c = Some (CStr n) -> has_value "class" c -> f (dict_file folder n) = None -> class_fault f folder c AttributeError
| Folder_instead n : dget "name" c = Some (CStr n) -> has_value "class" c -> f (dict_file folder n) = Some Dir -> class_fault f folder c OSError
| Bad_file n text e : dget "name" c = Some (CStr n) -> has_value "class" c -> f (dict_file folder n) = Some (File text) ->
    parse false text = Raise e -> class_fault f folder c e
| Unknown_key n text d : dget "name" c = Some (CStr n) -> has_value "class" c -> f (dict_file folder n) = Some (File text) ->
    parse false text = Ok d -> ~ incl (dkeys c) ccfg_keys -> class_fault f folder c TypeError
| Bad_item n text d e : dget "name" c = Some (CStr n) -> has_value "class" c -> f (dict_file folder n) = Some (File text) ->
    parse false text = Ok d -> incl (dkeys c) ccfg_keys -> from_dict (inst (dupdate default_ccfg c)) n d = Raise e ->
    class_fault f folder c e.

(** what is wrong with the project: the pipeline dict first, then the first faulty class dict, then the items of the pipeline dict,
    then the names *)
Inductive fault (f : fs) (folder : path) (name : string) (cs : list ccfg) : exn -> Prop :=
| Pipeline_folder : f (pipeline_file folder) = Some Dir -> fault f folder name cs OSError
| Pipeline_file text e : f (pipeline_file folder) = Some (File text) -> parse true text = Raise e -> fault f folder name cs e
| Class_dict d before c after rs e : has_dict parse f folder d -> cs = before ++ c :: after ->
    Forall2 (good_class parse inst f folder) before rs -> class_fault f folder c e -> fault f folder name cs e
| Pipeline_item d rs e : has_dict parse f folder d -> Forall2 (good_class parse inst f folder) cs rs ->
    from_dict (view (file_text f (pipeline_file folder))) name d = Raise e -> fault f folder name cs e
| Name_taken d rs g r : has_dict parse f folder d -> Forall2 (good_class parse inst f folder) cs rs ->
    from_dict (view (file_text f (pipeline_file folder))) name d = Ok g ->
    In r rs -> In (reg_name r) (top_sections d ++ ["scaffold_config"; "get"; "basepath"; "name"]) -> fault f folder name cs ValueError
| Name_twice d rs g : has_dict parse f folder d -> Forall2 (good_class parse inst f folder) cs rs ->
    from_dict (view (file_text f (pipeline_file folder))) name d = Ok g ->
    ~ NoDup (map reg_name rs) -> fault f folder name cs ValueError.
End SetupErr.
