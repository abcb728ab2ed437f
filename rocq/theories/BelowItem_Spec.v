(** Statements about section paths that go on below an item (C53). *)
From Verif Require Export ConfigTree_Model ConfigTree_Spec.
Local Open Scope string_scope.
Local Open Scope list_scope.

(** what the classes of configs and of config files define, with the attributes set when they are made *)
Definition names_of_configs : list string :=
  ["name"; "annotations"; "imports"; "begin_assignments"; "klass"; "always_import_strs"; "always_assign_strs";
   "_file"; "_applied_updates"; "config_file_class"; "update"; "to_file"; "from_file"; "copy"; "refresh";
   "would_update"; "change_from_refresh"; "as_imports_and_assignments"; "_get_new_config_from_file";
   "for_function"; "clear"; "fromkeys"; "get"; "items"; "keys"; "pop"; "popitem"; "setdefault"; "values"].
Definition names_of_files : list string :=
  ["interface"; "filepath"; "name"; "klass"; "always_import_strs"; "always_assign_strs"; "load"; "save";
   "_add_always_imports_and_assigns_to_config"; "always_imports"; "always_assigns";
   "always_assign_with_names_dict"; "interface_class"].
(** whether an object in the tree has an attribute: a config the ones of its class and its keys, a file that was not loaded
    yet the ones of its class *)
Definition has_attribute (x : seen) (y : string) : bool :=
  match x with
  | SConf c | SSelf c => mem y names_of_configs || dmem y (c_vals c)
  | SFile _ _ => mem y names_of_files
  | SSec _ _ => false
  end.
Definition is_item (x : seen) : Prop := match x with SSec _ _ => False | _ => True end.
(** the exception for a path [y :: rest] below an item *)
Definition below_error (x : seen) (y : string) (rest : list string) : exn :=
  if has_attribute x y && match rest with [] => true | _ => false end then ValueError else AttributeError.

(** example: an item with the key a, before and after it is loaded *)
Definition bi_disk : dir := Dir [("f.py", Ok [("a", VInt 1)])] [].
Definition bi_st : cms := CMS (Sec "base" None [] [NFile ([], "f.py") "f"]) empty_config bi_disk [].
Definition bi_loaded : cms := fst (cm_get "f" bi_st).
