(** C40, C41, C42, C51: dict files and the trees of sections built from them. *)
From Verif Require Import PipeDict_Model PipeDict_Spec PipeDict_Proofs PipeDictText_Proofs.
Local Open Scope string_scope.
Local Open Scope list_scope.

(** {"data": {"load": [a], "direct": x}, "run": [b, c]} *)
Definition example_dict : dict pd :=
  [("data", PDict [("load", PList [PName "a"]); ("direct", PName "x")]); ("run", PList [PName "b"; PName "c"])].
Definition example_text : string := ("pipeline_dict = {'data': {'load': [a]}," ++ nl ++ " 'run': [b, c,]}" ++ nl)%string.
Definition example_class_text : string := "class_dict = {'data': {'load': ['a']}, 'run': ['b', 'c']}".

(** an import table in which every name stands for a function of that name *)
Definition example_view (v : pd) : res (string * thing) :=
  match v with
  | PName n | PStr n => Ok (n, TFunc (Fn n []))
  | _ => Raise AttributeError
  end.
Definition no_black (s : string) : res string := Ok s.

Definition coll_of (r : res coll) : coll := match r with Ok c => c | Raise _ => Coll "" [] end.
Definition example_coll : coll :=
  coll_of (match read false "pipeline_dict" example_text with Some d => from_dict example_view "" d | None => Raise SyntaxError end).
Definition example_world : world := World example_text example_coll.

(* ------------------------------------------------------------------ *)
(** * C40 *)

(** A successful insertion puts the item at the end of the list at exactly that path. *)
Theorem C40_item_added_at_the_end : forall d path item d',
  path <> [] -> add_at d path item = (d', Ok tt) ->
  lookup (PDict d') path = Some (PList (list_at d path ++ [item])).
Proof. intros. now apply add_at_there. Qed.

(** What stands at a path that does not lead towards the insertion is unchanged. *)
Theorem C40_everything_else_unchanged : forall d path item d' q,
  add_at d path item = (d', Ok tt) -> (forall r, path <> q ++ r) -> lookup (PDict d') q = lookup (PDict d) q.
Proof. intros d path item d' q. apply add_at_elsewhere. Qed.

(** The dicts on the way keep their keys in order; a missing key is added last. *)
Theorem C40_sections_on_the_way : forall d path item d' q x r,
  add_at d path item = (d', Ok tt) -> path = q ++ x :: r ->
  exists e', lookup (PDict d') q = Some (PDict e') /\
    dkeys e' = if existsb (String.eqb x) (keys_at d q) then keys_at d q else keys_at d q ++ [x].
Proof. intros d path item d' q x r. apply add_at_on_the_way. Qed.

(** A failing insertion changes nothing. *)
Theorem C40_failure_changes_nothing : forall d path item d' e, add_at d path item = (d', Raise e) -> d' = d.
Proof. intros d path item d' e. apply add_at_fail_unchanged. Qed.

(** It fails exactly if the path passes through something that is not a dict (TypeError) or leads to something that is not a
    list (ValueError). *)
Theorem C40_when_it_fails : forall d path item, path <> [] ->
  (snd (add_at d path item) = Raise TypeError <-> passes_through_leaf d path) /\
  (snd (add_at d path item) = Raise ValueError <-> exists v, lookup (PDict d) path = Some v /\ is_list v = false) /\
  (snd (add_at d path item) = Ok tt \/ snd (add_at d path item) = Raise TypeError \/ snd (add_at d path item) = Raise ValueError).
Proof.
  intros d path item H. split; [apply add_at_type_error|]. split; [now apply add_at_value_error|apply add_at_outcomes].
Qed.

(** All dicts keep distinct keys. *)
Theorem C40_keys_stay_distinct : forall d path item d' r,
  pd_wf (PDict d) -> pd_wf item -> add_at d path item = (d', r) -> pd_wf (PDict d').
Proof. intros d path item d' r. apply add_at_wf. Qed.

Example C40_ex_existing : add_at example_dict ["data"; "load"] (PName "z") =
  ([("data", PDict [("load", PList [PName "a"; PName "z"]); ("direct", PName "x")]); ("run", PList [PName "b"; PName "c"])], Ok tt).
Proof. reflexivity. Qed.
Example C40_ex_new : add_at example_dict ["data"; "new"; "deep"] (PName "z") =
  ([("data", PDict [("load", PList [PName "a"]); ("direct", PName "x"); ("new", PDict [("deep", PList [PName "z"])])]);
    ("run", PList [PName "b"; PName "c"])], Ok tt).
Proof. reflexivity. Qed.
Example C40_ex_through_list : add_at example_dict ["run"; "b"] (PName "z") = (example_dict, Raise TypeError).
Proof. reflexivity. Qed.
Example C40_ex_onto_section : add_at example_dict ["data"] (PName "z") = (example_dict, Raise ValueError).
Proof. reflexivity. Qed.

(* ------------------------------------------------------------------ *)
(** * C41 *)

(** A nested dict of names, with keys that can stand between double quotes, is written such that it reads back as the same
    dict, in the same order. *)
Theorem C41_pipeline_dict_reads_back : forall name d,
  good_name name -> names_only (PDict d) -> pd_wf (PDict d) ->
  exists s, print_dict name d = Ok s /\ read false name s = Some d.
Proof. intros name d. apply print_read. Qed.

(** The same after black, which may fail but only changes the layout. *)
Theorem C41_reads_back_after_black : forall black d text,
  layout_only black -> names_only (PDict d) -> pd_wf (PDict d) ->
  rbind (print_dict "pipeline_dict" d) black = Ok text -> read false "pipeline_dict" text = Some d.
Proof.
  intros black d text Hb Hn Hw H. destruct (print_read "pipeline_dict" d good_pipeline_dict Hn Hw) as (s & E & R).
  rewrite E in H. exact (Hb _ _ s text d R H).
Qed.

(** Class dicts are written with repr, which works for all strings without NUL, keys included. *)
Theorem C41_class_dict_reads_back : forall name d,
  good_name name -> strings_only (PDict d) -> pd_wf (PDict d) -> read true name (repr_dict name d) = Some d.
Proof. intros name d. apply repr_read. Qed.

(** A pipeline dict can be written only if all its lists consist of plain names. *)
Theorem C41_which_dicts_can_be_written : forall name d, is_ok (print_dict name d) = true <-> writable (PDict d) = true.
Proof. intros name d. now rewrite print_dict_writable. Qed.

(** What is read has distinct keys, and its names are names. *)
Theorem C41_reading_gives_real_dicts : forall conv name text d, read conv name text = Some d ->
  pd_wf (PDict d) /\ pd_all (fun _ => True) (fun v => match v with PName n => good_name n | PStr _ => conv = true | _ => True end) (PDict d).
Proof. intros conv name text d H. exact (read_read_ok conv name text d H). Qed.

(** A string in the dict is written without quotes: it comes back as the name it spells. *)
Theorem C41_strings_become_names : forall name key n, good_name name -> plain_key key -> good_name n ->
  exists s, print_dict name [(key, PStr n)] = Ok s /\ print_dict name [(key, PName n)] = Ok s /\ read false name s = Some [(key, PName n)].
Proof.
  intros name key n Hn Hk H. destruct (print_read name [(key, PName n)]) as (s & E & R); [exact Hn| | |].
  - cbn. auto.
  - apply pd_wf_dict. split; [repeat constructor; intros []|repeat constructor].
  - exists s. split; [exact E|]. auto.
Qed.

(** A double quote in a key, which is fine in the file the dict was read from, breaks the written file. *)
Theorem C41_any_key_refuted : exists text d s,
  read false "pipeline_dict" text = Some d /\ print_dict "pipeline_dict" d = Ok s /\ read false "pipeline_dict" s = None.
Proof.
  exists ("pipeline_dict = {'a" ++ quote ++ "b': [f]}")%string. eexists. eexists.
  split; [vm_compute; reflexivity|]. split; [vm_compute; reflexivity|]. vm_compute. reflexivity.
Qed.

(** A backslash in a key does not break the file but changes the key. *)
Theorem C41_backslash_refuted : exists text d s d',
  read false "pipeline_dict" text = Some d /\ print_dict "pipeline_dict" d = Ok s /\ read false "pipeline_dict" s = Some d' /\ dkeys d <> dkeys d'.
Proof.
  exists ("pipeline_dict = {'a" ++ "\\n': [f]}")%string. eexists. eexists. eexists.
  split; [vm_compute; reflexivity|]. split; [vm_compute; reflexivity|]. split; [vm_compute; reflexivity|]. vm_compute. discriminate.
Qed.

(** So does a line break in a key, which the file it was read from writes as an escape. *)
Theorem C41_line_break_refuted : forall c e, In (c, e) [(newline, "n"%char); (return_char, "r"%char)] -> exists text d s,
  text = ("pipeline_dict = {'a" ++ String "\" (String e "b': [f]}"))%string /\
  read false "pipeline_dict" text = Some d /\ dkeys d = [String "a" (String c "b")] /\
  print_dict "pipeline_dict" d = Ok s /\ read false "pipeline_dict" s = None.
Proof.
  intros c e [[= <- <-]|[[= <- <-]|[]]]; eexists; eexists; eexists; (split; [reflexivity|]);
    (split; [vm_compute; reflexivity|]); (split; [reflexivity|]); (split; [vm_compute; reflexivity|]); vm_compute; reflexivity.
Qed.

(** Entries like [module.func] are valid in a pipeline dict, but then no entry can be created any more, wherever. *)
Theorem C41_attribute_entries_refuted : exists text d,
  read false "pipeline_dict" text = Some d /\
  forall black path f, path <> [] -> exists e, create_entry black text path f = Raise e.
Proof.
  exists "pipeline_dict = {'a': [module.func]}". eexists. split; [vm_compute; reflexivity|].
  intros black path f Hp. unfold create_entry.
  change (read false "pipeline_dict" "pipeline_dict = {'a': [module.func]}") with (Some [("a", PList [POther "module.func"])]).
  destruct path as [|x [|y rest]]; [congruence| |].
  - rewrite add_at_one. cbn [dget]. destruct (String.eqb x "a") eqn:E; 
      cbn [dset]; rewrite E; eexists; reflexivity.
  - rewrite add_at_more. cbn [dget]. destruct (String.eqb x "a") eqn:E; [now eexists|].
    destruct (add_at_new (y :: rest) (PName f)) as (d' & ->). cbn [dset]. rewrite E. eexists. reflexivity.
Qed.

Example C41_ex_text : print_dict "pipeline_dict" example_dict =
  Ok ("pipeline_dict = {" ++ quote ++ "data" ++ quote ++ ": {" ++ quote ++ "load" ++ quote ++ ": [a,]," ++ quote ++ "direct" ++ quote ++
      ": x,}," ++ quote ++ "run" ++ quote ++ ": [b,c,],}")%string.
Proof. reflexivity. Qed.
Example C41_ex_names : names_only (PDict example_dict) /\ pd_wf (PDict example_dict).
Proof.
  split.
  - cbn [names_only example_dict]. repeat split; try (vm_compute; reflexivity); try (vm_compute; intuition discriminate).
  - apply pd_wf_dict. split; [|repeat constructor; cbn; repeat constructor; cbn; intuition discriminate].
    repeat constructor; cbn; intuition discriminate.
Qed.
Example C41_ex_class : repr_dict "class_dict" [("a", PList [PStr "it's"; PStr "b"])] =
  ("class_dict = {'a': [" ++ quote ++ "it's" ++ quote ++ ", 'b']}")%string.
Proof. reflexivity. Qed.
Example C41_ex_read : read false "pipeline_dict" example_text =
  Some [("data", PDict [("load", PList [PName "a"])]); ("run", PList [PName "b"; PName "c"])].
Proof. vm_compute. reflexivity. Qed.

(* ------------------------------------------------------------------ *)
(** * C42 *)

(** Creating an entry keeps file and tree in step: afterwards the tree is the one reloading the file gives. If it fails,
    neither has changed. [view] says what the names in the file stand for; it must agree with the object passed. *)
Theorem C42_create_equals_reload : forall black view w path f t w' r,
  layout_only black -> in_sync view w -> usable_path path -> Forall plain_key path -> good_name f ->
  view (PName f) = Ok (f, t) -> create black path f t w = (w', r) ->
  in_sync view w' /\ forall e, r = Raise e -> w' = w.
Proof. intros black view w path f t w' r Hb. now apply create_in_sync. Qed.

(** So does any sequence of such calls. *)
Theorem C42_any_sequence : forall black view l w w' r,
  layout_only black -> in_sync view w ->
  Forall (fun x => match x with (path, f, t) =>
            usable_path path /\ Forall plain_key path /\ good_name f /\ view (PName f) = Ok (f, t) end) l ->
  creates black l w = (w', r) -> in_sync view w'.
Proof. intros black view l w w' r Hb. now apply creates_in_sync. Qed.

(** The same for specific classes. *)
Theorem C42_create_class_equals_reload : forall black view w path f t w' r,
  layout_only black -> in_sync_class view w -> usable_path path -> Forall no_nul path -> no_nul f ->
  view (PStr f) = Ok (f, t) -> create_class black path f t w = (w', r) ->
  in_sync_class view w' /\ forall e, r = Raise e -> w' = w.
Proof. intros black view w path f t w' r Hb. now apply create_class_in_sync. Qed.

Theorem C42_any_class_sequence : forall black view l w w' r,
  layout_only black -> in_sync_class view w ->
  Forall (fun x => match x with (path, f, t) =>
            usable_path path /\ Forall no_nul path /\ no_nul f /\ view (PStr f) = Ok (f, t) end) l ->
  creates_class black l w = (w', r) -> in_sync_class view w'.
Proof. intros black view l w w' r Hb. now apply creates_class_in_sync. Qed.

(** Changing the tree and rebuilding it from the changed dict are the same, for any dict, also one that cannot be written. *)
Theorem C42_tree_update_is_rebuild : forall view name d c path i n t d',
  from_dict view name d = Ok c -> pd_wf (PDict d) -> is_dict i = false -> view i = Ok (n, t) -> usable_path path ->
  add_at d path i = (d', Ok tt) ->
  exists c', reg_set c path (EItem n t) = Ok c' /\ from_dict view name d' = Ok c'.
Proof.
  intros view name d c path i n t d' H Hw Hi Hv Hu Ha. rewrite (reg_set_usable c path _ Hu).
  apply (coll_set_add_at view path name d c i n t d'); auto; [|exact (proj2 Hu)]. destruct path; [now destruct Hu|discriminate].
Qed.

(** A section called "collection" is an exception: in memory the item lands at the top of the tree. *)
Theorem C42_any_path_refuted : exists w',
  in_sync example_view example_world /\
  create no_black ["collection"] "z" (TFunc (Fn "z" [])) example_world = (w', Ok tt) /\ ~ in_sync example_view w'.
Proof.
  eexists. split; [|split; [vm_compute; reflexivity|]].
  - eexists. split; [vm_compute; reflexivity|]. split; [vm_compute; repeat split|]. vm_compute. reflexivity.
  - intros (d & H1 & _ & H3). vm_compute in H1. injection H1 as <-. vm_compute in H3. discriminate.
Qed.

(** For a section named like an attribute of the tree objects the call fails, but the file has been changed. *)
Theorem C42_failure_leaves_file_refuted : exists w' e,
  create no_black ["data"; "items"] "z" (TFunc (Fn "z" [])) example_world = (w', Raise e) /\ w_text w' <> w_text example_world.
Proof. eexists. eexists. split; [vm_compute; reflexivity|]. vm_compute. discriminate. Qed.

(** The same for the items of a class. *)
Theorem C42_class_failure_leaves_file_refuted : exists w w' e,
  w_text w = example_class_text /\
  create_class no_black ["data"; "items"] "z" (TFunc (Fn "z" [])) w = (w', Raise e) /\ w_text w' <> w_text w.
Proof.
  exists (World example_class_text (match from_dict example_view "" (match read true "class_dict" example_class_text with Some d => d | None => [] end) with
                                    | Ok c => c | Raise _ => Coll "" [] end)).
  eexists. eexists. split; [reflexivity|]. split; [vm_compute; reflexivity|]. vm_compute. discriminate.
Qed.

(** If the dict file can not be read, SyntaxError comes and nothing changes. *)
Theorem C42_unreadable_file : forall black path f t w, (read false "pipeline_dict" (w_text w) = None -> create black path f t w = (w, Raise SyntaxError)) /\
  (read true "class_dict" (w_text w) = None -> create_class black path f t w = (w, Raise SyntaxError)).
Proof. intros black path f t w. split; intros H; [unfold create, create_entry|unfold create_class, create_class_entry]; now rewrite H. Qed.
(** A section named like something of the registrar: the file is written, then AttributeError comes. *)
Theorem C42_registrar_names : forall black x path f t w text, x <> "collection" -> mem x reg_reserved = true -> create_entry black (w_text w) (x :: path) f = Ok text ->
  create black (x :: path) f t w = (World text (w_coll w), Raise AttributeError).
Proof. intros black x path f t w text Hx H E. unfold create. rewrite E. unfold reg_set. apply eqb_neq_s in Hx. now rewrite Hx, H. Qed.
Example C42_ex_registrar_names : exists text, create_entry no_black (w_text example_world) ["scaffold_config"] "z" = Ok text /\ mem "scaffold_config" reg_reserved = true.
Proof. eexists. split; vm_compute; reflexivity. Qed.
Example C42_ex_unreadable : read false "pipeline_dict" "pipeline_dict = {" = None /\ read true "class_dict" "class_dict = {" = None.
Proof. split; vm_compute; reflexivity. Qed.

(** In general the file is written if and only if the new text could be made, whether or not the tree can be changed, and a
    failing call leaves the tree alone. *)
Theorem C42_when_the_file_changes : forall black path f t w w' r,
  create black path f t w = (w', r) ->
  w_text w' = match create_entry black (w_text w) path f with Ok text => text | Raise _ => w_text w end /\
  (r <> Ok tt -> w_coll w' = w_coll w).
Proof.
  intros black path f t w w' r. unfold create. destruct (create_entry black (w_text w) path f); [|now intros [= <- <-]].
  destruct (reg_set (w_coll w) path (EItem f t)); intros [= <- <-]; split; try reflexivity; congruence.
Qed.
Theorem C42_when_the_class_file_changes : forall black path f t w w' r,
  create_class black path f t w = (w', r) ->
  w_text w' = match create_class_entry black (w_text w) path f with Ok text => text | Raise _ => w_text w end /\
  (r <> Ok tt -> w_coll w' = w_coll w).
Proof.
  intros black path f t w w' r. unfold create_class. destruct (create_class_entry black (w_text w) path f); [|now intros [= <- <-]].
  destruct (reg_set (w_coll w) path (EItem f t)); intros [= <- <-]; split; try reflexivity; congruence.
Qed.

(** A function whose name the file already uses for another object: the tree holds the new one, after a reload it is the old
    one. *)
Theorem C42_name_clash_refuted : exists w',
  create no_black ["run"] "b" (TFunc (Fn "other.b" [])) example_world = (w', Ok tt) /\ ~ in_sync example_view w'.
Proof.
  eexists. split; [vm_compute; reflexivity|].
  intros (d & H1 & _ & H3). vm_compute in H1. injection H1 as <-. vm_compute in H3. discriminate.
Qed.

(** An object whose name is not a Python name, like a lambda, breaks the file. *)
Theorem C42_lambda_refuted : exists w',
  create no_black ["run"] "<lambda>" (TFunc (Fn "f" [])) example_world = (w', Ok tt) /\
  read false "pipeline_dict" (w_text w') = None.
Proof. eexists. split; [vm_compute; reflexivity|]. vm_compute. reflexivity. Qed.

Example C42_ex_sync : in_sync example_view example_world.
Proof. eexists. split; [vm_compute; reflexivity|]. split; [vm_compute; repeat split|]. vm_compute. reflexivity. Qed.
Example C42_ex_black : layout_only no_black.
Proof. intros conv name text out d H [= <-]. exact H. Qed.
Example C42_ex_usable : usable_path ["new"; "deep"] /\ Forall plain_key ["new"; "deep"] /\ good_name "z".
Proof.
  split; [repeat split; try discriminate; repeat constructor|]. split; [repeat constructor|].
  split; [split; reflexivity|]. cbn. intuition discriminate.
Qed.
Example C42_ex_create : exists w', create no_black ["new"; "deep"] "z" (TFunc (Fn "z" [])) example_world = (w', Ok tt) /\
  coll_get (w_coll w') ["new"; "deep"; "z"] = Ok (FThing (TFunc (Fn "z" []))) /\
  coll_get (w_coll w') ["data"; "load"; "a"] = Ok (FThing (TFunc (Fn "a" []))).
Proof. eexists. split; [vm_compute; reflexivity|]. split; vm_compute; reflexivity. Qed.
Example C42_ex_class : exists c w', read true "class_dict" example_class_text <> None /\
  from_dict example_view "" (match read true "class_dict" example_class_text with Some d => d | None => [] end) = Ok c /\
  create_class no_black ["run"] "z" (TFunc (Fn "z" [])) (World example_class_text c) = (w', Ok tt) /\
  w_text w' = "class_dict = {'data': {'load': ['a']}, 'run': ['b', 'c', 'z']}".
Proof.
  eexists. eexists. split; [vm_compute; discriminate|]. split; [vm_compute; reflexivity|].
  split; [vm_compute; reflexivity|]. vm_compute. reflexivity.
Qed.

(* ------------------------------------------------------------------ *)
(** * C51 *)

(** In a tree with distinct names per section, a path finds an item exactly if the item is written there. *)
Theorem C51_item_found_iff_written : forall view name v c path t,
  from_pd view name v = Ok c -> is_section v = true -> distinct_names c ->
  Forall (fun x => mem x coll_reserved = false) path ->
  coll_get c path = Ok (FThing t) <-> exists i n, written view v path i /\ view i = Ok (n, t).
Proof. intros view name v c path t. apply get_item. Qed.

(** It finds a section exactly if there is one, and this is the tree of the part of the dict at that place. *)
Theorem C51_section_found_iff_written : forall view name v c path c',
  from_pd view name v = Ok c -> is_section v = true -> distinct_names c ->
  Forall (fun x => mem x coll_reserved = false) path ->
  coll_get c path = Ok (FColl c') <-> exists s, section_at v path s /\ from_pd view (last path name) s = Ok c'.
Proof. intros view name v c path c'. apply get_section. Qed.

(** Otherwise the lookup raises AttributeError. *)
Theorem C51_nothing_else_found : forall c path,
  distinct_names c -> Forall (fun x => mem x coll_reserved = false) path ->
  (exists c', coll_get c path = Ok (FColl c')) \/ (exists t, coll_get c path = Ok (FThing t)) \/ coll_get c path = Raise AttributeError.
Proof.
  intros c path Hd Hp. destruct (get_other path c (coll_get c path) Hd Hp eq_refl) as [H1 H2].
  destruct (coll_get c path) as [[c'|t|]|e]; eauto; [congruence|]. right; right. now rewrite (H2 e eq_refl).
Qed.

(** The lookups of the registrar agree with this, for items that can be imported. *)
Theorem C51_registrar_finds_the_same : forall c path, usable_path path ->
  reg_get c path = coll_get c path /\
  forall f, coll_get c path = Ok f -> f <> FOther -> (forall e, f <> FThing (TBroken e)) -> general_get c path = Ok f.
Proof.
  intros c path [H _]. assert (E : reg_get c path = coll_get c path).
  { destruct path as [|x rest]; [easy|]. destruct H as [H1 H2]. unfold reg_get. apply eqb_neq_s in H2. now rewrite H2, H1. }
  split; [exact E|]. intros f Hf Ho Hb. unfold general_get. rewrite E, Hf.
  destruct f as [c'|t|]; [reflexivity| |congruence]. destruct t as [g|k| |e|k]; try reflexivity. exfalso. now apply (Hb e).
Qed.

(** Names of attributes and methods of the tree objects never find an item, whatever the dict contains. *)
Theorem C51_reserved_names_find_nothing : forall c x,
  x <> "collection" -> mem x reg_reserved || mem x coll_reserved = true -> general_get c [x] = Raise AttributeError.
Proof.
  intros c x Hx H. unfold general_get, reg_get. apply eqb_neq_s in Hx. rewrite Hx.
  destruct (mem x reg_reserved); [reflexivity|]. cbn [orb] in H. cbn [coll_get]. unfold coll_getattr. now rewrite H.
Qed.

(** Nor is there anything below the attributes and methods of the registrar. *)
Theorem C51_nothing_below_reserved_names : forall c x y path,
  x <> "collection" -> mem x reg_reserved = true -> reg_get c (x :: y :: path) = Raise AttributeError.
Proof. intros c x y path Hx H. unfold reg_get. apply eqb_neq_s in Hx. now rewrite Hx, H. Qed.

(** "collection" stands for the whole tree: each path has a second name. *)
Theorem C51_collection_is_an_alias : forall c path, usable_path path -> reg_get c ("collection" :: path) = reg_get c path.
Proof.
  intros c path [H _]. destruct path as [|x rest]; [easy|]. destruct H as [H1 H2].
  unfold reg_get. rewrite eqb_refl_s. apply eqb_neq_s in H2. now rewrite H2, H1.
Qed.

(** Values given directly, not in a list or dict, are dropped. *)
Theorem C51_direct_values_dropped : forall view name d,
  from_dict view name d = from_dict view name (filter (fun kv => is_section (snd kv)) d).
Proof. intros view name d. apply from_dict_drops. Qed.

(** Building the tree fails exactly if some element of a list cannot be turned into an item. *)
Theorem C51_when_building_fails : forall view name v,
  (exists c, from_pd view name v = Ok c) <-> Forall (fun i => exists nt, view i = Ok nt) (viewed v).
Proof. intros view name v. exact (proj1 (builds_all view v) name). Qed.

(** Of several items with the same name in a list only the last can be found. *)
Theorem C51_later_item_hides : forall view name l i n t c,
  from_pd view name (PList (l ++ [i])) = Ok c -> is_dict i = false -> view i = Ok (n, t) -> mem n coll_reserved = false ->
  coll_get c [n] = Ok (FThing t).
Proof. intros view name l i n t c. apply later_item_hides. Qed.

(** An entry that is not in a list is not reachable. *)
Theorem C51_every_entry_reachable_refuted : exists d c,
  dget "data" d = Some (PDict [("load", PList [PName "a"]); ("direct", PName "x")]) /\
  from_dict example_view "" d = Ok c /\ coll_get c ["data"; "direct"] = Raise AttributeError /\
  coll_get c ["data"; "x"] = Raise AttributeError /\ coll_get c ["data"; "direct"; "x"] = Raise AttributeError.
Proof.
  exists example_dict. eexists. split; [reflexivity|]. split; [vm_compute; reflexivity|]. repeat split; vm_compute; reflexivity.
Qed.

(** The key of an entry in a dict in a list is lost: the entry is found under its own name. *)
Theorem C51_key_in_list_refuted : exists c,
  from_dict example_view "" [("run", PList [PDict [("alias", PName "b")]])] = Ok c /\
  coll_get c ["run"; "alias"] = Raise AttributeError /\ coll_get c ["run"; "b"] = Ok (FThing (TFunc (Fn "b" []))).
Proof. eexists. split; [vm_compute; reflexivity|]. split; vm_compute; reflexivity. Qed.

Example C51_ex_distinct : distinct_names example_coll /\ coll_get example_coll ["run"; "c"] = Ok (FThing (TFunc (Fn "c" []))).
Proof. split; [|vm_compute; reflexivity]. vm_compute. repeat split; repeat constructor; cbn; intuition discriminate. Qed.
Example C51_ex_written : written example_view (PDict example_dict) ["data"; "load"; "a"] (PName "a").
Proof.
  apply W_key with (PDict [("load", PList [PName "a"]); ("direct", PName "x")]); [now left|reflexivity|].
  apply W_key with (PList [PName "a"]); [now left|reflexivity|]. apply W_item with (TFunc (Fn "a" [])); [now left|reflexivity|reflexivity].
Qed.
Example C51_ex_fails : from_dict example_view "" [("run", PList [POther "f()"])] = Raise AttributeError.
Proof. reflexivity. Qed.

Print Assumptions C40_item_added_at_the_end.
Print Assumptions C40_everything_else_unchanged.
Print Assumptions C40_sections_on_the_way.
Print Assumptions C40_failure_changes_nothing.
Print Assumptions C40_when_it_fails.
Print Assumptions C40_keys_stay_distinct.
Print Assumptions C41_pipeline_dict_reads_back.
Print Assumptions C41_reads_back_after_black.
Print Assumptions C41_class_dict_reads_back.
Print Assumptions C41_which_dicts_can_be_written.
Print Assumptions C41_reading_gives_real_dicts.
Print Assumptions C41_strings_become_names.
Print Assumptions C41_any_key_refuted.
Print Assumptions C41_backslash_refuted.
Print Assumptions C41_line_break_refuted.
Print Assumptions C41_attribute_entries_refuted.
Print Assumptions C42_create_equals_reload.
Print Assumptions C42_any_sequence.
Print Assumptions C42_create_class_equals_reload.
Print Assumptions C42_any_class_sequence.
Print Assumptions C42_tree_update_is_rebuild.
Print Assumptions C42_any_path_refuted.
Print Assumptions C42_failure_leaves_file_refuted.
Print Assumptions C42_class_failure_leaves_file_refuted.
Print Assumptions C42_when_the_file_changes.
Print Assumptions C42_when_the_class_file_changes.
Print Assumptions C42_name_clash_refuted.
Print Assumptions C42_lambda_refuted.
Print Assumptions C51_item_found_iff_written.
Print Assumptions C51_section_found_iff_written.
Print Assumptions C51_nothing_else_found.
Print Assumptions C51_registrar_finds_the_same.
Print Assumptions C51_reserved_names_find_nothing.
Print Assumptions C51_nothing_below_reserved_names.
Print Assumptions C51_collection_is_an_alias.
Print Assumptions C51_direct_values_dropped.
Print Assumptions C51_when_building_fails.
Print Assumptions C51_later_item_hides.
Print Assumptions C51_every_entry_reachable_refuted.
Print Assumptions C51_key_in_list_refuted.
Print Assumptions C42_unreadable_file.
Print Assumptions C42_registrar_names.
