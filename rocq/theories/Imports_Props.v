(** C47, C48, C60: import statements. *)
From Verif Require Import PySource_Model PySource_Spec PySource_Proofs Imports_Proofs.
Local Open Scope string_scope.
Local Open Scope list_scope.

(* ------------------------------------------------------------------ *)
(** * C47 *)

(** The text of an import statement is read as that statement. *)
Theorem C47_import_is_read : forall al, module_aliases_ok al -> parse_lines [import_text al] = Ok [SImport (of_import al)].
Proof. intros. now apply parse_import_text. Qed.
Theorem C47_from_import_is_read : forall m al, dotted_name m -> object_aliases_ok al ->
  parse_lines [from_text 0 m al] = Ok [SImport (ObjImp (map fst al) m (renames_of al))].
Proof. intros. now apply parse_from_text. Qed.

(** Every statement read from any source is written as a line that reads as the statement in which every name stands in the
    way it was last given a new name. *)
Theorem C47_written_statement_reads_back : forall lines st i,
  parse_lines lines = Ok st -> In (SImport i) st -> parse_lines [print_imp i] = Ok [SImport (normal i)].
Proof. intros lines st i H Hi. apply parse_print_imp, read_imp_ok. now apply (parse_lines_imports lines st). Qed.
Theorem C47_names_as_last_renamed : forall al m,
  normal (of_import al) = of_import (settled al) /\
  normal (ObjImp (map fst al) m (renames_of al)) = ObjImp (map fst (settled al)) m (renames_of (settled al)).
Proof. intros. split; [apply normal_import|apply normal_from]. Qed.

(** So the statement survives exactly if it imports no name in two ways. *)
Theorem C47_survives_iff_one_way : forall al, settled al = al <-> one_way al.
Proof. apply settled_iff. Qed.
Theorem C47_one_way_statements_survive : forall lines st i al,
  parse_lines lines = Ok st -> In (SImport i) st -> says i al -> one_way al -> parse_lines [print_imp i] = Ok [SImport i].
Proof.
  intros lines st i al H Hi S O. rewrite (C47_written_statement_reads_back lines st i H Hi). repeat f_equal.
  destruct S as [-> | [m ->]]; [rewrite normal_import|rewrite normal_from]; now rewrite (settled_one_way _ O).
Qed.

(** Writing it a second time gives the same line. *)
Theorem C47_written_the_same_again : forall i, print_imp (normal i) = print_imp i.
Proof. apply print_normal. Qed.

(** A name imported under two names loses the first. *)
Theorem C47_two_names_lose_one_refuted : exists line i j,
  parse_lines [line] = Ok [SImport i] /\ parse_lines [print_imp i] = Ok [SImport j] /\
  line = "from a import f as g, f as h" /\ In ("f", "g") (match i with ObjImp _ _ r | ModImp _ r => r end) /\
  ~ In "g" (map fst (bindings j)).
Proof.
  exists "from a import f as g, f as h". do 2 eexists. split; [vm_compute; reflexivity|]. split; [vm_compute; reflexivity|].
  split; [reflexivity|]. split; [now left|]. vm_compute. intuition discriminate.
Qed.

(** Relative imports are read, and so written, as absolute ones. *)
Theorem C47_relative_imports_lose_their_dots : forall n m al, dotted_name m -> object_aliases_ok al ->
  parse_lines [from_text n m al] = parse_lines [from_text 0 m al].
Proof. intros n m al Hm H. now rewrite !parse_from_text. Qed.
(** Those without a module make reading the imports fail. *)
Theorem C47_dots_only_raise : forall n al, object_aliases_ok al ->
  exists st, parse_lines [("from " ++ string_of_list_ascii (repeat "."%char (S n)) ++ " import " ++ join ", " (map print_alias al))%string] = Ok st /\
    imports_of st = Raise (LibExn "CouldNotExtractObjectImportFromAstException").
Proof. intros n al H. eexists. split; [now apply parse_from_dots|reflexivity]. Qed.

Example C47_example :
  parse_lines ["from pkg.mod import a, b as c"] = Ok [SImport (ObjImp ["a"; "b"] "pkg.mod" [("b", "c")])] /\
  print_imp (ObjImp ["a"; "b"] "pkg.mod" [("b", "c")]) = "from pkg.mod import a, b as c" /\
  one_way [("a", None); ("b", Some "c")] /\ object_aliases_ok [("a", None); ("b", Some "c")] /\ dotted_name "pkg.mod" /\
  parse_lines ["from ..pkg import ("; "    a,"; ")  # both"] = Ok [SImport (ObjImp ["a"] "pkg" [])].
Proof.
  split; [vm_compute; reflexivity|]. split; [vm_compute; reflexivity|]. split.
  { intros x o1 o2 [H1|[H1|[]]] [H2|[H2|[]]]; congruence. }
  split; [right; split; [discriminate|repeat constructor]|]. split; vm_compute; reflexivity.
Qed.

(* ------------------------------------------------------------------ *)
(** * C48 *)

(** The first statement in which the name stands, as an original name or as a new one, decides. *)
Theorem C48_first_statement_with_the_name : forall n l j, get_import_for_name n l = Ok j <->
  exists pre i post, l = pre ++ i :: post /\ (forall k, In k pre -> ~ mentions k n) /\ import_of n i = Some j.
Proof. apply get_import_ok. Qed.
Theorem C48_raises_iff_in_no_statement : forall n l e, get_import_for_name n l = Raise e <->
  e = LibExn "NoImportMatchingNameException" /\ forall i, In i l -> ~ mentions i n.
Proof. apply get_import_raises. Qed.

(** It gives an import of that name alone if the name stands there as an original name, even behind [as]. *)
Theorem C48_original_name : forall n i, In n (originals i) ->
  exists j, import_of n i = Some j /\ module_of j = module_of i /\ aliases_of j = [(n, None)].
Proof. apply import_of_original. Qed.
(** Otherwise it gives the last alias with that new name. *)
Theorem C48_new_name : forall n i, ~ In n (originals i) -> In n (new_names i) ->
  exists j pre x post, import_of n i = Some j /\ module_of j = module_of i /\ aliases_of j = [(x, Some n)] /\
    match i with ModImp _ r | ObjImp _ _ r => r end = pre ++ (x, n) :: post /\ ~ In n (map snd post).
Proof. apply import_of_new. Qed.

(** For a name that is bound in one way only and is not hidden behind an [as], the import returned binds it to what Python
    finds for it. *)
Theorem C48_gives_the_binding : forall n l j,
  is_name n = true ->
  (forall i, In i l -> exists al, says i al /\ one_way al) -> (forall i, In i l -> ~ hides i n) ->
  (forall b c, In b (flat_map bindings l) -> In c (flat_map bindings l) -> fst b = n -> fst c = n -> b = c) ->
  get_import_for_name n l = Ok j ->
  exists t, bindings j = [(n, t)] /\ bound_to l n = Some t.
Proof.
  intros n l j Hn Hs Hh Hb H. apply get_import_ok in H as (pre & i & post & -> & Hp & E).
  assert (Hi : In i (pre ++ i :: post)) by (apply in_app_iff; right; now left).
  destruct (Hs i Hi) as (al & S & O). destruct (import_of_alias n i j al S O (Hh i Hi) E) as (Hm & a & Ha & Hin & Hc).
  assert (B : exists t, alias_bindings (module_of i) a = [(n, t)]).
  { assert (N : String.eqb n "*" = false) by now apply is_name_not_star. destruct (is_name_dotted n Hn) as [_ D].
    destruct a as [x o]. unfold alias_bindings. cbn [fst snd] in *. destruct Hc as [Hc | ->].
    - injection Hc as -> ->. destruct (module_of i); [rewrite N; eauto|]. rewrite D. cbn [hd]. eauto.
    - destruct (module_of i); eauto. }
  destruct B as [t B]. exists t. split.
  - unfold bindings. rewrite Hm, Ha. cbn [flat_map]. now rewrite B.
  - assert (Hin' : In (n, t) (flat_map bindings (pre ++ i :: post))).
    { apply in_flat_map. exists i. split; [exact Hi|]. unfold bindings. rewrite (says_aliases _ _ S), (settled_one_way _ O). apply in_flat_map.
      exists a. split; [exact Hin|]. rewrite B. now left. }
    unfold bound_to. apply (fold_last_binding n _ None (n, t)); [|reflexivity|now left]. intros c Hc1 Hc2. now apply Hb.
Qed.

(** A hidden original name: [import numpy as np] gives an import of numpy for numpy, which the file does not bind. *)
Theorem C48_hidden_name_refuted : exists l n j, (forall i, In i l -> exists al, says i al /\ one_way al) /\
  get_import_for_name n l = Ok j /\ bound_to l n = None /\ bindings j = [(n, (n, None))].
Proof.
  exists [of_import [("numpy", Some "np")]], "numpy". eexists. split.
  { intros i [<-|[]]. eexists. split; [left; reflexivity|]. intros x o1 o2 [H1|[]] [H2|[]]. congruence. }
  split; [vm_compute; reflexivity|]. split; vm_compute; reflexivity.
Qed.
(** A name bound twice: Python's is the last one, the import returned is the first one. *)
Theorem C48_shadowed_name_refuted : exists l n j t, (forall i, In i l -> exists al, says i al /\ one_way al) /\ (forall i, In i l -> ~ hides i n) /\
  get_import_for_name n l = Ok j /\ bound_to l n = Some t /\ ~ In (n, t) (bindings j).
Proof.
  exists [ObjImp ["x"] "a" []; ObjImp ["x"] "b" []], "x". do 2 eexists. split.
  { intros i [<-|[<-|[]]]; exists [("x", None)]; (split; [right; eexists; reflexivity|]); intros x o1 o2 [H1|[]] [H2|[]]; congruence. }
  split. { intros i [<-|[<-|[]]] [_ K]; apply K; now left. }
  split; [vm_compute; reflexivity|]. split; [vm_compute; reflexivity|]. vm_compute. intuition discriminate.
Qed.
(** The package bound by [import a.b] is not found. *)
Theorem C48_package_not_found_refuted : exists l n t, bound_to l n = Some t /\ get_import_for_name n l = Raise (LibExn "NoImportMatchingNameException").
Proof. exists [of_import [("a.b", None)]], "a". eexists. split; vm_compute; reflexivity. Qed.

Example C48_example : exists j,
  get_import_for_name "c" [of_import [("a", None)]; ObjImp ["b"; "d"] "m" [("b", "c")]] = Ok j /\ bindings j = [("c", ("m", Some "b"))] /\
  bound_to [of_import [("a", None)]; ObjImp ["b"; "d"] "m" [("b", "c")]] "c" = Some ("m", Some "b").
Proof. eexists. split; [vm_compute; reflexivity|]. split; vm_compute; reflexivity. Qed.

(* ------------------------------------------------------------------ *)
(** * C60 *)

(** Adding a statement to the imports of a file keeps all statements in order; it is put first or last, or left out if one of
    them has all its names and renames. *)
Theorem C60_statements_are_kept : forall l p, add_if_missing l p = l \/ add_if_missing l p = p :: l \/ add_if_missing l p = l ++ [p].
Proof. intros l p. rewrite add_if_missing_eq. destruct (contained _ _); [auto|]. destruct (snd p); auto. Qed.
Theorem C60_left_out_iff : forall l p,
  add_if_missing l p = l <-> exists i, In i (map fst l) /\ module_of (fst p) = module_of i /\
    incl (originals (fst p)) (originals i) /\
    incl (match fst p with ModImp _ r | ObjImp _ _ r => r end) (match i with ModImp _ r | ObjImp _ _ r => r end).
Proof.
  intros l p. rewrite add_if_missing_eq. unfold contained. destruct (existsb (within (fst p)) (map fst l)) eqn:E.
  - split; [|reflexivity]. intros _. apply existsb_exists in E as (i & Hi & W). exists i. split; [exact Hi|]. now apply within_parts.
  - split.
    + intro K. exfalso. apply (f_equal (@length _)) in K. destruct (snd p); [cbn in K|rewrite app_length in K; cbn in K]; lia.
    + intros (i & Hi & W). exfalso. assert (existsb (within (fst p)) (map fst l) = true); [|congruence]. apply existsb_exists.
      exists i. split; [exact Hi|]. now apply within_parts.
Qed.

(** Everything it binds is then bound by the imports, if no statement hides one of its names behind an [as]. *)
Theorem C60_its_bindings_are_there : forall l p,
  (forall i, In i (fst p :: map fst l) -> exists al, says i al /\ one_way al) ->
  (forall i x, In i (map fst l) -> In (x, None) (aliases_of (fst p)) -> ~ hides i x) ->
  incl (bindings (fst p)) (flat_map bindings (map fst (add_if_missing l p))).
Proof.
  intros l p Hs Hh. assert (There : forall l' : list pimp, In (fst p) (map fst l') -> incl (bindings (fst p)) (flat_map bindings (map fst l'))).
  { intros l' Hl b Hb. apply in_flat_map. exists (fst p). auto. }
  rewrite add_if_missing_eq. destruct (contained (fst p) (map fst l)) eqn:E.
  - apply existsb_exists in E as (i & Hi & W). destruct (Hs (fst p) (or_introl eq_refl)) as (al' & S1 & O1).
    destruct (Hs i (or_intror Hi)) as (al & S2 & O2). intros b Hb. apply in_flat_map. exists i. split; [exact Hi|].
    revert b Hb. apply (within_aliases (fst p) i al' al S1 S2 O1 O2); [|exact W]. intros x Hx. apply (Hh i x Hi).
    rewrite (says_aliases _ _ S1), (settled_one_way _ O1). exact Hx.
  - destruct (snd p); apply There; [now left|]. rewrite map_app. apply in_app_iff. right. now left.
Qed.
(** Without that: [import a] is left out next to [import a as b], and the name stays unbound. *)
Theorem C60_name_behind_as_refuted : exists l p n, (forall i, In i (fst p :: map fst l) -> exists al, says i al /\ one_way al) /\
  In n (map fst (bindings (fst p))) /\ bound_to (map fst (add_if_missing l p)) n = None.
Proof.
  exists [(of_import [("a", Some "b")], false)], (of_import [("a", None)], false), "a". split.
  { intros i [<-|[<-|[]]]; eexists; (split; [left; reflexivity|]); intros x o1 o2 [H1|[]] [H2|[]]; congruence. }
  split; vm_compute; auto.
Qed.

Example C60_example :
  add_if_missing [(ObjImp ["a"; "b"] "m" [("b", "c")], false)] (ObjImp ["b"] "m" [("b", "c")], false) = [(ObjImp ["a"; "b"] "m" [("b", "c")], false)] /\
  add_if_missing [(ObjImp ["a"; "b"] "m" [("b", "c")], false)] (ObjImp ["b"] "m" [("b", "d")], true)
    = [(ObjImp ["b"] "m" [("b", "d")], true); (ObjImp ["a"; "b"] "m" [("b", "c")], false)].
Proof. split; vm_compute; reflexivity. Qed.

Print Assumptions C47_import_is_read.
Print Assumptions C47_from_import_is_read.
Print Assumptions C47_written_statement_reads_back.
Print Assumptions C47_names_as_last_renamed.
Print Assumptions C47_survives_iff_one_way.
Print Assumptions C47_one_way_statements_survive.
Print Assumptions C47_written_the_same_again.
Print Assumptions C47_two_names_lose_one_refuted.
Print Assumptions C47_relative_imports_lose_their_dots.
Print Assumptions C47_dots_only_raise.
Print Assumptions C48_first_statement_with_the_name.
Print Assumptions C48_raises_iff_in_no_statement.
Print Assumptions C48_original_name.
Print Assumptions C48_new_name.
Print Assumptions C48_gives_the_binding.
Print Assumptions C48_hidden_name_refuted.
Print Assumptions C48_shadowed_name_refuted.
Print Assumptions C48_package_not_found_refuted.
Print Assumptions C60_statements_are_kept.
Print Assumptions C60_left_out_iff.
Print Assumptions C60_its_bindings_are_there.
Print Assumptions C60_name_behind_as_refuted.
