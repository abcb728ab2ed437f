(** Property theorems C01-C04 (section paths). Specification vocabulary: Coq's own [string]/[list]
    operations, [join]/[has_char] of Py_Str (Python's [str.join] / [in]). *)
From Verif Require Import SectionPath_Model SectionPath_Proofs.
Local Open Scope string_scope.
Local Open Scope list_scope.

(** ** C01 *)
Theorem C01_split_then_join : forall s : string,
  join "." (sections (mk_sp s)) = s.
Proof. exact sections_join_id. Qed.

Theorem C01_list_then_split : forall l : list string,
  l <> [] -> (forall part, In part l -> has_char "." part = false) ->
  sections (from_section_str_list l) = l.
Proof. intros l H1 H2. exact (from_list_sections l H1 (proj2 (Forall_forall _ _) H2)). Qed.

Theorem C01_no_collision : forall l1 l2 : list string,
  l1 <> [] -> l2 <> [] ->
  (forall part, In part (l1 ++ l2) -> has_char "." part = false) ->
  from_section_str_list l1 = from_section_str_list l2 -> l1 = l2.
Proof.
  intros l1 l2 H1 H2 H E.
  rewrite <- (from_list_sections l1 H1), <- (from_list_sections l2 H2); [now rewrite E| |];
    apply Forall_forall; intros x Hx; apply H; apply in_or_app; auto.
Qed.

Theorem C01_empty_list : sections (from_section_str_list []) = [""].
Proof. exact eq_refl. Qed.

Example C01_ex : sections (mk_sp "a..b.") = ["a"; ""; "b"; ""] /\
  ["x"; "y"] <> [] /\ (forall part, In part ["x"; "y"] -> has_char "." part = false).
Proof. repeat split; [discriminate|]. intros p [<-|[<-|[]]]; reflexivity. Qed.

(** ** C02 *)
Theorem C02_join_text : forall a b : string,
  path_str (sp_join (mk_sp a) (mk_sp b)) = (a ++ "." ++ b)%string.
Proof. exact sp_join_str. Qed.

Theorem C02_join_parts : forall a b : string,
  sections (sp_join (mk_sp a) (mk_sp b)) = sections (mk_sp a) ++ sections (mk_sp b).
Proof. exact sp_join_sections. Qed.

Theorem C02_join_assoc : forall a b c : string,
  sp_join (sp_join (mk_sp a) (mk_sp b)) (mk_sp c) = sp_join (mk_sp a) (sp_join (mk_sp b) (mk_sp c)).
Proof. exact sp_join_assoc. Qed.

Theorem C02_eq_iff_parts : forall a b : string,
  sp_eqb (mk_sp a) (mk_sp b) = true <-> sections (mk_sp a) = sections (mk_sp b).
Proof. exact sp_eqb_iff. Qed.

Theorem C02_eq_implies_same_hash : forall (H : Type) (hash : string -> H) (a b : string),
  sp_eqb (mk_sp a) (mk_sp b) = true -> sp_hash hash (mk_sp a) = sp_hash hash (mk_sp b).
Proof. intros H hash a b E. apply String.eqb_eq in E. cbn in E. now subst. Qed.

(** an item view of manager [m] with path [m.rest], stripped and re-based *)
Theorem C02_view_strip : forall m rest base,
  has_char "." m = false ->
  from_ambiguous (LView (m ++ "." ++ rest)) true base
  = Ok (match base with Some b => mk_sp (b ++ "." ++ rest) | None => mk_sp rest end).
Proof. exact from_ambiguous_view_strip. Qed.

Example C02_ex : sections (sp_join (mk_sp "pm") (mk_sp "a.f")) = ["pm"; "a"; "f"].
Proof. reflexivity. Qed.

(** ** C03 *)
Theorem C03_filepath_roundtrip : forall cwd base s : string,
  startswith cwd "/" = true ->
  (forall part, In part (sections (mk_sp s)) -> part <> "" /\ has_char "/" part = false) ->
  from_filepath cwd base (to_filepath (mk_sp s) base ++ ".py") = Ok (mk_sp s).
Proof.
  intros cwd base s Hc H.
  exact (filepath_roundtrip cwd base s Hc (proj2 (Forall_forall _ _) H)).
Qed.

Theorem C03_no_shared_file : forall cwd base s1 s2 : string,
  startswith cwd "/" = true ->
  (forall part, In part (sections (mk_sp s1)) -> part <> "" /\ has_char "/" part = false) ->
  (forall part, In part (sections (mk_sp s2)) -> part <> "" /\ has_char "/" part = false) ->
  to_filepath (mk_sp s1) base = to_filepath (mk_sp s2) base -> s1 = s2.
Proof.
  intros cwd base s1 s2 Hc H1 H2.
  exact (to_filepath_inj cwd base s1 s2 Hc (proj2 (Forall_forall _ _) H1) (proj2 (Forall_forall _ _) H2)).
Qed.

Example C03_ex :
  from_filepath "/home/u" "../x//./pm/defaults" (to_filepath (mk_sp "a.b.f") "../x//./pm/defaults" ++ ".py")
  = Ok (mk_sp "a.b.f")
  /\ (forall part, In part (sections (mk_sp "a.b.f")) -> part <> "" /\ has_char "/" part = false).
Proof.
  split; [vm_compute; reflexivity|].
  intros p [<-|[<-|[<-|[]]]]; split; (discriminate || reflexivity).
Qed.

(** the hypothesis is needed: an empty part is lost on the way *)
Theorem C03_empty_part_refuted : exists cwd base s,
  startswith cwd "/" = true /\
  from_filepath cwd base (to_filepath (mk_sp s) base ++ ".py") <> Ok (mk_sp s).
Proof. exists "/w", "b", "a..f". split; [reflexivity|]. vm_compute. discriminate. Qed.

(** ** C04 *)
Theorem C04_suffix_accepted : forall a b pre,
  sections (mk_sp a) = pre ++ sections (mk_sp b) -> sp_endswith (mk_sp a) (mk_sp b) = true.
Proof. intros a b. exact (sp_endswith_suffix (mk_sp a) (mk_sp b)). Qed.

Theorem C04_exact_when_not_shorter : forall a b,
  length (sections (mk_sp b)) <= length (sections (mk_sp a)) ->
  (sp_endswith (mk_sp a) (mk_sp b) = true <->
   exists pre, sections (mk_sp a) = pre ++ sections (mk_sp b)).
Proof. intros a b. exact (sp_endswith_long (mk_sp a) (mk_sp b)). Qed.

Theorem C04_shorter_is_prefix_test : forall a b,
  length (sections (mk_sp a)) < length (sections (mk_sp b)) ->
  (sp_endswith (mk_sp a) (mk_sp b) = true <->
   exists post, sections (mk_sp b) = sections (mk_sp a) ++ post).
Proof. intros a b. exact (sp_endswith_short (mk_sp a) (mk_sp b)). Qed.

(** the suffix law itself fails *)
Theorem C04_suffix_law_refuted : exists a b,
  sp_endswith (mk_sp a) (mk_sp b) = true /\
  ~ exists pre, sections (mk_sp a) = pre ++ sections (mk_sp b).
Proof.
  exists "six", "six.moves". split; [reflexivity|].
  intros [pre H]. apply (f_equal (@length _)) in H. rewrite app_length in H. cbn in H. lia.
Qed.

(** search for the module that defines an object *)
Theorem C04_module_search : forall skip has search m,
  get_module_imported_from skip has search = Ok m <->
  exists before after, search = before ++ m :: after /\
    has m = true /\ should_skip_module skip m = false /\
    Forall (fun x => should_skip_module skip x = true \/ has x = false) before.
Proof. exact get_module_iff. Qed.

(** consequence of the defect with the shipped skip list: an object that lives only in module
    [six] is never found, whatever else is imported *)
Theorem C04_six_never_found : forall has search,
  (forall m, has m = true -> m = "six") ->
  get_module_imported_from ["six.moves"] has search
  = Raise (LibExn "CouldNotDetermineModuleForObjectException").
Proof.
  intros has search H. destruct (get_module_imported_from ["six.moves"] has search) as [m|e] eqn:E.
  - apply get_module_iff in E as (b & a & _ & Hm & Hs & _). rewrite (H m Hm) in Hs. discriminate.
  - revert E. induction search as [|x search IH]; [now intros [= <-]|].
    cbn [get_module_imported_from].
    destruct (should_skip_module ["six.moves"] x); [exact IH|]. destruct (has x); [discriminate|exact IH].
Qed.

Example C04_ex :
  sp_endswith (mk_sp "a.b.c") (mk_sp "b.c") = true /\ sp_endswith (mk_sp "a.b.c") (mk_sp "b") = false
  /\ get_module_imported_from ["six.moves"] (fun m => String.eqb m "pkg") ["os"; "six"; "pkg"] = Ok "pkg".
Proof. repeat split; reflexivity. Qed.

Print Assumptions C01_split_then_join.
Print Assumptions C01_list_then_split.
Print Assumptions C01_no_collision.
Print Assumptions C02_join_text.
Print Assumptions C02_join_parts.
Print Assumptions C02_join_assoc.
Print Assumptions C02_eq_iff_parts.
Print Assumptions C02_view_strip.
Print Assumptions C03_filepath_roundtrip.
Print Assumptions C03_no_shared_file.
Print Assumptions C03_empty_part_refuted.
Print Assumptions C04_suffix_accepted.
Print Assumptions C04_exact_when_not_shorter.
Print Assumptions C04_shorter_is_prefix_test.
Print Assumptions C04_suffix_law_refuted.
Print Assumptions C04_module_search.
Print Assumptions C04_six_never_found.
