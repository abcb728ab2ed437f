(** Statements about class checks on views. *)
From Verif Require Export ViewClass_Model View_Spec.
Local Open Scope string_scope.
Local Open Scope list_scope.

Section ViewClassSpec.
Variable u : user.
Variable sel : string -> vsel.
Variable below_class : attr -> list string -> res (option cls).

(** The class a view claims to be of is found without effects; [None]: none. *)
Definition claims_class (w : world) (path : string) (c : option cls) : Prop := view_class u sel below_class path w = (w, Ok c).
(** Looking for the class raises an exception, without other effects. *)
Definition class_raises (w : world) (path : string) (e : exn) : Prop := view_class u sel below_class path w = (w, Raise e).
(** The view is of none of these classes. *)
Definition is_none_of (ts : list (cls -> bool)) (w : world) (path : string) : Prop :=
  exists c, claims_class w path c /\ forall t k, In t ts -> c = Some k -> t k = false.

(** Values that are compared like any others: views of items that are no frames. *)
Definition compares_as_itself (is_frame is_series : cls -> bool) (w : world) (v : pyval) : Prop :=
  forall p, v = VView p -> is_none_of [is_frame; is_series] w p.
(** pandas does not take a view for a frame either *)
Definition frames_apart (equals : pyval -> pyval -> world -> world * res bool) (w : world) : Prop :=
  forall i c p, equals (VFrame i c) (VView p) w = (w, Ok false).
End ViewClassSpec.

(** the views among the values of a dict *)
Definition views_of (vals : list pyval) : list string := flat_map (fun v => match v with VView p => [p] | _ => [] end) vals.

(** arguments of run in lists *)
Inductive names_path : rarg -> string -> Prop :=
| np_str s : names_path (GStr s) s
| np_view path n below : path_parts path = n :: below -> names_path (GView path) (join sdot below).

(** For examples: manager "p" of View_Spec with a broken item more, and a manager "q" with another function at "a.b.f". *)
Definition vc_items : items := Items (i_specific vx_items) (Coll "root" (EItem "broken" (TBroken (UserExn 4)) :: coll_entries (i_general vx_items))).
Definition vc_p : vmgr := VMgr vc_items (v_klasses vx_p) (v_gs vx_p).
Definition vc_q : vmgr := VMgr (Items [] (Coll "root" [EColl (Coll "a" [EColl (Coll "b" [EItem "f" (TFunc (Fn "other" ["k"]))])])])) [] (v_gs vx_p).
Definition vc_w : world := [("p", vc_p); ("q", vc_q)].
Definition vc_sel (path : string) : vsel := match make_selector vc_w with Ok s => s | Raise _ => VSel [] [] end.
Definition vc_below (a : attr) (rest : list string) : res (option cls) := Ok (Some KElse).
Definition vc_no (c : cls) : bool := false.
(** a selector made when "p" had no items but those of class dicts *)
Definition vc_old : world := [("p", VMgr (Items (i_specific vc_items) (Coll "root" [])) (v_klasses vx_p) (v_gs vx_p)); ("q", vc_q)].
Definition vc_old_sel (path : string) : vsel := match make_selector vc_old with Ok s => s | Raise _ => VSel [] [] end.
Definition loaded_of (w : world) (n : string) : list string := match dget n w with Some m => map fst (r_loaded (g_rs (v_gs m))) | None => [] end.
Definition calls_of (w : world) (n : string) : nat := match dget n w with Some m => List.length (r_calls (g_rs (v_gs m))) | None => 0 end.
