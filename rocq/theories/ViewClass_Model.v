(** Model of class checks on ItemViews. A view claims to be of the class of its item (ItemView.__class__ and type,
    selector/models/itemview.py:183-194), so that every [isinstance(view, ...)] looks the item up; and of what happens where views are
    given to the library: PipelineManager.run (main.py:125-160, 573-590), SectionPath.from_ambiguous and list_from_ambiguous
    (sectionpath.py:41-87), the comparison of config values (basemodels/config.py:136-191) and PipelineManager.update (main.py:364-394). *)
From Verif Require Export View_Model Report_Model.
Local Open Scope string_scope.
Local Open Scope list_scope.

(** classes as far as views can claim them *)
Inductive cls : Type := KFunction | KPartial | KClass (k : callable) | KCollection | KRunner | KElse.

Section ViewClass.
Variable u : user.
(** the selector of the view of a path *)
Variable sel : string -> vsel.
(** the class of what is found below an object, or of an attribute of a manager *)
Variable below_class : attr -> list string -> res (option cls).

(** [ItemView.__getattr__('__class__')], which Python tries when the property raises AttributeError, itemview.py:32-72. In
    [path.__class__ in selector] everything found at [path] has a class, a class is callable, so the answer is a view of
    [path.__class__]: no class, [None]. The real item has one, too. *)
Definition class_attr (path : string) (w : world) : world * res (option cls) :=
  let contained := match locate (vs_struct (sel path)) (smgrs w) path with
                   | Raise e => Raise e
                   | Ok (LRoot _) => Ok true
                   | Ok (LIn _ c parts) => match coll_get c parts with Ok _ => Ok true | Raise AttributeError => Ok false | Raise e => Raise e end
                   end in
  match contained with
  | Raise e => (w, Raise e)
  | Ok true => (w, Ok None)
  | Ok false =>
      match real_item u w path with
      | (w1, Raise e) => (w1, Raise (lookup_error e))
      | (w1, Ok (AGot (GObj (LPartial _ _ _ _)), [])) => (w1, Ok (Some KPartial))
      | (w1, Ok (AGot (GObj (LInst _ k _)), [])) => (w1, Ok (Some (KClass k)))
      | (w1, Ok (ASelf, [])) => (w1, Ok (Some KRunner))
      | (w1, Ok (a, rest)) => (w1, below_class a rest)
      end
  end.

(** [view.__class__] in isinstance: an AttributeError counts as no class, and so does what is no class: the manager or the collection
    itself, which get_type returns for [manager] and [manager.dict name] (selector.py:126-128). *)
Definition view_class (path : string) (w : world) : world * res (option cls) :=
  match get_type (vs_struct (sel path)) (smgrs w) path with
  | Ok (TyObject _) => (w, Ok None)
  | Ok TyFunction => (w, Ok (Some KFunction))
  | Ok (TyClass k) => (w, Ok (Some (KClass k)))
  | Ok TyCollection => (w, Ok (Some KCollection))
  | Ok TyOther => (w, Ok (Some KElse))
  | Raise AttributeError => match class_attr path w with
                            | (w1, Raise AttributeError) => (w1, Ok None)
                            | r => r
                            end
  | Raise e => (w, Raise e)
  end.

(** [isinstance(view, C)]; [t]: the subclasses of C. ItemView itself is not one of them. *)
Definition view_isinstance (t : cls -> bool) (path : string) (w : world) : world * res bool :=
  match view_class path w with
  | (w1, Ok (Some c)) => (w1, Ok (t c))
  | (w1, Ok None) => (w1, Ok false)
  | (w1, Raise e) => (w1, Raise e)
  end.
(** [isinstance(view, (C, D))]: one after the other, until one holds *)
Fixpoint view_isinstance_any (ts : list (cls -> bool)) (path : string) (w : world) : world * res bool :=
  match ts with
  | [] => (w, Ok false)
  | t :: r => match view_isinstance t path w with
              | (w1, Ok false) => view_isinstance_any r path w1
              | o => o
              end
  end.

(** subclasses of the classes the library asks for *)
Variables is_list is_tuple is_str is_sp is_frame is_series : cls -> bool.

(** arguments of run *)
Inductive rarg : Type := GStr (s : string) | GView (path : string) | GElse.
Inductive rargs : Type := GOne (a : rarg) | GMany (l : list rarg).
(** _get_section_path_str_from_section_path_str_or_view, main.py:579-590 *)
Definition arg_str (a : rarg) : res string :=
  match a with
  | GStr s => Ok s
  | GView path => Ok (join sdot (tl (path_parts path)))
  | GElse => Raise ValueError
  end.
Fixpoint arg_strs (l : list rarg) : res (list string) :=
  match l with
  | [] => Ok []
  | a :: r => match arg_str a with
              | Raise e => Raise e
              | Ok s => match arg_strs r with Ok ss => Ok (s :: ss) | Raise e => Raise e end
              end
  end.
(** _convert_list_or_single_item_view_or_str_to_strs, main.py:573-577. A view that claims to be a list is not iterable. *)
Definition convert_args (a : rargs) (w : world) : world * res run_arg :=
  match a with
  | GMany l => (w, match arg_strs l with Ok ss => Ok (AList ss) | Raise e => Raise e end)
  | GOne (GView path) =>
      match view_isinstance is_list path w with
      | (w1, Raise e) => (w1, Raise e)
      | (w1, Ok true) => (w1, Raise TypeError)
      | (w1, Ok false) => (w1, match arg_str (GView path) with Ok s => Ok (AStr s) | Raise e => Raise e end)
      end
  | GOne a => (w, match arg_str a with Ok s => Ok (AStr s) | Raise e => Raise e end)
  end.
(** PipelineManager.run, main.py:125-160, of the manager [n] *)
Definition run_given (n : string) (s : setting) (a : rargs) (w : world) : world * res result :=
  match dget n w with
  | None => (w, Raise no_manager)
  | Some m => match convert_args a w with
              | (w1, Raise e) => (w1, Raise e)
              | (w1, Ok x) => on_runner n (pm_run (v_items m) u s x) w1
              end
  end.

(** SectionPath.from_ambiguous, sectionpath.py:41-65, for a view. [Claims]: the view claims to be a SectionPath or a string, and is
    used as one from here on; this is not followed further. *)
Inductive amb : Type := Path (sp : section_path) | Claims.
Definition view_from_ambiguous (path : string) (strip : bool) (base : option string) (w : world) : world * res amb :=
  match view_isinstance is_sp path w with
  | (w1, Raise e) => (w1, Raise e)
  | (w1, Ok true) => (w1, Ok Claims)
  | (w1, Ok false) =>
      match view_isinstance is_str path w1 with
      | (w2, Raise e) => (w2, Raise e)
      | (w2, Ok true) => (w2, Ok Claims)
      | (w2, Ok false) =>
          let sp := if strip then from_section_str_list (tl (path_parts path)) else mk_sp path in
          (w2, Ok (Path match base with Some b => sp_join (mk_sp b) sp | None => sp end))
      end
  end.
(** SectionPath.list_from_ambiguous, sectionpath.py:67-87, for a single view *)
Definition view_list_from_ambiguous (path : string) (base : option string) (strip : bool) (w : world) : world * res amb :=
  match view_isinstance_any [is_list; is_tuple] path w with
  | (w1, Raise e) => (w1, Raise e)
  | (w1, Ok true) => (w1, Raise TypeError)
  | (w1, Ok false) => view_from_ambiguous path strip base w1
  end.

(** [x.equals(y)] of pandas, if [x] is a view of an item that is a frame, or [x] is a frame and [y] a view *)
Variable equals : pyval -> pyval -> world -> world * res bool.
(** _values_are_equal, basemodels/config.py:177-191, with the truth test of its caller *)
Definition values_are_equal_v (x y : pyval) (w : world) : world * res bool :=
  let second w := match y with
                  | VView q => match view_isinstance_any [is_frame; is_series] q w with
                               | (w1, Raise e) => (w1, Raise e)
                               | (w1, Ok true) => (w1, Ok false)
                               | (w1, Ok false) => (w1, values_are_equal x y)
                               end
                  | _ => (w, values_are_equal x y)
                  end in
  match x with
  | VFrame _ _ => match y with VView _ => equals x y w | _ => (w, values_are_equal x y) end
  | VView p => match view_isinstance_any [is_frame; is_series] p w with
               | (w1, Raise e) => (w1, Raise e)
               | (w1, Ok true) => equals x y w1
               | (w1, Ok false) => second w1
               end
  | _ => second w
  end.
(** the loop of ConfigBase.would_update, basemodels/config.py:149-155 *)
Fixpoint would_update_loop_v (vals : dict pyval) (updates : list (string * pyval)) (w : world) : world * res bool :=
  match updates with
  | [] => (w, Ok false)
  | (k, v) :: rest =>
      match dget k vals with
      | None => would_update_loop_v vals rest w
      | Some orig => match values_are_equal_v orig v w with
                     | (w1, Raise e) => (w1, Raise e)
                     | (w1, Ok false) => (w1, Ok true)
                     | (w1, Ok true) => would_update_loop_v vals rest w1
                     end
      end
  end.

(** PipelineManager.update, main.py:379-391 with pmcontext/main.py:52-65: for every value that is a view a dependency on it is recorded,
    for which its path is taken with from_ambiguous. The records made are given, too, those before an exception included. *)
Fixpoint record_views (full : string) (vals : list pyval) (w : world) : world * list (string * amb) * res unit :=
  match vals with
  | [] => (w, [], Ok tt)
  | VView p :: r => match view_from_ambiguous p false None w with
                    | (w1, Raise e) => (w1, [], Raise e)
                    | (w1, Ok a) => let '(w2, l, o) := record_views full r w1 in (w2, (full, a) :: l, o)
                    end
  | _ :: r => record_views full r w
  end.
(** PipelineManager._update, main.py:364-394, with a path, without plugins. The updates of [d_] come after the keyword arguments here.
    The comparison of values in the update itself is that of Config_Model, see [would_update_loop_v]. *)
Definition update_given (n : string) (d : option (dict pyval)) (path : string) (persist : bool) (kwargs : dict pyval) (w : world) :
  world * list (string * amb) * res unit :=
  match dget n w with
  | None => (w, [], Raise no_manager)
  | Some _ =>
      match (if String.eqb path "" then (w, [], Ok tt) else record_views (n ++ "." ++ path)%string (map snd (dupdate kwargs (opt_dict d))) w) with
      | (w1, l, Raise e) => (w1, l, Raise e)
      | (w1, l, Ok _) => let '(w2, o) := on_runner n (runner_update u d (Some path) persist kwargs) w1 in (w2, l, o)
      end
  end.
End ViewClass.
