(** Model of acting on ItemViews (selector/models/itemview.py:32-160): calling them, reading and setting attributes; and of the
    choice of the method that runs an item of a class dict (runner.py:207-219). *)
From Verif Require Export Selector_Model GetAttr_Model.
Local Open Scope string_scope.
Local Open Scope list_scope.

(** A loaded manager: its items, for every class dict (in order) the class and the name of the method that is to be run
    (klass, execute_attr, basemodels/registrar.py), and the state of its runner. *)
Record vmgr : Type := VMgr { v_items : items; v_klasses : dict (callable * string); v_gs : gs }.
(** context.active_managers; all of them have been loaded *)
Definition world : Type := dict vmgr.

(** A selector keeps the collections it found when it was made, hence also their classes. *)
Record vsel : Type := VSel { vs_struct : structure; vs_klasses : list (callable * string) }.
Definition as_smgr (m : vmgr) : smgr := SMgr (map reg_name (i_specific (v_items m))) (Some (v_items m)).
Definition smgrs (w : world) : dict smgr := map (fun nm => (fst nm, as_smgr (snd nm))) w.
Definition make_selector (w : world) : res vsel :=
  match new_selector (smgrs w) with
  | Raise e => Raise e
  | Ok st => Ok (VSel st (flat_map (fun nm => map snd (v_klasses (snd nm))) w))
  end.

(** Functions and classes are compared by identity; two with the same id and parameters are the same here. *)
Fixpoint strings_eqb (a b : list string) : bool :=
  match a, b with
  | [], [] => true
  | x :: a', y :: b' => String.eqb x y && strings_eqb a' b'
  | _, _ => false
  end.
Definition callable_eqb (a b : callable) : bool := String.eqb (f_id a) (f_id b) && strings_eqb (f_args a) (f_args b).

(** a dict with classes as keys built by successive assignments: the last one for a class counts *)
Fixpoint class_map_get (k : callable) (l : list (callable * string)) : option string :=
  match l with
  | [] => None
  | (k', x) :: rest => match class_map_get k rest with
                       | Some y => Some y
                       | None => if callable_eqb k k' then Some x else None
                       end
  end.

Section View.
Variable u : user.
(** [issubclass] *)
Variable sub : callable -> callable -> bool.
(** What an attribute of a loaded object is: missing, a method bound to it, a class, something else. *)
Inductive uattr : Type := UMissing | UMethod | UClass | UValue.
Variable ua : lobj -> string -> uattr.

(** the execute_attr of Runner._run_one_specific_class, runner.py:207-219 with 43: the map covers the class dicts of this manager *)
Definition run_executes (m : vmgr) (k : callable) : res string :=
  match class_map_get k (map snd (v_klasses m)) with Some x => Ok x | None => Raise KeyError end.

(** [isinstance(obj, self._specific_classes)], itemview.py:200-216 *)
Definition is_specific (sel : vsel) (o : lobj) : bool :=
  match o with LInst _ k _ => existsb (fun kx => sub k (fst kx)) (vs_klasses sel) | LPartial _ _ _ _ => false end.

(** Getting attributes one after the other, logic/get.py:19-39, from a manager on. The names left over belong to the object
    reached. *)
Fixpoint vchain (its : items) (first : bool) (names : list string) (s : gs) : gs * res (attr * list string) :=
  match names with
  | [] => (s, Ok (ASelf, []))                 (* not reached: section paths are not empty *)
  | x :: rest =>
      let '(s1, o) := do_access its u (if first then OnManager x else OnRunner x) s in
      match o with
      | Raise e => (s1, Raise e)
      | Ok ASelf => match rest with [] => (s1, Ok (ASelf, [])) | _ :: _ => vchain its false rest s1 end
      | Ok a => (s1, Ok (a, rest))
      end
  end.

Definition no_manager : exn := LibExn "NoPipelineManagerForSectionPathException".

(** Selector._get_real_item, selector.py:144-155, without the dependency record (Context_Model) *)
Definition real_item (w : world) (path : string) : world * res (attr * list string) :=
  match path_parts path with
  | [] => (w, Raise IndexError)
  | n :: below =>
      match dget n w with
      | None => (w, Raise no_manager)
      | Some m => let '(s, o) := vchain (v_items m) true (path_parts (join sdot below)) (v_gs m) in
                  (dset n (VMgr (v_items m) (v_klasses m) s) w, o)
      end
  end.

(** What calling a view does: an object or one of its methods is called with these arguments; an object or one of its attributes
    is returned without being called; the manager's runner is returned; or something that is no item is involved (attributes of
    managers, attributes of attributes), which is not followed further. *)
Inductive vcall : Type :=
| VCalls (o : lobj) (method : option string) (args : list pyval) (kwargs : dict pyval)
| VReturns (o : lobj) (attribute : option string)
| VRunner
| VOther.

(** the keys of PipelineManager._registrar_dict, main.py:625-632 *)
Definition counts_as_specific (m : vmgr) (x : string) : bool :=
  String.eqb x "general" || mem x (map reg_name (i_specific (v_items m))).

(** what comes after the dispatch on partials and instances of specific classes, itemview.py:121-152, for a section (the runner):
    [runner.__self__] goes through Runner.__getattr__ *)
Definition call_runner (sel : vsel) (m : vmgr) : gs * res vcall :=
  match runner_getattr (v_items m) u "__self__" (v_gs m) with
  | (s, Raise AttributeError) => (s, Ok VRunner)
  | (s, Raise e) => (s, Raise e)
  | (s, Ok (AGot (GObj o))) => (s, if is_specific sel o then Ok VOther else Raise ValueError)
  | (s, Ok _) => (s, Raise ValueError)
  end.

(** ItemView.__call__, itemview.py:96-155. A path of one part, i.e. the view of a manager, raises in line 108; the real item has been
    looked up before that. *)
Definition view_call (sel : vsel) (path : string) (args : list pyval) (kwargs : dict pyval) (w : world) : world * res vcall :=
  match real_item w path with
  | (w1, Raise e) => (w1, Raise e)
  | (w1, Ok (a, rest)) =>
      match path_parts path with
      | n :: x :: _ =>
          match dget n w1 with
          | None => (w1, Raise no_manager)
          | Some m =>
              match a, rest with
              | AGot (GObj (LPartial i f b kw)), [] => (w1, Ok (VCalls (LPartial i f b kw) None args kwargs))
              | AGot (GObj (LInst i k calls)), [] =>
                  let o := LInst i k calls in
                  if counts_as_specific m x && is_specific sel o
                  then match class_map_get k (vs_klasses sel) with
                       | None => (w1, Raise KeyError)
                       | Some method => match ua o method with
                                        | UMissing => (w1, Raise AttributeError)
                                        | _ => (w1, Ok (VCalls o (Some method) args kwargs))
                                        end
                       end
                  else (w1, Ok (VReturns o None))
              | AGot (GObj o), [y] =>
                  match ua o y with
                  | UMissing => (w1, Raise AttributeError)
                  | UMethod => if is_specific sel o then (w1, Ok (VCalls o (Some y) args kwargs)) else (w1, Raise ValueError)
                  | UClass => (w1, Raise ValueError)
                  | UValue => (w1, Ok (VReturns o (Some y)))
                  end
              | ASelf, _ => let '(s, r) := call_runner sel m in (dset n (VMgr (v_items m) (v_klasses m) s) w1, r)
              | _, _ => (w1, Ok VOther)
              end
          end
      | _ => (w1, Raise IndexError)
      end
  end.

(** What reading an attribute gives: a view, something defined by ItemView itself, an attribute of the loaded object, what an
    access to the manager's runner gives, or something that is no item. *)
Inductive vread : Type := RView (path : string) | ROwn | RAttr (o : lobj) (x : string) | RAccess (a : attr) | ROther.

(** What becomes of an exception of the lookup of the item, itemview.py:42-59 with selector/logic/exc/typo.py: RecursionError, and the
    exception for managers that are not loaded, are taken for wrong names. (The manager is among the selector's: the lookup found it
    among the active ones, which are the same.) *)
Definition item_not_found : exn := LibExn "ItemNotFoundException".
Definition lookup_error (e : exn) : exn :=
  match e with
  | RecursionError => item_not_found
  | LibExn n => if String.eqb n "PipelineManagerNotLoadedException" then item_not_found else e
  | _ => e
  end.
(** ItemView.__getattr__, itemview.py:32-72 *)
Definition view_getattr (sel : vsel) (path x : string) (w : world) : world * res vread :=
  match iv_getattr (vs_struct sel) (smgrs w) path x with
  | Raise e => (w, Raise e)
  | Ok OwnAttr => (w, Ok ROwn)
  | Ok (View q) => (w, Ok (RView q))
  | Ok (OfRealItem _ _) =>
      match real_item w path with
      | (w1, Raise e) => (w1, Raise (lookup_error e))
      | (w1, Ok (AGot (GObj o), [])) => (w1, match ua o x with UMissing => Raise AttributeError | _ => Ok (RAttr o x) end)
      | (w1, Ok (ASelf, _)) =>
          match path_parts path with
          | n :: _ => match dget n w1 with
                      | Some m => let '(s, o) := do_access (v_items m) u (OnRunner x) (v_gs m) in
                                  (dset n (VMgr (v_items m) (v_klasses m) s) w1, match o with Raise e => Raise e | Ok a => Ok (RAccess a) end)
                      | None => (w1, Ok ROther)
                      end
          | [] => (w1, Ok ROther)
          end
      | (w1, Ok _) => (w1, Ok ROther)
      end
  end.

(** ItemView.__setattr__, itemview.py:74-86 with Selector._set_attr_for_item, selector.py:157-165. The result is the path of the view
    afterwards. Dependencies recorded by PipelineManager.update are left out, plugins do nothing. *)
Definition iv_set_attrs : list string := ["section_path_str"; "selector"; "_is_item_view"; "_section_path_str"].
Definition view_setattr (path key : string) (v : pyval) (w : world) : world * res string :=
  if mem key iv_set_attrs
  then (w, Ok (match String.eqb key "section_path_str", v with true, VStr q => q | _, _ => path end))
  else match path_parts path with
       | [] => (w, Raise IndexError)
       | n :: below =>
           match dget n w with
           | None => (w, Raise KeyError)
           | Some m => let '(r, o) := runner_update u (Some [(key, v)]) (Some (join sdot below)) true [] (g_rs (v_gs m)) in
                       (dset n (VMgr (v_items m) (v_klasses m) (GS (g_full (v_gs m)) r)) w, match o with Ok _ => Ok path | Raise e => Raise e end)
           end
       end.

End View.
