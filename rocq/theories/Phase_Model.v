(** Model of item views (selector/models/itemview.py) over the whole life of the managers: View_Model is about managers whose last load
    succeeded; here a manager may also be new, in the middle of a load, or left by a load that failed, and its registrars need not be
    those of its runner. *)
From Verif Require Export View_Model.
Local Open Scope string_scope.
Local Open Scope list_scope.

(** A manager: specific_class_names, set by the constructor (main.py:71); its registrars, with class and method for every class dict, None
    before a load gets to main.py:552 (77-78); its runner, not there before the first load succeeds (563-568); which of the other
    attributes that are only set by loading are there (config, _import_tracker, _loaded_modules: 305, 311-316, 560). *)
Record pmgr : Type := PMgr {
  g_class_names : list string;
  g_regs : option (items * dict (callable * string));
  g_runner : option (items * gs);
  g_set : list string }.
(** context.active_managers *)
Definition pworld : Type := dict pmgr.
Definition with_runner (m : pmgr) (its : items) (s : gs) : pmgr := PMgr (g_class_names m) (g_regs m) (Some (its, s)) (g_set m).

(** what a selector sees *)
Definition p_smgr (m : pmgr) : smgr := SMgr (g_class_names m) (option_map fst (g_regs m)).
Definition p_smgrs (w : pworld) : dict smgr := map (fun nm => (fst nm, p_smgr (snd nm))) w.
Definition p_selector (w : pworld) : res vsel :=
  match new_selector (p_smgrs w) with
  | Raise e => Raise e
  | Ok st => Ok (VSel st (flat_map (fun nm => match g_regs (snd nm) with Some (_, ks) => map snd ks | None => [] end) w))
  end.

Definition pm_not_loaded : exn := LibExn "PipelineManagerNotLoadedException".
(** the attributes set by loading *)
Definition late_attrs : list string := ["config"; "runner"; "_import_tracker"; "_loaded_modules"].
Definition is_there (m : pmgr) (x : string) : bool :=
  if String.eqb x "runner" then match g_runner m with Some _ => true | None => false end
  else if mem x late_attrs then mem x (g_set m) else mem x pm_attrs.

Section Phase.
Variable u : user.
Variable sub : callable -> callable -> bool.
Variable ua : lobj -> string -> uattr.

(** an attribute of the manager, PipelineManager.__getattr__, main.py:85-93: what is not there is looked for in the runner *)
Definition mgr_access (m : pmgr) (x : string) : pmgr * res attr :=
  if is_there m x then (m, Ok ADefined)
  else match g_runner m with
       | None => (m, Raise pm_not_loaded)
       | Some (its, s) => let '(s1, o) := do_access its u (OnRunner x) s in (with_runner m its s1, o)
       end.

(** logic/get.py:19-39, from the manager on *)
Definition p_chain (m : pmgr) (names : list string) : pmgr * res (attr * list string) :=
  match names with
  | [] => (m, Ok (ASelf, []))                 (* not reached: section paths are not empty *)
  | x :: rest =>
      match mgr_access m x with
      | (m1, Raise e) => (m1, Raise e)
      | (m1, Ok ASelf) =>
          match rest, g_runner m1 with
          | _ :: _, Some (its, s) => let '(s1, o) := vchain u its false rest s in (with_runner m1 its s1, o)
          | _, _ => (m1, Ok (ASelf, []))
          end
      | (m1, Ok a) => (m1, Ok (a, rest))
      end
  end.

(** Selector._get_real_item, selector.py:144-155 *)
Definition p_item (w : pworld) (path : string) : pworld * res (attr * list string) :=
  match path_parts path with
  | [] => (w, Raise IndexError)
  | n :: below =>
      match dget n w with
      | None => (w, Raise no_manager)
      | Some m => let '(m1, o) := p_chain m (path_parts (join sdot below)) in (dset n m1 w, o)
      end
  end.

(** ItemView.__getattr__, itemview.py:32-72 with selector/logic/exc/typo.py:9-15: of the two cases of
    handle_pipeline_manager_not_loaded_or_typo, the one for a manager that is not known is written out here. *)
Definition p_lookup_error (w : pworld) (path : string) (e : exn) : exn :=
  match e with
  | RecursionError => item_not_found
  | LibExn n => if String.eqb n "PipelineManagerNotLoadedException"
                then match path_parts path with
                     | n :: _ => if dmem n w then item_not_found else pm_not_loaded
                     | [] => IndexError
                     end
                else e
  | _ => e
  end.
Definition p_read (sel : vsel) (path x : string) (w : pworld) : pworld * res vread :=
  match iv_getattr (vs_struct sel) (p_smgrs w) path x with
  | Raise e => (w, Raise e)
  | Ok OwnAttr => (w, Ok ROwn)
  | Ok (View q) => (w, Ok (RView q))
  | Ok (OfRealItem _ _) =>
      match p_item w path with
      | (w1, Raise e) => (w1, Raise (p_lookup_error w1 (path ++ "." ++ x)%string e))
      | (w1, Ok (AGot (GObj o), [])) => (w1, match ua o x with UMissing => Raise AttributeError | _ => Ok (RAttr o x) end)
      | (w1, Ok (ASelf, _)) =>
          match path_parts path with
          | n :: _ => match dget n w1 with
                      | Some m => match g_runner m with
                                  | Some (its, s) => let '(s1, o) := do_access its u (OnRunner x) s in
                                                     (dset n (with_runner m its s1) w1, match o with Raise e => Raise e | Ok a => Ok (RAccess a) end)
                                  | None => (w1, Ok ROther)
                                  end
                      | None => (w1, Ok ROther)
                      end
          | [] => (w1, Ok ROther)
          end
      | (w1, Ok _) => (w1, Ok ROther)
      end
  end.

(** [collection_name in manager._registrar_dict], itemview.py:106-111 with main.py:625-632 *)
Definition p_specific (m : pmgr) (x : string) : res bool :=
  match g_regs m with
  | None => Raise ValueError
  | Some (i, _) => Ok (String.eqb x "general" || mem x (map reg_name (i_specific i)))
  end.
(** itemview.py:121-152 for a section, as in View_Model *)
Definition p_call_runner (sel : vsel) (its : items) (s : gs) : gs * res vcall :=
  match runner_getattr its u "__self__" s with
  | (s1, Raise AttributeError) => (s1, Ok VRunner)
  | (s1, Raise e) => (s1, Raise e)
  | (s1, Ok (AGot (GObj o))) => (s1, if is_specific sub sel o then Ok VOther else Raise ValueError)
  | (s1, Ok _) => (s1, Raise ValueError)
  end.
(** ItemView.__call__, itemview.py:96-155 *)
Definition p_call (sel : vsel) (path : string) (args : list pyval) (kwargs : dict pyval) (w : pworld) : pworld * res vcall :=
  match p_item w path with
  | (w1, Raise e) => (w1, Raise e)
  | (w1, Ok (a, rest)) =>
      match path_parts path with
      | n :: x :: _ =>
          match dget n w1 with
          | None => (w1, Raise no_manager)
          | Some m =>
              match p_specific m x with
              | Raise e => (w1, Raise e)
              | Ok specific =>
                  match a, rest with
                  | AGot (GObj (LPartial i f b kw)), [] => (w1, Ok (VCalls (LPartial i f b kw) None args kwargs))
                  | AGot (GObj (LInst i k calls)), [] =>
                      let o := LInst i k calls in
                      if specific && is_specific sub sel o
                      then match class_map_get k (vs_klasses sel) with
                           | None => (w1, Raise KeyError)
                           | Some method => match ua o method with
                                            | UMissing => (w1, Raise AttributeError)
                                            | _ => (w1, Ok (VCalls o (Some method) args kwargs))
                                            end
                           end
                      else (w1, Ok (VReturns o None))
                  | AGot (GObj o), [y] =>
                      match ua o y with
                      | UMissing => (w1, Raise AttributeError)
                      | UMethod => if is_specific sub sel o then (w1, Ok (VCalls o (Some y) args kwargs)) else (w1, Raise ValueError)
                      | UClass => (w1, Raise ValueError)
                      | UValue => (w1, Ok (VReturns o (Some y)))
                      end
                  | ASelf, _ => match g_runner m with
                                | Some (its, s) => let '(s1, r) := p_call_runner sel its s in (dset n (with_runner m its s1) w1, r)
                                | None => (w1, Ok VOther)
                                end
                  | _, _ => (w1, Ok VOther)
                  end
              end
          end
      | _ => (w1, Raise IndexError)
      end
  end.

(** ItemView.__setattr__, itemview.py:74-86 with selector.py:157-165 and main.py:319-394: the update is the runner's *)
Definition p_write (path key : string) (v : pyval) (w : pworld) : pworld * res string :=
  if mem key iv_set_attrs
  then (w, Ok (match String.eqb key "section_path_str", v with true, VStr q => q | _, _ => path end))
  else match path_parts path with
       | [] => (w, Raise IndexError)
       | n :: below =>
           match dget n w with
           | None => (w, Raise KeyError)
           | Some m =>
               match g_runner m with
               | None => (w, Raise pm_not_loaded)
               | Some (its, s) => let '(r, o) := runner_update u (Some [(key, v)]) (Some (join sdot below)) true [] (g_rs s) in
                                  (dset n (with_runner m its (GS (g_full s) r)) w, match o with Ok _ => Ok path | Raise e => Raise e end)
               end
           end
       end.

End Phase.
