(** The value model of one item (the one the rest of the development uses), and what relates it to the model with lists
    that can be changed in place. *)
From Verif Require Export Alias_Model Runner_Model.
Local Open Scope list_scope.

(** ---- the item with values ---- *)

Record vst : Type := VS {
  v_cfg : config;
  v_loaded : option (dict pyval);
  v_calls : list (dict pyval) }.

Definition v_apply (o : option (dict pyval)) (config : dict pyval) : option (dict pyval) :=
  match o with Some kw => Some (apply_config_to_partial kw config) | None => None end.

Inductive vop : Type :=
| VUpdate (d : dict pyval) (persist : bool)
| VRefresh (content : dict pyval)
| VReset (content : dict pyval)
| VRun
| VNothing.

Definition v_step (params : list string) (o : vop) (s : vst) : vst * res bool :=
  match o with
  | VUpdate d persist =>
      match cfg_checked_update (v_cfg s) (Some d) persist [] with
      | Raise e => (s, Raise e)
      | Ok (c, b) => (VS c (if b then v_apply (v_loaded s) (c_vals c) else v_loaded s) (v_calls s), Ok b)
      end
  | VRefresh content =>
      match cfg_checked_refresh (v_cfg s) content with
      | Raise e => (s, Raise e)
      | Ok (c, b, _) => (VS c (if b then v_apply (v_loaded s) (c_vals c) else v_loaded s) (v_calls s), Ok b)
      end
  | VReset content =>
      match would_update (v_cfg s) (Some content) [] with
      | Raise e => (s, Raise e)
      | Ok false => (s, Ok false)
      | Ok true => (VS (Cfg (c_name (v_cfg s)) content [] (c_file (v_cfg s))) (v_apply (v_loaded s) content) (v_calls s), Ok true)
      end
  | VRun =>
      let kw := match v_loaded s with
                | Some kw => kw
                | None => dfilter (fun k => existsb (String.eqb k) params) (c_vals (v_cfg s))
                end in
      (VS (v_cfg s) (Some kw) (v_calls s ++ [kw]), Ok true)
  | VNothing => (s, Ok true)
  end.

Fixpoint v_steps (params : list string) (ops : list vop) (s : vst) : vst :=
  match ops with
  | [] => s
  | o :: rest => v_steps params rest (fst (v_step params o s))
  end.

(** ---- what the lists contain at the moment ---- *)

Definition fx_value (h : heap) (e : fx) : pyval :=
  match e with
  | FxVal v => v
  | FxList c => VList c
  | FxName l => VList (nth l h [])
  end.
(** what the file says at the moment *)
Definition file_values (file : list (string * fx)) (h : heap) : dict pyval :=
  dict_of (map (fun ke => (fst ke, fx_value h (snd ke))) file).

(** the item as the value model sees it *)
Definition seen (name : string) (ref : fileref) (s : hst) : vst :=
  VS (Cfg (Some name) (dcontents (h_heap s) (h_vals s)) (dcontents (h_heap s) (h_applied s)) (Some ref))
     (option_map (dcontents (h_heap s)) (h_loaded s)) (h_calls s).
Definition seen_op (file : list (string * fx)) (o : aop) (s : hst) : vop :=
  match o with
  | AUpdate d persist => VUpdate (dcontents (h_heap s) d) persist
  | ARefresh => VRefresh (file_values file (h_heap s))
  | AReset => VReset (file_values file (h_heap s))
  | ARun => VRun
  | ANew _ => VNothing
  | APut _ _ => VNothing
  end.
Fixpoint seen_ops file params body (ops : list aop) (s : hst) : list vop :=
  match ops with
  | [] => []
  | o :: rest => seen_op file o s :: seen_ops file params body rest (fst (h_step file params body o s))
  end.

(** ---- sensible states and calls ---- *)

Definition ref_ok (h : heap) (x : hv) : Prop := match x with HVal _ => True | HRef l => l < length h end.
Definition refs_ok (h : heap) (d : dict hv) : Prop := Forall (fun kv => ref_ok h (snd kv)) d.
Definition fx_ok (h : heap) (e : fx) : Prop := match e with FxName l => l < length h | _ => True end.
Definition file_ok (h : heap) (file : list (string * fx)) : Prop := Forall (fun ke => fx_ok h (snd ke)) file.

(** keys that are no parameters of the methods they are passed to by keyword *)
Definition key_ok (k : string) : Prop := k <> "self"%string /\ k <> "pyfileconf_persist"%string /\ k <> "E"%string.

(** references are to existing lists; a call gives a dict *)
Definition aop_ok (h : heap) (o : aop) : Prop :=
  match o with
  | AUpdate d _ => dwf d /\ refs_ok h d /\ Forall key_ok (dkeys d)
  | APut l _ => l < length h
  | _ => True
  end.
Inductive calls_ok file params body : list aop -> hst -> Prop :=
| calls_nil s : calls_ok file params body [] s
| calls_cons o rest s :
    aop_ok (h_heap s) o -> calls_ok file params body rest (fst (h_step file params body o s)) ->
    calls_ok file params body (o :: rest) s.

(** what holds of every state that calls lead to *)
Record ast_ok (file : list (string * fx)) (s : hst) : Prop := {
  ok_vals : dwf (h_vals s) /\ refs_ok (h_heap s) (h_vals s);
  ok_applied : dwf (h_applied s) /\ refs_ok (h_heap s) (h_applied s) /\ Forall key_ok (dkeys (h_applied s));
  ok_loaded : forall kw, h_loaded s = Some kw -> dwf kw /\ refs_ok (h_heap s) kw;
  ok_file : file_ok (h_heap s) file }.

(** calls that change no list in place *)
Definition changes_nothing (o : aop) : Prop := match o with APut _ _ => False | _ => True end.
Definition pure_body (body : dict pyval -> list (string * list pyval)) : Prop := forall args, body args = [].

(** one list was changed in place *)
Definition now (l : nat) (c : list pyval) (h : heap) (x : hv) : pyval :=
  match x with
  | HVal v => v
  | HRef l' => if Nat.eqb l' l then VList c else VList (nth l' h [])
  end.

(** the list is held by the config, its persisted updates, the loaded item, or imported by the file *)
Definition holds (d : dict hv) (l : nat) : Prop := exists k, In (k, HRef l) d.
Definition held (file : list (string * fx)) (s : hst) (l : nat) : Prop :=
  holds (h_vals s) l \/ holds (h_applied s) l \/ (exists kw, h_loaded s = Some kw /\ holds kw l)
  \/ exists k, In (k, FxName l) file.

(** the call gives the list to the item, or changes it in place *)
Definition mentions (o : aop) (l : nat) : Prop :=
  match o with
  | AUpdate d _ => holds d l
  | APut l' _ => l' = l
  | _ => False
  end.

(** the last assignment to a name in the file *)
Fixpoint assigned (file : list (string * fx)) (k : string) : option fx :=
  match file with
  | [] => None
  | (k', e) :: rest => match assigned rest k with
                       | Some e' => Some e'
                       | None => if String.eqb k k' then Some e else None
                       end
  end.

(** ---- example: def f(xs, n) appends to xs; the config file says xs = [1], n = 5, ys = shared ---- *)
Definition ax_file : list (string * fx) :=
  [("xs"%string, FxList [VInt 1]); ("n"%string, FxVal (VInt 5)); ("ys"%string, FxName 0)].
Definition ax_params : list string := ["xs"; "n"]%string.
Definition ax_body (args : dict pyval) : list (string * list pyval) :=
  match dget "xs" args with
  | Some (VList c) => [("xs"%string, (c ++ [VInt 9])%list)]
  | _ => []
  end.
Definition ax_heap : heap := [[VInt 7]; [VInt 2]].

(** the states that calls lead to after the manager was loaded *)
Definition reached file params body (s : hst) : Prop :=
  exists h ops, file_ok h file /\ calls_ok file params body ops (h_load file h)
    /\ s = h_steps file params body ops (h_load file h).
