(** Specification vocabulary for C21-C25. *)
From Verif Require Import Runner_Model ConfigTree_Spec Runner_Spec.
Local Open Scope list_scope.

(** The calls [objs], made one after the other after the calls [before], returned the values [vs]. *)
Inductive called (u : user) : list (string * lobj) -> list (string * lobj) -> list pyval -> Prop :=
| CalledNil before : called u before [] []
| CalledCons before path o v rest vs :
    u_call u before path o = Ok v -> called u (before ++ [(path, o)]) rest vs ->
    called u before ((path, o) :: rest) (v :: vs).

(** a result flattened: the values of all functions in it, in order *)
Fixpoint flatten (r : result) : list pyval :=
  match r with
  | RVal v => [v]
  | RList l => (fix go (l : list result) : list pyval := match l with [] => [] | r :: rest => flatten r ++ go rest end) l
  end.

(** What running a section amounts to: functions to call, or a point where it must raise. *)
Inductive step : Type := SCall (path : string) | SFail.

Fixpoint section_plan (path : string) (c : coll) {struct c} : list step :=
  match c with
  | Coll _ entries =>
      (fix go (l : list entry) : list step :=
         match l with
         | [] => []
         | EItem n (TFunc _) :: rest => SCall (path ++ "." ++ n)%string :: go rest
         | EItem _ _ :: rest => SFail :: go rest
         | EColl c' :: rest => section_plan (path ++ "." ++ coll_name c')%string c' ++ go rest
         end) entries
  end.

(** the functions called before the first failing point, and whether there is such a point *)
Fixpoint cut (l : list step) : list string * bool :=
  match l with
  | [] => ([], false)
  | SFail :: _ => ([], true)
  | SCall p :: rest => let '(ps, f) := cut rest in (p :: ps, f)
  end.

(** Outcome of a run that should call the functions at [plan] in order and then raise if [fails]. *)
Definition ran (u : user) (plan : list string) (fails : bool) (s s' : rs) (o : res result) : Prop :=
  exists objs, r_calls s' = r_calls s ++ objs /\
    (forall p ob, In (p, ob) objs -> dget p (r_loaded s') = Some ob) /\
    match o with
    | Ok r => fails = false /\ map fst objs = plan /\ called u (r_calls s) objs (flatten r)
    | Raise e =>
        (exists done p ob rest vs, objs = done ++ [(p, ob)] /\ plan = map fst done ++ p :: rest /\
           called u (r_calls s) done vs /\ u_call u (r_calls s ++ done) p ob = Raise e) \/
        (fails = true /\ map fst objs = plan /\ exists vs, called u (r_calls s) objs vs)
    end.

(** the nesting of a result follows the section *)
Fixpoint shaped (c : coll) (r : result) {struct c} : Prop :=
  match c with
  | Coll _ entries =>
      match r with
      | RVal _ => False
      | RList l =>
          (fix go (es : list entry) (l : list result) : Prop :=
             match es, l with
             | [], [] => True
             | EItem _ _ :: es', RVal _ :: l' => go es' l'
             | EColl c' :: es', r' :: l' => shaped c' r' /\ go es' l'
             | _, _ => False
             end) entries l
      end
  end.

(** Names in a section tree that make every entry reachable by its path: distinct per section, without dots, and none that
    the collection objects use themselves. *)
Fixpoint names_ok (c : coll) : Prop :=
  match c with
  | Coll _ entries =>
      NoDup (map entry_name entries) /\
      (fix go (l : list entry) : Prop :=
         match l with
         | [] => True
         | e :: rest => has_char dot (entry_name e) = false /\ mem (entry_name e) coll_reserved = false /\
                        match e with EColl c' => names_ok c' | EItem _ _ => True end /\ go rest
         end) entries
  end.

(** every path has a readable config *)
Definition configured (s : rs) (paths : list string) : Prop :=
  forall p, In p paths -> own_values (r_cms s) (path_parts p) <> None.

(** the paths of all functions and classes below a section, at any level *)
Fixpoint item_paths (path : string) (c : coll) {struct c} : list string :=
  match c with
  | Coll _ entries =>
      (fix go (l : list entry) : list string :=
         match l with
         | [] => []
         | EItem n _ :: rest => (path ++ "." ++ n)%string :: go rest
         | EColl c' :: rest => item_paths (path ++ "." ++ coll_name c')%string c' ++ go rest
         end) entries
  end.

(** A list of functions run with force_continue: the paths and outcomes, in order, after the calls [before]. Interrupts
    are not outcomes: they end the program. *)
Definition interrupt (e : exn) : bool := match e with KeyboardInterrupt | SystemExit => true | LibExn n => String.eqb n "BdbQuit" | _ => false end.

Inductive tried (u : user) : list (string * lobj) -> list (string * lobj) -> list (res pyval) -> Prop :=
| TriedNil before : tried u before [] []
| TriedCons before path o rest outs :
    tried u (before ++ [(path, o)]) rest outs ->
    tried u before ((path, o) :: rest) (u_call u before path o :: outs).

(** Several paths run one after the other, stopping at the first failure *)
Inductive runs (its : items) (u : user) : list string -> rs -> rs -> res (list result) -> Prop :=
| RunsNil s : runs its u [] s s (Ok [])
| RunsFail p rest s s1 e : run_one its u p s = (s1, Raise e) -> runs its u (p :: rest) s s1 (Raise e)
| RunsOk p rest s s1 s2 r rs : run_one its u p s = (s1, Ok r) -> runs its u rest s1 s2 (Ok rs) ->
    runs its u (p :: rest) s s2 (Ok (r :: rs))
| RunsLater p rest s s1 s2 r e : run_one its u p s = (s1, Ok r) -> runs its u rest s1 s2 (Raise e) ->
    runs its u (p :: rest) s s2 (Raise e).

(** Several paths run one after the other, whatever their outcomes; only an interrupt stops ([true]). *)
Inductive forced (its : items) (u : user) : list string -> rs -> rs -> list (res result) -> bool -> Prop :=
| ForcedNil s : forced its u [] s s [] false
| ForcedStop p rest s s1 e : run_one its u p s = (s1, Raise e) -> interrupt e = true -> forced its u (p :: rest) s s1 [] true
| ForcedCons p rest s s1 s2 o os stop : run_one its u p s = (s1, o) -> (forall e, o = Raise e -> interrupt e = false) ->
    forced its u rest s1 s2 os stop -> forced its u (p :: rest) s s2 (o :: os) stop.

Fixpoint successes {A} (outs : list (res A)) : list A :=
  match outs with [] => [] | Ok v :: rest => v :: successes rest | Raise _ :: rest => successes rest end.
Fixpoint failures {A} (paths : list string) (outs : list (res A)) : list (string * exn) :=
  match paths, outs with
  | _ :: ps, Ok _ :: rest => failures ps rest
  | p :: ps, Raise e :: rest => (p, e) :: failures ps rest
  | _, _ => []
  end.

(** Getting a section: [g] shows the objects loaded for the entries of [c] *)
Fixpoint shows (loaded : dict lobj) (path : string) (c : coll) (g : got) {struct c} : Prop :=
  match c with
  | Coll _ entries =>
      if existsb is_coll entries then
        match g with
        | GDict d =>
            (fix go (es : list entry) (d : list (string * got)) : Prop :=
               match es, d with
               | [], [] => True
               | EColl c' :: es', (n, g') :: d' =>
                   n = coll_name c' /\ shows loaded (path ++ "." ++ coll_name c')%string c' g' /\ go es' d'
               | _, _ => False
               end) entries d
        | _ => False
        end
      else
        match g with
        | GList l =>
            (fix go (es : list entry) (l : list got) : Prop :=
               match es, l with
               | [], [] => True
               | EItem n _ :: es', GObj o :: l' => dget (path ++ "." ++ n)%string loaded = Some o /\ go es' l'
               | _, _ => False
               end) entries l
        | _ => False
        end
  end.

(** sections and items are never mixed, at any level *)
Fixpoint unmixed (c : coll) : Prop :=
  match c with
  | Coll _ entries =>
      (forallb is_coll entries = true \/ existsb is_coll entries = false) /\
      (fix go (l : list entry) : Prop :=
         match l with
         | [] => True
         | EColl c' :: rest => unmixed c' /\ go rest
         | EItem _ _ :: rest => go rest
         end) entries
  end.

(** all entries are functions or classes *)
Fixpoint all_callable (c : coll) : Prop :=
  match c with
  | Coll _ entries =>
      (fix go (l : list entry) : Prop :=
         match l with
         | [] => True
         | EColl c' :: rest => all_callable c' /\ go rest
         | EItem _ (TFunc _) :: rest | EItem _ (TClass _) :: rest => go rest
         | EItem _ _ :: rest => False
         end) entries
  end.
