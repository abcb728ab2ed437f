(** Statements about signatures: what Python does in a call, and what a name in the source stands for. *)
From Verif Require Export FuncArgs_Model PySource_Spec.
Local Open Scope string_scope.
Local Open Scope list_scope.

(* ------------------------------------------------------------------ *)
(** * Calls *)

Section Sig.
Context {V : Type}.

(** the parameters with their defaults: the defaults belong to the last ones *)
Definition positional (s : sig V) : list (string * option V) :=
  let names := s_posonly s ++ s_args s in
  combine names (repeat None (length names - length (s_defaults s)) ++ map Some (s_defaults s)).
Definition params (s : sig V) : list (string * option V) := positional s ++ s_kwonly s.
(** Python accepts no other signatures *)
Definition sig_ok (s : sig V) : Prop :=
  length (s_defaults s) <= length (s_posonly s ++ s_args s) /\ NoDup (s_posonly s ++ s_args s ++ map fst (s_kwonly s)).

(** What Python does when a function is called: the parameters with their values, and what goes to [*args] and [**kwargs]. *)
Record bound : Type := Bound { b_params : dict V; b_args : list V; b_kwargs : dict V }.
Fixpoint fill (given : dict V) (l : list (string * option V)) : res (dict V) :=
  match l with
  | [] => Ok []
  | (x, d) :: l' => match (match dget x given with Some v => Some v | None => d end) with
                    | None => Raise TypeError
                    | Some v => match fill given l' with Ok r => Ok ((x, v) :: r) | Raise e => Raise e end
                    end
  end.
Definition by_name (s : sig V) (k : string) : bool := smem k (s_args s ++ map fst (s_kwonly s)).
Definition call (s : sig V) (pos : list V) (kw : dict V) : res bound :=
  let names := s_posonly s ++ s_args s in
  let here := combine names pos in
  let extra_pos := skipn (length names) pos in
  let named := dfilter (by_name s) kw in
  let extra := dfilter (fun k => negb (by_name s k)) kw in
  if (match extra_pos with [] => false | _ => negb (s_varargs s) end) ||
     (match extra with [] => false | _ => negb (s_varkw s) end) ||
     existsb (fun k => dmem k here) (dkeys named)
  then Raise TypeError
  else match fill (here ++ named) (params s) with
       | Ok b => Ok (Bound b extra_pos extra)
       | Raise e => Raise e
       end.

(** the keyword-only parameters the library sees: all if one of them has a default, none otherwise *)
Definition has_default (q : string * option V) : bool := match snd q with Some _ => true | None => false end.
Definition seen_kwonly (s : sig V) : list (string * option V) := if existsb has_default (s_kwonly s) then s_kwonly s else [].
Definition seen (s : sig V) : list (string * option V) := positional s ++ seen_kwonly s.
(** there are none, or one of them has a default *)
Definition visible (s : sig V) : Prop := s_kwonly s = [] \/ exists y v, In (y, Some v) (s_kwonly s).
End Sig.
Arguments bound : clear implicits.

(** a signature in the source as a signature at run time, if [ev] evaluates the defaults *)
Definition sig_of {V} (ev : expr -> V) (a : arguments) : sig V :=
  Sig (map arg_name (a_posonly a)) (map arg_name (a_args a)) (map ev (a_defaults a)) (a_vararg a)
      (map (fun q => (arg_name (fst q), match snd q with Some e => Some (ev e) | None => None end)) (a_kwonly a)) (a_kwarg a).

(* ------------------------------------------------------------------ *)
(** * Imports for the defaults and annotations *)

(** annotations that can be read, with the names in them *)
Inductive annotated : expr -> list string -> Prop :=
| ann_name n : annotated (Name n) [n]
| ann_attr n a : annotated (Attr (Name n) a) [n]
| ann_str s : annotated (Str s) [s]
| ann_sub e i l l' : annotated e l -> annotated i l' -> annotated (Sub e i) (l ++ l')
| ann_elts l ls : Forall2 annotated l ls -> annotated (Elts l) (concat ls).

(** the names in an expression, from left to right; those of attributes and keywords and those in strings do not count *)
Inductive named : expr -> list string -> Prop :=
| named_name n : named (Name n) [n]
| named_attr e a l : named e l -> named (Attr e a) l
| named_sub e i l l' : named e l -> named i l' -> named (Sub e i) (l ++ l')
| named_elts l ls : Forall2 named l ls -> named (Elts l) (concat ls)
| named_str s : named (Str s) []
| named_other label l ls : Forall2 named l ls -> named (Other label l) (concat ls).

Section Need.
Variable is_builtin_type : string -> bool.
(** the names a signature needs: those in defaults, and those in annotations except the builtin types *)
Definition all_args (a : arguments) : list arg := a_args a ++ map fst (a_kwonly a).
Definition needs (a : arguments) (n : string) : Prop :=
  (exists e l, In e (a_defaults a) /\ named e l /\ In n l) \/
  (exists x e l, In (x, Some e) (a_kwonly a) /\ named e l /\ In n l) \/
  (exists x e l, In x (all_args a) /\ arg_ann x = Some e /\ annotated (strip_quotes e) l /\ In n l /\ is_builtin_type n = false).
(** signatures that can be read *)
Definition plain (a : arguments) : Prop :=
  length (a_defaults a) <= length (a_args a) /\ (forall x, ~ In (x, None) (a_kwonly a)) /\
  forall x e, In x (all_args a) -> arg_ann x = Some e -> exists l, annotated (strip_quotes e) l.
Definition args_ok (a : arguments) : Prop := NoDup (map arg_name (a_posonly a) ++ map arg_name (all_args a)).
End Need.

(** a set gives each of its elements once, in some order *)
Definition set_order (set_list : list string -> list string) : Prop :=
  forall l, NoDup (set_list l) /\ forall x, In x (set_list l) <-> In x l.

(* ------------------------------------------------------------------ *)
(** * What a name stands for *)

(** The definitions of a name in a statement: functions, and the functions called __init__ of classes; also inside other
    statements, but not inside functions and other classes. *)
Inductive defines (name : string) : stmt -> string * arguments -> Prop :=
| defines_function a : defines name (SDef name a) (name, a)
| defines_class body s d : In s body -> defines "__init__" s d -> defines name (SClass name body) d
| defines_block body s d : In s body -> defines name s d -> defines name (SBlock body) d.

(** [name] in the module [m] is the function or class with this definition: its only definition is there, or it is not defined
    there but imported from where it stands for it *)
Inductive stands_for (file_of : string -> res source) : string -> string -> string -> string * arguments -> Prop :=
| stands_here m name f d : file_of m = Ok f -> flat_map (defs_in name) (src_body f) = [d] -> stands_for file_of m name m d
| stands_there m name f m' name' m2 d : file_of m = Ok f -> flat_map (defs_in name) (src_body f) = [] ->
    bound_to (src_imports f) name = Some (m', Some name') -> stands_for file_of m' name' m2 d -> stands_for file_of m name m2 d.

(** the name is bound by the statements in one way only and is not hidden behind an [as] (C48) *)
Definition clear_for (l : list imp) (n : string) : Prop :=
  is_name n = true /\ (forall i, In i l -> exists al, says i al /\ one_way al) /\ (forall i, In i l -> ~ hides i n) /\
  (forall b c, In b (flat_map bindings l) -> In c (flat_map bindings l) -> fst b = n -> fst c = n -> b = c).
Definition clear_files (file_of : string -> res source) : Prop :=
  forall m f n t, file_of m = Ok f -> bound_to (src_imports f) n = Some t -> clear_for (src_imports f) n.

(** the statement makes [n] stand for [x] of the module [m] *)
Definition imports_as (j : imp) (n m x : string) : Prop :=
  (exists r, j = ModImp [m] r \/ exists os, j = ObjImp os m r) /\ (if smem n (map snd (imp_renames j)) then reverse_name (imp_renames j) n else n) = x.

(** the arguments of a definition (without the first one of __init__) and the imports they need *)
Definition read_def (set_list : list string -> list string) (is_builtin_type : string -> bool) (f : source) (m : string) (d : string * arguments) : res (arguments * list imp) :=
  match (if String.eqb (fst d) "__init__" then without_first (snd d) else Ok (snd d)) with
  | Raise e => Raise e
  | Ok a => match arg_imports set_list is_builtin_type a (src_imports f) (src_assigns f) m with Raise e => Raise e | Ok l => Ok (a, l) end
  end.

(* ------------------------------------------------------------------ *)
(** * Examples *)

(** def f(a, b=1, *, c, d=2), def g( *, c), def h(p, /, q=1), def k(a, **kw), def K.__init__(self, name, n=3),
    def L.__init__(this, name), def M.__init__(self, title); numbers are values, 0 is None *)
Definition sig_f : sig nat := Sig [] ["a"; "b"] [1] false [("c", None); ("d", Some 2)] false.
Definition sig_g : sig nat := Sig [] [] [] false [("c", None)] false.
Definition sig_h : sig nat := Sig ["p"] ["q"] [1] false [] false.
Definition sig_h2 : sig nat := Sig ["p"] ["q"] [5; 1] false [] true.
Definition sig_k : sig nat := Sig [] ["a"] [] false [] true.
Definition sig_K : sig nat := Sig [] ["self"; "name"; "n"] [3] false [] false.
Definition sig_L : sig nat := Sig [] ["this"; "name"] [] false [] false.
Definition sig_M : sig nat := Sig [] ["self"; "title"] [] false [] false.
Definition sig_N : sig nat := Sig [] ["self"; "name"] [0; 4] false [] false.

Definition a_ (n : string) : arg := Arg n None.
Definition ann (n : string) (e : expr) : arg := Arg n (Some e).
Definition one_arg (x : arg) : arguments := Args [] [x] [] false [] false.
Definition one_default (e : expr) : arguments := Args [] [a_ "x"] [e] false [] false.
(** the names without duplicates, in the order of their last occurrences *)
Definition ex_set : list string -> list string := nodup string_dec.
Definition ex_builtin (n : string) : bool := smem n ["int"; "str"; "float"; "bool"; "list"; "dict"].

(** from typing import List
    from lib.tools import Tool as T, helper
    SIZE = 3
    def f(x: List[int], y: T = helper(1)) -> ... *)
Definition ex_imports : list imp := [ObjImp ["List"] "typing" []; ObjImp ["Tool"; "helper"] "lib.tools" [("Tool", "T")]].
Definition ex_assigns : list asgn := [Asgn (TgName "SIZE") None (Some [TWord "3"])].
Definition ex_args : arguments :=
  Args [] [ann "x" (Sub (Name "List") (Name "int")); ann "y" (Name "T")] [Other "Call" [Name "helper"; Other "1" []]] false [] false.

(** the package [pkg] re-exports what its modules define *)
Definition ex_files (m : string) : res source :=
  if String.eqb m "pkg" then Ok (Source [] [ObjImp ["run"] "pkg.inner" [("run", "go")]; ObjImp ["K"; "D"] "pkg.inner" []] [])
  else if String.eqb m "pkg.inner" then Ok (Source
    [SDef "run" ex_args; SClass "K" [SDef "__init__" (Args [] [a_ "self"; a_ "n"] [ast_none] false [] false); SDef "other" (one_arg (a_ "self"))]; SClass "D" [];
     SBlock [SDef "alt" (one_arg (a_ "x")); SDef "alt" (one_arg (a_ "y"))]; SClass "P" [SDef "__init__" (Args [a_ "self"] [a_ "n"] [] false [] false)];
     SBlock [SDef "nested" (one_arg (a_ "x"))]] ex_imports ex_assigns)
  else if String.eqb m "left" then Ok (Source [] [ObjImp ["f"] "right" []] [])
  else if String.eqb m "right" then Ok (Source [] [ObjImp ["f"] "left" []] [])
  else Raise (LibExn "ImportError").
