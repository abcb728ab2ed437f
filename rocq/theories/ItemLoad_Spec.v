(** Statements about the items of the pipeline dict: what Python makes of the expressions in it. *)
From Verif Require Export ItemLoad_Model FuncArgs_Spec.
Local Open Scope string_scope.
Local Open Scope list_scope.

Section Spec.
Context {obj : Type}.
Variable import_module : string -> res obj.
Variable getattr : obj -> string -> res obj.

(** [from m import x]: the attribute or else the submodule *)
Definition import_from (m x : string) : res obj :=
  match import_module m with
  | Raise e => Raise e
  | Ok M => match getattr M x with
            | Raise AttributeError => import_module (m ++ "." ++ x)%string
            | r => r
            end
  end.
(** the value of a name after the imports *)
Definition env (l : list imp) (n : string) : res obj :=
  match bound_to l n with
  | None => Raise (LibExn "NameError")
  | Some (m, Some x) => import_from m x
  | Some (m, None) => import_module m
  end.
(** the value of an expression; [other]: of those that are neither names nor attributes *)
Fixpoint evaluates (other : expr -> res obj) (l : list imp) (e : expr) : res obj :=
  match e with
  | Name n => env l n
  | Attr e a => match evaluates other l e with Ok o => getattr o a | Raise x => Raise x end
  | e => other e
  end.

(** The modules do what their files say, as far as the functions and classes of interest go: a name with one definition is this
    function or class, and a name without definition that is imported is what is imported. *)
Definition as_written (file_of : string -> res source) (made : string -> string -> obj) : Prop :=
  forall m f, file_of m = Ok f -> exists M, import_module m = Ok M /\
    (forall name d, flat_map (defs_in name) (src_body f) = [d] -> getattr M name = Ok (made m name)) /\
    (forall name m' x M' o, flat_map (defs_in name) (src_body f) = [] -> bound_to (src_imports f) name = Some (m', Some x) ->
       import_module m' = Ok M' -> getattr M' x = Ok o -> getattr M name = Ok o).
End Spec.

(** [name] in the module [m] is defined as [name2] in the module [m2] *)
Inductive leads_to (file_of : string -> res source) : string -> string -> string -> string -> string * arguments -> Prop :=
| leads_here m name f d : file_of m = Ok f -> flat_map (defs_in name) (src_body f) = [d] -> leads_to file_of m name m name d
| leads_there m name f m' name' m2 name2 d : file_of m = Ok f -> flat_map (defs_in name) (src_body f) = [] ->
    bound_to (src_imports f) name = Some (m', Some name') -> leads_to file_of m' name' m2 name2 d -> leads_to file_of m name m2 name2 d.

(** What has been read of a view: sequences of accesses. *)
Inductive access : Type := AName | AOutput | APublic (accept_output : bool).
Definition read_access (e : expr) (a : access) (c : names_cache) : res (option string) * names_cache :=
  match a with AName => get_name e c | AOutput => output_name e c | APublic b => public_name b e c end.
Fixpoint after (e : expr) (l : list access) (c : names_cache) : names_cache :=
  match l with [] => c | a :: l' => after e l' (snd (read_access e a c)) end.

(** DataPipeline(args, name=s, others) *)
Definition data_pipeline (args : list expr) (before : list (string * expr)) (s : string) (rest : list (string * expr)) : expr :=
  Other "Call" (Name "DataPipeline" :: args ++ map (fun q => keyword (fst q) (snd q)) before ++ keyword "name" (Str s) :: map (fun q => keyword (fst q) (snd q)) rest).

(* ------------------------------------------------------------------ *)
(** * An example *)

(** modules and their attributes *)
Inductive thing : Type := AModule (n : string) | AFunction (n : string).
Definition il_import (m : string) : res thing :=
  if smem m ["pkg"; "pkg.inner"; "pkg.sub"; "c"] then Ok (AModule m) else Raise (LibExn "ModuleNotFoundError").
Definition il_getattr (o : thing) (a : string) : res thing :=
  match o with
  | AModule "pkg" => if String.eqb a "go" then Ok (AFunction "run") else if String.eqb a "inner" then Ok (AModule "pkg.inner") else Raise AttributeError
  | AModule "pkg.inner" => if String.eqb a "run" then Ok (AFunction "run") else if String.eqb a "tool" then Ok (AModule "c") else Raise AttributeError
  | AModule "c" => if String.eqb a "f" then Ok (AFunction "f") else if String.eqb a "c" then Ok (AFunction "c") else Raise AttributeError
  | _ => Raise AttributeError
  end.
Definition il_imports : list imp := [ObjImp ["go"] "pkg" [("go", "start")]; ObjImp ["tool"] "pkg.inner" []; ObjImp ["sub"] "pkg" []; ModImp ["c"] []; ModImp ["pkg.inner"] []].
Definition il_load : expr -> res thing := load_item il_import il_getattr il_imports.
Definition il_files (m : string) : res source :=
  if String.eqb m "pkg" then Ok (Source [] [ObjImp ["run"] "pkg.inner" [("run", "go")]] [])
  else if String.eqb m "pkg.inner" then Ok (Source [SDef "run" (one_arg (a_ "x"))] [] [])
  else Raise (LibExn "ImportError").
Definition il_pipe : expr := data_pipeline [Elts []] [] "clean" [].
