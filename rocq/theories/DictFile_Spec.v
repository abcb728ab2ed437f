(** Statements about dict files with any contents. *)
From Verif Require Export DictFile_Model.
Local Open Scope string_scope.
Local Open Scope list_scope.

(** the dict and list displays in an expression that are in no other *)
Fixpoint displays (e : ex) : list ex :=
  match e with
  | XDict _ | XList _ => [e]
  | XNode _ l => flat_map displays l
  | _ => []
  end.
Definition is_str_key (k : dkey) : bool := match k with KStr _ => true | _ => false end.
Definition key_str (k : dkey) : string := match k with KStr s => s | _ => "" end.
(** the keys of all dict displays that are converted are string literals *)
Fixpoint plain (e : ex) : bool :=
  match e with
  | XDict l => forallb (fun q => is_str_key (fst q) && plain (snd q)) l
  | XList l => forallb plain l
  | _ => true
  end.
(** no key of them is a constant other than a string *)
Fixpoint no_const (e : ex) : bool :=
  match e with
  | XDict l => forallb (fun q => match fst q with KConst _ => false | _ => true end && no_const (snd q)) l
  | XList l => forallb no_const l
  | _ => true
  end.
(** what is made of such an expression *)
Fixpoint pure (conv : bool) (e : ex) : cv :=
  match e with
  | XDict l => CDict (dict_of (map (fun q => (key_str (fst q), pure conv (snd q))) l))
  | XList l => CList (map (pure conv) l)
  | XStr s => if conv then CStr s else CNode e
  | _ => CNode e
  end.

(** the assignments in a file, in blocks too: targets, annotation, value *)
Definition assigned (s : stm) : list (list (option string) * option ex * option ex) :=
  match s with SAsg ts e => [(ts, None, Some e)] | SAnn t ann e => [([t], Some ann, e)] | _ => [] end.
Definition assignments (p : list stm) : list (list (option string) * option ex * option ex) := flat_map assigned (flat_map flat p).
Definition to_a_name (a : list (option string) * option ex * option ex) : bool :=
  match fst (fst a) with [Some _] => true | _ => false end.
Definition to_name (n : string) (a : list (option string) * option ex * option ex) : bool :=
  match fst (fst a) with [Some x] => String.eqb x n | _ => false end.
Definition parts (a : list (option string) * option ex * option ex) : list ex :=
  match snd (fst a) with Some x => [x] | None => [] end ++ match snd a with Some x => [x] | None => [] end.
(** it has exactly one target, whatever that is *)
Definition single (a : list (option string) * option ex * option ex) : bool := match fst (fst a) with [_] => true | _ => false end.
Definition good_imports (p : list stm) : Prop := forall e, ~ In (SImp (Some e)) (flat_map flat p).
Definition dict_name (general : bool) : string := if general then "pipeline_dict" else "class_dict".

(* ------------------------------------------------------------------ *)
(** * What Python makes of it *)

Inductive val : Type := OStr (s : string) | OList (l : list val) | ODict (l : list (string * val)) | OObj (n : nat).
Definition env : Type := dict val.

Section Python.
(** what expressions that are no displays evaluate to ([None]: an exception), and keys *)
Variable other : env -> ex -> option val.
Variable key : env -> string -> option string.
(** what all other statements do *)
Variable act : env -> stm -> option env.

Definition stars (v : val) (acc : dict val) : option (dict val) := match v with ODict d => Some (dupdate acc d) | _ => None end.
Fixpoint eval (g : env) (e : ex) : option val :=
  match e with
  | XName x => dget x g
  | XStr s => Some (OStr s)
  | XDict l =>
      match (fix go (l : list (dkey * ex)) (acc : dict val) : option (dict val) :=
               match l with
               | [] => Some acc
               | (k, x) :: r =>
                   match eval g x with
                   | None => None
                   | Some v => match (match k with
                                      | KStr s => Some (dset s v acc)
                                      | KConst c | KExpr c => match key g c with Some s => Some (dset s v acc) | None => None end
                                      | KStars => stars v acc
                                      end) with
                               | Some acc' => go r acc'
                               | None => None
                               end
                   end
               end) l [] with
      | Some d => Some (ODict d)
      | None => None
      end
  | XList l =>
      match (fix go (l : list ex) : option (list val) :=
               match l with
               | [] => Some []
               | x :: r => match eval g x with
                           | None => None
                           | Some v => match go r with Some vs => Some (v :: vs) | None => None end
                           end
               end) l with
      | Some vs => Some (OList vs)
      | None => None
      end
  | XNode _ _ => other g e
  end.

(** what the dict that was read stands for, if its nodes are evaluated *)
Fixpoint denote (g : env) (v : cv) : option val :=
  match v with
  | CNode e => eval g e
  | CStr s => Some (OStr s)
  | CList l =>
      match (fix go (l : list cv) : option (list val) :=
               match l with
               | [] => Some []
               | x :: r => match denote g x with
                           | None => None
                           | Some v => match go r with Some vs => Some (v :: vs) | None => None end
                           end
               end) l with
      | Some vs => Some (OList vs)
      | None => None
      end
  | CDict l =>
      match (fix go (l : list (string * cv)) : option (dict val) :=
               match l with
               | [] => Some []
               | (k, x) :: r => match denote g x with
                                | None => None
                                | Some v => match go r with Some vs => Some ((k, v) :: vs) | None => None end
                                end
               end) l with
      | Some d => Some (ODict d)
      | None => None
      end
  end.

(** executing the file *)
Definition step (g : env) (s : stm) : option env :=
  match s with
  | SAsg [Some x] e | SAnn (Some x) _ (Some e) => match eval g e with Some v => Some (dset x v g) | None => None end
  | SAnn _ _ None => Some g
  | _ => act g s
  end.
Fixpoint runs (p : list stm) (g : env) : option env :=
  match p with
  | [] => Some g
  | s :: r => match step g s with Some g' => runs r g' | None => None end
  end.
End Python.

(* ------------------------------------------------------------------ *)
(** * Examples *)

(** [pipeline_dict = \{'a': \[f\], 'b': \{'c': \[g, 'h'\]\}\}] *)
Definition df_dict : ex := XDict [(KStr "a", XList [XName "f"]); (KStr "b", XDict [(KStr "c", XList [XName "g"; XStr "h"])])].
Definition df_file : list stm := [SImp None; SAsg [Some "x"] (XStr "1"); SAsg [Some "pipeline_dict"] df_dict].
Definition df_env : env := [("f", OObj 1); ("g", OObj 2)].
(** [+] of lists, a call of a function [extended] that adds an entry, and tuples *)
Definition df_other (g : env) (e : ex) : option val :=
  match e with
  | XNode l [XList [XName x]; XList [XName y]] => if String.eqb l "+" then match dget x g, dget y g with Some a, Some b => Some (OList [a; b]) | _, _ => None end else None
  | XNode l [XName n; XDict [(KStr k, XList [XName x])]] => if String.eqb l "call" && String.eqb n "extended" then match dget x g with Some a => Some (ODict [(k, OList [a]); ("more", OList [a])]) | None => None end else None
  | _ => Some (OObj 0)
  end.
Definition df_key (g : env) (c : string) : option string := Some c.
(** [pipeline_dict.update(more=\[f\])], and an if statement whose first branch is executed *)
Definition df_act (g : env) (s : stm) : option env :=
  match s with
  | SElse _ => match dget "pipeline_dict" g, dget "f" g with Some (ODict d), Some f => Some (dset "pipeline_dict" (ODict (dset "more" (OList [f]) d)) g) | _, _ => None end
  | SBlock _ (SAsg [Some x] (XList [XName y]) :: _) => match dget y g with Some v => Some (dset x (OList [v]) g) | None => None end
  | _ => Some g
  end.
Definition df_src (e : ex) : string := "...".
Definition df_view (v : pd) : res (string * thing) := match v with PName n => Ok (n, TFunc (Fn n [])) | _ => Raise ValueError end.
