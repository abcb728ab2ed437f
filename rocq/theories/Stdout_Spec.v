(** Specification vocabulary for C34. *)
From Verif Require Import Stdout_Model.
Local Open Scope list_scope.

Fixpoint layered (n : nat) (o : stream) : stream := match n with O => o | S n => Logged (layered n o) end.

(** the code never assigns sys.stdout itself *)
Fixpoint hands_off (c : ucode) : bool :=
  match c with
  | UReplace _ => false
  | URun _ _ _ items => forallb (forallb hands_off) items
  | _ => true
  end.

(** In sequence, up to the first exception. *)
Fixpoint total (l : list (nat * res unit)) : nat * res unit :=
  match l with
  | [] => (0, Ok tt)
  | (n, Raise e) :: _ => (n, Raise e)
  | (n, Ok _) :: rest => let '(k, r) := total rest in (n + k, r)
  end.

(** The number of layers left behind, and how the code ends: a run with logging that ends normally leaves nothing, whatever
    happened in it; one that raises leaves one layer on top of those its items left. *)
Fixpoint effect (c : ucode) : nat * res unit :=
  match c with
  | UWrite _ | UReplace _ => (0, Ok tt)
  | URaise e => (0, Raise e)
  | URun log catch m items =>
      let item_effect (item : list ucode) :=
        let '(n, r) := total (map effect item) in (n, match m with Forced => swallow r | _ => r end) in
      let '(n, r) := total (map item_effect items) in
      let r := match m with Pdb => swallow r | _ => r end in
      let left := if log then match r with Ok _ => 0 | Raise _ => S n end else n in
      (left, if catch then Ok tt else r)
  end.

(** code as a whole *)
Definition ublock (l : list ucode) : M sst unit := iterM urun l.

(** everything written, including nested runs, in order, up to exceptions; [None] marks a newline alone *)
Definition wrote (msgs : list string) : list string := filter (fun m => negb (String.eqb m (String "010" ""))) msgs.
