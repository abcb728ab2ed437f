(** Model of running with the log_stdout option: pyfileconf/logger/bind_stdout.py and the end of PipelineManager.run,
    pyfileconf/main.py:156-160, with the three ways of running (main.py:199-267).

    What the logger writes itself does not go through sys.stdout: its stream handler keeps the stream that was sys.stdout
    when the library was imported (logger.py:24). *)
From Verif Require Export Py_Exn.
Local Open Scope string_scope.
Local Open Scope list_scope.

(** sys.stdout: a stream of the program, or a StdoutLogger with the stream it replaced (bind_stdout.py:15-27) *)
Inductive stream : Type := Plain (n : nat) | Logged (terminal : stream).

(** [out]: sys.stdout. [records]: messages given to logger.info. [written]: what was written to streams of the program. *)
Record sst : Type := SS { out : stream; records : list string; written : list (nat * string) }.

Definition with_out (s : sst) (o : stream) : sst := SS o (records s) (written s).

Definition newline : string := String (Ascii.ascii_of_nat 10) "".

(** [sys.stdout.write(message)]; StdoutLogger.write, bind_stdout.py:19-21 *)
Definition write (s : sst) (message : string) : sst :=
  match out s with
  | Plain n => SS (out s) (records s) (written s ++ [(n, message)])
  | Logged _ => if String.eqb message newline then s else SS (out s) (records s ++ [message]) (written s)
  end.

Inductive mode : Type := Normal | Forced | Pdb.

(** What user code does, as far as it matters here: write, put another stream in place, raise, and run items of a manager,
    with the value log_stdout has then, the way of running, and the code of the items. [URun _ true _ _]: it catches
    exceptions of that call. *)
Inductive ucode : Type :=
| UWrite (message : string)
| UReplace (n : nat)
| URaise (e : exn)
| URun (log_stdout : bool) (catch : bool) (m : mode) (items : list (list ucode)).

(** exceptions leaving _try_except_run_func_except_user_interrupts, main.py:636-673 *)
Definition swallow (r : res unit) : res unit :=
  match r with
  | Raise e => if user_interrupt e then Raise SystemExit else Ok tt
  | Ok _ => Ok tt
  end.

Fixpoint urun (c : ucode) (s : sst) {struct c} : sst * res unit :=
  let block := fix block (l : list ucode) (s : sst) : sst * res unit :=
    match l with
    | [] => (s, Ok tt)
    | c :: rest => match urun c s with
                   | (s', Ok _) => block rest s'
                   | (s', Raise e) => (s', Raise e)
                   end
    end in
  match c with
  | UWrite msg => (write s msg, Ok tt)
  | UReplace n => (with_out s (Plain n), Ok tt)
  | URaise e => (s, Raise e)
  | URun log catch m items =>
      let each := match m with Forced => swallow | _ => fun r => r end in
      let whole := match m with Pdb => swallow | _ => fun r => r end in
      let run_all := fix run_all (l : list (list ucode)) (s : sst) : sst * res unit :=
        match l with
        | [] => (s, Ok tt)
        | item :: rest => let '(s', r) := block item s in
                          match each r with
                          | Ok _ => run_all rest s'
                          | Raise e => (s', Raise e)
                          end
        end in
      let '(s', r) :=
        if log then
          let '(s1, r1) := run_all items (with_out s (Logged (out s))) in
          match whole r1 with
          | Ok _ => (with_out s1 (out s), Ok tt)       (* after the yield, bind_stdout.py:12 *)
          | Raise e => (s1, Raise e)                   (* the generator is left at the yield *)
          end
        else let '(s1, r1) := run_all items s in (s1, whole r1) in
      (s', if catch then Ok tt else r)
  end.
