(** Model of how the array of --json gets to standard output:
    libff/console.py:86-106 (JsonConsole), libff/main.py:182-191, 257-304 and
    libff/processing.py:342-352, with the processes that are forked between the
    opening bracket and the first record.  Below it CPython's buffer layers as in
    PrintModel; the texts are ASCII.  Simplifications: --profile; sys.stdout is
    not closed by others. *)
From Coq Require Import List NArith Bool.
From Verif Require Import Py PrintModel.
Import ListNotations.

(** What the main process does: something to sys.stdout, or os.fork() *)
Inductive deed := Do (o : op) | Fork.
Definition put (s : str) : deed := Do (Write (has_break s) s).
(** print(s, end=e) *)
Definition print_deeds (s e : str) : list deed := [put s; put e].
(** console.py:96-102; json.dump writes the pieces of the text one by one.  The
    flag is print_comma. *)
Definition record_deeds (print_comma : bool) (pieces : list str) : list deed :=
  (if print_comma then print_deeds ($",") [] else []) ++ map put pieces.
(** processing.py:348-352 *)
Fixpoint records_deeds (print_comma : bool) (records : list (list str)) : list deed :=
  match records with
  | [] => []
  | r :: records => record_deeds print_comma r ++ records_deeds true records
  end.
Section Start.
  (** Whether multiprocessing flushes sys.stdout before it forks, as
      popen_fork.Popen.__init__ does *)
  Variable flushes : bool.
  (** walk.py:65-74: the processes are started one after the other. *)
  Fixpoint start_deeds (workers : nat) : list deed :=
    match workers with
    | O => []
    | S workers => (if flushes then [Do Flush] else []) ++ Fork :: start_deeds workers
    end.
  (** console.py:93 when the processing is set up, main.py:270-276, console.py:105
      in close, and what the interpreter does at its end *)
  Definition main_deeds (workers : nat) (records : list (list str)) : list deed :=
    print_deeds ($"[") [] ++ start_deeds workers ++ records_deeds false records ++ print_deeds ($"]") [10%N] ++ [Do Flush].
End Start.

(** The main process: its buffer, the system calls still to make, what it has to
    do; whether an exception was raised *)
Record main := Main { m_buffer : str; m_calls : list str; m_deeds : list deed; m_failed : bool }.
Record world := World { w_main : main; w_workers : list process; w_out : str }.

Section Run.
  Variable size : nat.
  Variable tty : bool.
  Inductive move : world -> world -> Prop :=
  | move_do b o l f ws b' c w : act size tty b o ws b' ->
      move (World (Main b [] (Do o :: l) f) c w) (World (Main b' ws l f) c w)
  | move_call b x xs l f c w : move (World (Main b (x :: xs) l f) c w) (World (Main b xs l f) c (w ++ x))
  (** A process has a copy of the buffer.  It prints nothing, but flushes at its
      end (process.py, _bootstrap). *)
  | move_fork b l f c w : move (World (Main b [] (Fork :: l) f) c w) (World (Main b [] l f) (c ++ [Process b [] [Flush]]) w)
  (** An exception or interrupt: the interpreter ends and flushes. *)
  | move_fail b xs l f c w : move (World (Main b xs l f) c w) (World (Main b xs [Do Flush] true) c w)
  | move_worker m c w c' w' : step size tty (State c w) (State c' w') -> move (World m c w) (World m c' w').
  Inductive moves : world -> world -> Prop :=
  | moves_refl x : moves x x
  | moves_more x y z : moves x y -> move y z -> moves x z.
End Run.
Definition launch (deeds : list deed) : world := World (Main [] [] deeds false) [] [].
