(** Model of how the program ends, with or without an interrupt from the
    keyboard: libff/main.py:257-322 (Main.walk) and bin/ff:34, which starts Python
    with -O.  The search is the one of WalkModel. *)
From Coq Require Import List ZArith Bool.
From Verif Require Import Py WalkModel.
Import ListNotations.

(** What the parent of the program gets: an exit status, or the signal that has
    killed it *)
Inductive ending := Exit (status : Z) | BySignal (signal : Z).
Definition SIGINT : Z := 2.
Section Ending.
  Variable A : Type.
  Variable the_mode : mode.
  (** [debug] is __debug__, which is false with -O.  main.py:285-291: an interrupt
      stops the processes.  Without debug the exception is SystemExit with a text,
      which Python prints on stderr before it exits with status 1.  With debug it
      is KeyboardInterrupt itself, which nobody handles: Python ends by the signal.
      main.py:293-322: else the status tells how the search went.  None: the
      search has not ended.  BrokenPipeError is the subject of C131. *)
  Definition ends (debug fail : bool) (s : state A) : option ending :=
    match main_ s with
    | MInterrupted => Some (if debug then BySignal SIGINT else Exit 1)
    | MPassed | MStopped => Some (Exit (exit_status A the_mode fail s))
    | _ => None
    end.
End Ending.
