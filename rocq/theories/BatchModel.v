(** Model of the calls that -X makes: /repo/libff/processing.py:355-392. *)
From Coq Require Import List NArith ZArith Bool.
From Verif Require Import Py.
Import ListNotations.

(** What subprocess.run does: the command's exit status, OSError with E2BIG,
    or another OSError *)
Inductive outcome := Exited (status : Z) | TooLong | Refused.

Section Batch.
  Context {A : Type}.
  (** args.exec_batch.render *)
  Variable render : list A -> res (list str).
  (** the operating system's answer to each attempt; the number counts the
      attempts *)
  Variable run : nat -> list str -> outcome.

  (** The calls that were made, with the results that each was for and its
      exit status, and whether the exit code was set to EX_SUBPROCESS. *)
  Record done := Done { calls : list (list A * list str * Z); bad_exit : bool; ended : res unit }.
  Definition called (entries : list A) (args : list str) (status : Z) (d : done) : done :=
    Done ((entries, args, status) :: calls d) (negb (Z.eqb status 0) || bad_exit d) (ended d).
  (** processing.py:368-389; [fuel] bounds the loop's turns. *)
  Fixpoint exec_batch (fuel n : nat) (entries remainder : list A) : done :=
    match entries with
    | [] => Done [] false (Ok tt)
    | _ :: _ =>
        match fuel with
        | O => Done [] false (Err OutOfFuel)
        | S fuel =>
            match render entries with
            | Err e => Done [] false (Err e)
            | Ok args =>
                match run n args with
                | Exited status => called entries args status (exec_batch fuel (S n) remainder [])
                | TooLong =>
                    let split := Nat.div2 (length entries) in
                    exec_batch fuel (S n) (firstn split entries) (skipn split entries ++ remainder)
                | Refused => Done [] false (Err SubprocessErr)
                end
            end
        end
    end.
  (** processing.py:361-363, 369; the loop ends before the fuel does
      (BatchProofs.v). *)
  Definition finalize (entries : list A) : done :=
    exec_batch ((length entries + 1) * (length entries + 1)) 0 entries [].
End Batch.
