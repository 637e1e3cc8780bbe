(** Model of what ff does when its output cannot be written: libff/console.py:
    _write_line (241-253), libff/processing.py:177-182 (BaseConsoleProcessing.process),
    344-348 (CollectiveConsoleProcessing.finalize), libff/walk.py:76-134
    (FilesystemWalker.loop) and 233-237, libff/main.py:257-322 (Main.walk), below
    it what CPython does with its buffer when a write fails and at the end of the
    interpreter.  Simplifications: no --exec, --profile
    and no interrupts; the chunks of lines are given, what they are is
    the subject of WalkModel; every line is printed by one write, what PrintModel
    says about longer ones does not matter here except for the size of the buffer. *)
From Coq Require Import List NArith ZArith Bool Arith.
From Verif Require Import Py.
Import ListNotations.

Definition line := str.
(** OSError: BrokenPipeError or another one, for example ENOSPC *)
Inductive failure := BrokenPipe | OtherOSError.

Section Pipe.
  (** What the write with this number does, counted over all processes *)
  Variable medium : nat -> option failure.
  (** The size of the buffer of sys.stdout *)
  Variable size : nat.

  (** BufferedWriter keeps what it could not write if it fits, otherwise it has
      tried to write it directly. *)
  Definition kept (l : line) : list line := if length l <=? size then [l] else [].

  (** * Results are printed by the main process (--sort, --limit) *)
  (** processing.py:347-348, console.py:241-253: the number of the next write, the
      lines written, the exception and the lines still in the buffer *)
  Fixpoint print_all (n : nat) (lines : list line) : nat * list line * option (failure * list line) :=
    match lines with
    | [] => (n, [], None)
    | l :: t =>
        match medium n with
        | Some e => (S n, [], Some (e, kept l))
        | None => let '(n, got, r) := print_all (S n) t in (n, l :: got, r)
        end
    end.
  (** What a process leaves behind: the lines written, the exit status, the number
      of tracebacks and messages on standard error *)
  Record outcome := Outcome { written : list line; status : Z; complaints : nat }.
  (** At the end of the interpreter sys.stdout is flushed.  If this fails there is
      a message and the exit status is 120 whatever it was before. *)
  Definition interpreter_ends (n : nat) (buffer : list line) (o : outcome) : outcome :=
    match buffer with
    | [] => o
    | _ => match medium n with
           | None => Outcome (written o ++ buffer) (status o) (complaints o)
           | Some _ => Outcome (written o) 120 (S (complaints o))
           end
    end.
  (** main.py:308-322 when no process has failed; finalize sets has_result first
      (processing.py:256-257) *)
  Definition walk_status (fail : bool) (lines : list line) : Z :=
    if fail && match lines with [] => true | _ => false end then 1 else 0.
  (** main.py:273-298: BrokenPipeError is caught, other exceptions are not handled
      by anybody. *)
  Definition collective (fail : bool) (lines : list line) : outcome :=
    let '(n, got, r) := print_all 0 lines in
    match r with
    | None => interpreter_ends n [] (Outcome got (walk_status fail lines) 0)
    | Some (BrokenPipe, buffer) => interpreter_ends n buffer (Outcome got (walk_status fail lines) 0)
    | Some (OtherOSError, buffer) => interpreter_ends n buffer (Outcome got 1 1)
    end.

  (** * --json and --count, which do not flush
      [calls] are the texts that get out of the full buffer while the records are
      printed, [last] is what is still in it when everything is printed.  [left]
      is what is in the buffer after a failed write, without what is printed later. *)
  (** console.py:104-105: after BrokenPipeError the closing bracket is printed
      nevertheless (main.py:293-298), into the buffer; after another exception
      close is not called. *)
  Definition json_array (fail : bool) (results calls : list line) (last left : line) : outcome :=
    let '(n, got, r) := print_all 0 calls in
    match r with
    | None => interpreter_ends n [last] (Outcome got (walk_status fail results) 0)
    | Some (BrokenPipe, _) => interpreter_ends n [left ++ $"]"] (Outcome got (walk_status fail results) 0)
    | Some (OtherOSError, _) => interpreter_ends n (match left with [] => [] | _ => [left] end) (Outcome got 1 1)
    end.
  (** processing.py:259-265, 319-336: the counts are printed in close, outside of
      the try statement. *)
  Definition counts (fail : bool) (results calls : list line) (last left : line) : outcome :=
    let '(n, got, r) := print_all 0 calls in
    match r with
    | None => interpreter_ends n [last] (Outcome got (walk_status fail results) 0)
    | Some _ => interpreter_ends n (match left with [] => [] | _ => [left] end) (Outcome got 1 1)
    end.

  (** * Results are printed by the processes *)
  (** A process has these lines of its chunk to print, or it has failed. *)
  Inductive worker := Prints (lines : list line) | Failed.
  Record state := State { queue : list (list line); workers : list worker; calls : nat; got : list line;
    exitcode : Z; stopping : bool; has_result : bool; tracebacks : nat }.
  Fixpoint update (i : nat) (w : worker) (l : list worker) : list worker :=
    match l, i with
    | [], _ => []
    | _ :: t, O => w :: t
    | x :: t, S i => x :: update i w t
    end.
  (** Process i takes a chunk, process i prints a line *)
  Inductive event := Take (i : nat) | Print (i : nat).
  Definition step (st : state) (ev : event) : option state :=
    match ev with
    | Take i =>
        (* walk.py:90-92; set_has_result: processing.py:178-179 *)
        match nth_error (workers st) i, queue st, stopping st with
        | Some (Prints []), c :: q, false =>
            Some (State q (update i (Prints c) (workers st)) (calls st) (got st) (exitcode st) false
                   (match c with [] => has_result st | _ => true end) (tracebacks st))
        | _, _, _ => None
        end
    | Print i =>
        match nth_error (workers st) i with
        | Some (Prints (l :: t)) =>
            match medium (calls st) with
            | None => Some (State (queue st) (update i (Prints t) (workers st)) (S (calls st)) (got st ++ [l])
                             (exitcode st) (stopping st) (has_result st) (tracebacks st))
            | Some _ =>
                (* walk.py:123-130; the exception is raised outside of the try
                   statement in process_entries.  At the end of the process sys.stdout
                   is flushed once more (multiprocessing/process.py, _bootstrap). *)
                let again := match kept l, medium (S (calls st)) with [_], None => [l] | _, _ => [] end in
                Some (State (queue st) (update i Failed (workers st)) (S (S (calls st))) (got st ++ again)
                       4 true (has_result st) (S (tracebacks st)))
            end
        | _ => None
        end
    end.
  Fixpoint run (st : state) (evs : list event) : option state :=
    match evs with
    | [] => Some st
    | ev :: evs => match step st ev with Some st => run st evs | None => None end
    end.
  Definition start (jobs : nat) (chunks : list (list line)) : state :=
    State chunks (repeat (Prints []) jobs) 0 [] 0 false false 0.
  Definition idle (w : worker) : bool := match w with Prints [] => true | _ => false end.
  (** The main process goes on if all processes wait for work that does not come,
      or if it has been stopped (context.py:118-130). *)
  Definition may_end (st : state) : bool :=
    stopping st || (match queue st with [] => true | _ => false end && forallb idle (workers st)).
  (** main.py:308-322: ProcessError, NoResultError (without message) or nothing *)
  Definition immediate (fail : bool) (st : state) : outcome :=
    if Z.eqb (exitcode st) 4 then Outcome (got st) 4 (S (tracebacks st))
    else if fail && negb (has_result st) then Outcome (got st) 1 (tracebacks st)
    else Outcome (got st) 0 (tracebacks st).
End Pipe.
