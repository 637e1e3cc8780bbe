(** Model of the search: /repo/libff/walk.py:76-242, the part of
    /repo/libff/context.py that the processes share, and the loops of the main
    process in /repo/libff/processing.py.

    The processes are one transition system; every interleaving of their steps
    is a run.  A step is what one process does between two operations on
    something shared, so a step of a worker is one scan of a directory, one
    test of an entry, one [put], one line of output or one command. *)
From Coq Require Import List NArith ZArith Bool.
From Verif Require Import Py.
Import ListNotations.

(** What os.scandir and stat show of an entry: the entry, whether it is a
    directory, and what a scan of it finds (libff/walk.py:135-180; entries
    that cannot be accessed are not among them).  Every directory is scanned
    at most once, so this makes sense also if the file system changes during
    the search. *)
Inductive node (A : Type) := Node (a : A) (is_dir : bool) (kids : list (node A)).
Arguments Node {A}.
Definition entry {A} (n : node A) : A := let (a, _, _) := n in a.
Definition is_dir {A} (n : node A) : bool := let (_, d, _) := n in d.
Definition kids {A} (n : node A) : list (node A) := let (_, _, l) := n in l.

(** What is put in the queue of the walker: libff/walk.py:219, 231 and
    libff/processing.py:197.  The parent of an Entries object is left out, it is
    used only for its start directory. *)
Inductive chunk A := CEntries (l : list (node A)) | CDirs (l : list (node A)) | CArgs (l : list A).
Arguments CEntries {A}. Arguments CDirs {A}. Arguments CArgs {A}.
(** Where a worker is in the code.  [dirs]: the rest of the loop
    libff/walk.py:111-112. *)
Inductive task A :=
| TDirs (dirs : list (node A))
  (** in the loop libff/walk.py:199-220 *)
| TEntries (entries search process dirs : list (node A))
  (** in the loop libff/walk.py:230-231, [search] is still to be put *)
| TPut (size : nat) (search process dirs : list (node A))
  (** in the loop libff/walk.py:233-237 *)
| TEmit (process dirs : list (node A))
  (** in a loop over the entries in [processing.process] *)
| TSend (entries process dirs : list (node A))
  (** in the loop libff/walk.py:118-119 *)
| TArgs (args : list A).
Arguments TDirs {A}. Arguments TEntries {A}. Arguments TPut {A}. Arguments TEmit {A}. Arguments TSend {A}. Arguments TArgs {A}.
(** What a step does to the shared state. *)
Inductive effect A := ENone | EPut (c : chunk A) | EFound | EPrint (a : A) | ESend (l : list A) | ERun (a : A).
Arguments ENone {A}. Arguments EPut {A}. Arguments EFound {A}. Arguments EPrint {A}. Arguments ESend {A}. Arguments ERun {A}.
(** The classes of libff/processing.py: ImmediateConsole, ImmediateExec; the
    others collect the entries in the main process. *)
Inductive mode := Console | Exec | Collect.

(** libff/walk.py:225-228.  The quotient is a float there, which is rounded only
    for more than 2^53 directories. *)
Definition chunk_size (jobs len : nat) : nat := Nat.min 100 (Nat.max 10 (len / jobs + 1)).
(** libff/walk.py:218 *)
Definition split_at (len : nat) : nat := len / 2 + 1.

Section Work.
  Variable A : Type.
  (** Excluder.test and Matcher.test; with an OSError or another exception *)
  Variable excluded matched : A -> res bool.
  (** Whether the fields to print, or those of the command, are available.
      KeyError skips the entry: libff/console.py:226-239,
      libff/processing.py:196-199 *)
  Variable rendered : A -> bool.
  Variable the_mode : mode.
  Variable jobs : nat.

  (** libff/walk.py:99-119.  An empty list has no first element. *)
  Definition start (c : chunk A) : res (task A) :=
    match c with
    | CEntries l => Ok (TEntries l [] [] [])
    | CDirs [] | CArgs [] => Err IndexErr
    | CDirs l => Ok (TDirs l)
    | CArgs l => Ok (TArgs l)
    end.
  (** What follows the loop libff/walk.py:199-220 *)
  Definition after_entries (search process dirs : list (node A)) : task A :=
    TPut (chunk_size jobs (length search)) search process dirs.
  (** One step; [split] tells whether half of the entries are to be given away
      (libff/walk.py:215-217: there are slow plugins and enough processes
      idle).  None: the worker is back in its main loop. *)
  Definition work (split : bool) (t : task A) : res (option (task A) * effect A) :=
    match t with
    | TDirs [] => Ok (None, ENone)
    (* libff/walk.py:182-188 *)
    | TDirs (d :: dirs) =>
        Ok (Some (match kids d with [] => TDirs dirs | l => TEntries l [] [] dirs end), ENone)
    | TEntries [] search process dirs => Ok (Some (after_entries search process dirs), ENone)
    (* libff/walk.py:200-223 *)
    | TEntries (e :: entries) search process dirs =>
        match excluded (entry e) with
        | Err OSErr => Ok (Some (after_entries search process dirs), ENone)
        | Err x => Err x
        | Ok true => Ok (Some (TEntries entries search process dirs), ENone)
        | Ok false =>
            match matched (entry e) with
            | Err OSErr => Ok (Some (after_entries search process dirs), ENone)
            | Err x => Err x
            | Ok b =>
                let process := if b then process ++ [e] else process in
                let search := if is_dir e then search ++ [e] else search in
                if split && (10 <? length entries)%nat then
                  let n := split_at (length entries) in
                  Ok (Some (TEntries (firstn n entries) search process dirs), EPut (CEntries (skipn n entries)))
                else Ok (Some (TEntries entries search process dirs), ENone)
            end
        end
    | TPut size [] process dirs => Ok (Some (TEmit process dirs), ENone)
    | TPut size search process dirs =>
        Ok (Some (TPut size (skipn size search) process dirs), EPut (CDirs (firstn size search)))
    | TEmit [] dirs => Ok (Some (TDirs dirs), ENone)
    | TEmit process dirs =>
        Ok (Some (TSend (firstn 100 process) (skipn 100 process) dirs),
            match the_mode with Collect => ENone | _ => EFound end)
    | TSend [] process dirs => Ok (Some (TEmit process dirs), ENone)
    | TSend (e :: entries) process dirs =>
        match the_mode with
        (* libff/processing.py:225-226 *)
        | Collect => Ok (Some (TEmit process dirs), ESend (map entry (e :: entries)))
        (* libff/processing.py:168-173 *)
        | Console => Ok (Some (TSend entries process dirs), if rendered (entry e) then EPrint (entry e) else ENone)
        (* libff/processing.py:190-199 *)
        | Exec => Ok (Some (TSend entries process dirs),
                      if rendered (entry e) then EPut (CArgs [entry e]) else ENone)
        end
    | TArgs [] => Ok (None, ENone)
    | TArgs (a :: args) => Ok (Some (TArgs args), ERun a)
    end.
End Work.

(** A worker: at the test of the loop libff/walk.py:90, in [queue.get] since some
    time, at the barrier, in the body of the loop, ended because all were at
    the barrier, ended because of a stop, ended by an exception, killed *)
Inductive worker A := Idle | Getting (since : Z) | Waiting | Run (t : task A) | Passed | Stopped | Failed | Killed.
Arguments Idle {A}. Arguments Getting {A}. Arguments Waiting {A}. Arguments Run {A}. Arguments Passed {A}.
Arguments Stopped {A}. Arguments Failed {A}. Arguments Killed {A}.
(** The main process: about to look for results, at the barrier since some
    time, about to check the processes, done after the barrier, done because of
    a stop, interrupted *)
Inductive main := MGet | MWait (since : Z) | MCheck | MPassed | MStopped | MInterrupted.
(** libff/context.py:59-83; [printed] is the console or, with Collect, the list
    of entries in the main process.  [ran]: the commands and whether they
    succeeded; the counters of libff/context.py are the numbers of both. *)
Record state A := State {
  queue : list (chunk A); outq : list (list A); printed : list A; ran : list (A * bool);
  workers : list (worker A); main_ : main; stopping : bool; code : Z; found : bool; now : Z }.
Arguments State {A}. Arguments queue {A}. Arguments outq {A}. Arguments printed {A}. Arguments ran {A}.
Arguments workers {A}. Arguments main_ {A}. Arguments stopping {A}. Arguments code {A}. Arguments found {A}. Arguments now {A}.

Section System.
  Variable A : Type.
  Variable excluded matched : A -> res bool.
  Variable rendered : A -> bool.
  Variable the_mode : mode.
  Variable jobs : nat.
  (** --halt is soon or now *)
  Variable halt : bool.
  (** queue.Empty is raised only if nothing has been put that was not taken.
      multiprocessing.Queue does not promise that. *)
  Variable prompt : bool.
  (** Timeouts are exact: [get] does not raise queue.Empty before its timeout,
      no process passes the barrier after its timeout.  Both are TIMEOUT where
      it matters.  The operating system does not promise the latter. *)
  Variable punctual : bool.
  Variable timeout : Z.
  Notation state := (state A).
  Notation worker := (worker A).
  Notation work := (work A excluded matched rendered the_mode jobs).

  Definition EX_OK : Z := 0.
  Definition EX_NORESULT : Z := 1.
  Definition EX_SUBPROCESS : Z := 3.
  Definition EX_PROCESS : Z := 4.

  (** The state after a worker has done something *)
  Definition set_workers (s : state) (ws : list worker) : state :=
    State (queue s) (outq s) (printed s) (ran s) ws (main_ s) (stopping s) (code s) (found s) (now s).
  Definition set_queue (s : state) (q : list (chunk A)) : state :=
    State q (outq s) (printed s) (ran s) (workers s) (main_ s) (stopping s) (code s) (found s) (now s).
  Definition set_main (s : state) (m : main) : state :=
    State (queue s) (outq s) (printed s) (ran s) (workers s) m (stopping s) (code s) (found s) (now s).
  Definition set_stop (s : state) (c : Z) : state :=
    State (queue s) (outq s) (printed s) (ran s) (workers s) (main_ s) true c (found s) (now s).
  Definition receive (s : state) (q : list (list A)) (c : list A) : state :=
    State (queue s) q (printed s ++ c) (ran s) (workers s) (main_ s) (stopping s) (code s) (found s) (now s).
  Definition tick (s : state) (t : Z) : state :=
    State (queue s) (outq s) (printed s) (ran s) (workers s) (main_ s) (stopping s) (code s) (found s) t.
  (** [ok]: the exit status of a command that is run *)
  Definition affect (e : effect A) (ok : bool) (s : state) : state :=
    match e with
    | ENone => s
    | EPut c => set_queue s (queue s ++ [c])
    | EFound => State (queue s) (outq s) (printed s) (ran s) (workers s) (main_ s) (stopping s) (code s) true (now s)
    | EPrint a => receive s (outq s) [a]
    | ESend l => State (queue s) (outq s ++ [l]) (printed s) (ran s) (workers s) (main_ s) (stopping s) (code s) (found s) (now s)
    (* libff/context.py:145-186; a command that cannot be started or is
       terminated counts as failed *)
    | ERun a =>
        State (queue s) (outq s) (printed s) (ran s ++ [(a, ok)]) (workers s) (main_ s)
          (stopping s || negb ok && halt) (if ok then code s else EX_SUBPROCESS) (found s) (now s)
    end.

  Inductive label := LWork | LTake | LPoll | LMain | LStop.
  (** Everything that can happen.  A worker is named by its neighbours. *)
  Inductive step (s : state) : label -> state -> Prop :=
  (* libff/walk.py:90 *)
  | SCheck l r : workers s = l ++ Idle :: r -> stopping s = false ->
      step s LPoll (set_workers s (l ++ Getting (now s) :: r))
  | SQuit l r : workers s = l ++ Idle :: r -> stopping s = true ->
      step s LStop (set_workers s (l ++ Stopped :: r))
  (* libff/walk.py:91-92.  The order of chunks of several processes is not
     fixed. *)
  | STake l r g q1 c q2 t : workers s = l ++ Getting g :: r -> queue s = q1 ++ c :: q2 -> start A c = Ok t ->
      step s LTake (set_workers (set_queue s (q1 ++ q2)) (l ++ Run t :: r))
  | SEmpty l r g : workers s = l ++ Getting g :: r -> (prompt = true -> queue s = []) ->
      (punctual = true -> (g + timeout <= now s)%Z) ->
      step s LPoll (set_workers s (l ++ Waiting :: r))
  (* libff/context.py:116-126 and walk.py:94-97, the barrier is broken by the
     timeout of any process *)
  | SBroken l r : workers s = l ++ Waiting :: r -> stopping s = false ->
      step s LPoll (set_workers s (l ++ Idle :: r))
  | SBrokenStop l r : workers s = l ++ Waiting :: r -> stopping s = true ->
      step s LStop (set_workers s (l ++ Stopped :: r))
  | SWork l r t split ok t' e : workers s = l ++ Run t :: r -> work split t = Ok (Some t', e) ->
      step s LWork (affect e ok (set_workers s (l ++ Run t' :: r)))
  | SEnd l r t split e : workers s = l ++ Run t :: r -> work split t = Ok (None, e) ->
      step s LWork (set_workers s (l ++ Idle :: r))
  (* libff/walk.py:122-130: an exception of a test, an empty chunk, or any
     other exception *)
  | SFailed l r t : workers s = l ++ Run t :: r ->
      step s LStop (set_stop (set_workers s (l ++ Failed :: r)) EX_PROCESS)
  | SFailedTake l r g q1 c q2 x : workers s = l ++ Getting g :: r -> queue s = q1 ++ c :: q2 -> start A c = Err x ->
      step s LStop (set_stop (set_workers (set_queue s (q1 ++ q2)) (l ++ Failed :: r)) EX_PROCESS)
  (* A signal may kill a worker at any time *)
  | SKilled l r w : workers s = l ++ w :: r -> w <> Passed -> w <> Stopped -> w <> Failed -> w <> Killed ->
      step s LStop (set_workers s (l ++ Killed :: r))
  (* libff/processing.py:237-250; there is no out_queue unless results are
     collected *)
  | SReceive q1 c q2 : main_ s = MGet -> the_mode = Collect -> outq s = q1 ++ c :: q2 ->
      step s LMain (receive s (q1 ++ q2) c)
  | SNothing : main_ s = MGet -> (the_mode = Collect -> prompt = true -> outq s = []) ->
      step s LMain (set_main s (MWait (now s)))
  (* libff/processing.py:118-122 *)
  | SMainBroken t : main_ s = MWait t -> stopping s = false -> step s LMain (set_main s MCheck)
  | SMainStop t : main_ s = MWait t -> stopping s = true -> step s LStop (set_main s MStopped)
  (* libff/processing.py:98-116 *)
  | SAlive : main_ s = MCheck -> step s LMain (set_main s MGet)
  | SDead w : main_ s = MCheck -> In w (workers s) -> (w = Passed \/ w = Stopped \/ w = Failed \/ w = Killed) ->
      step s LStop (set_main (set_stop s EX_PROCESS) MStopped)
  (* libff/main.py:283-292 *)
  | SInterrupt : main_ s = MGet \/ main_ s = MCheck \/ (exists t, main_ s = MWait t) ->
      step s LStop (set_main (set_stop s (code s)) MInterrupted)
  (* The barrier: all processes are there *)
  | SPass t : main_ s = MWait t -> Forall (eq Waiting) (workers s) -> (punctual = true -> (now s < t + timeout)%Z) ->
      step s LMain (set_main (set_workers s (map (fun _ => Passed) (workers s))) MPassed)
  | STick t : (now s < t)%Z -> step s LPoll (tick s t).

  (** libff/main.py:153-176 and libff/walk.py:66-74: one chunk for every start
      directory *)
  Definition initial (roots : list (node A)) : state :=
    State (map (fun d => CDirs [d]) roots) [] [] [] (repeat Idle jobs) MGet false EX_OK false 0.

  Inductive run (s : state) : list label -> state -> Prop :=
  | run_nil : run s [] s
  | run_step l s1 a s2 : run s l s1 -> step s1 a s2 -> run s (l ++ [a]) s2.

  (** libff/main.py:305-322; [fail] is the option.  With Collect the entries are
      looked at (libff/processing.py:256-257). *)
  Definition exit_status (fail : bool) (s : state) : Z :=
    if (code s =? EX_SUBPROCESS)%Z then EX_SUBPROCESS
    else if (code s =? EX_PROCESS)%Z then EX_PROCESS
    else if fail && negb (match the_mode with
                          | Collect => match printed s with [] => false | _ => true end
                          | _ => found s
                          end) then EX_NORESULT
    else EX_OK.
End System.
