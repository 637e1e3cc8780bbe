(** Model of the pool of threads that runs the commands of -x when the results
    have been collected first: class Parallel, /repo/libff/processing.py:39-86,
    used in lines 363-366.  Like the search it is a transition system. *)
From Coq Require Import List Bool.
Import ListNotations.

(** A thread: at the test of the loop in line 69, in [queue.get], running a
    command, ended *)
Inductive thread B := PIdle | PGet | PRun (b : B) | PEnd.
Arguments PIdle {B}. Arguments PGet {B}. Arguments PRun {B}. Arguments PEnd {B}.
(** [jobs]: the queue, None is the sentinel; [todo], [ends]: what the main thread
    has still to put there *)
Record pool A B := Pool {
  pqueue : list (option B); todo : list A; ends : nat; threads : list (thread B);
  pran : list (B * bool); pstop : bool }.
Arguments Pool {A B}. Arguments pqueue {A B}. Arguments todo {A B}. Arguments ends {A B}. Arguments threads {A B}.
Arguments pran {A B}. Arguments pstop {A B}.

Section Pool.
  Context {A B : Type}.
  (** ExecFields.render; None is KeyError *)
  Variable render : A -> option B.
  (** --halt is soon or now *)
  Variable halt : bool.
  Notation pool := (pool A B).
  Inductive plabel := PLWork | PLPoll | PLStop.
  Inductive pstep (s : pool) : plabel -> pool -> Prop :=
  (* lines 80-86 *)
  | PAdd a l : todo s = a :: l ->
      pstep s PLWork (Pool (match render a with Some b => pqueue s ++ [Some b] | None => pqueue s end) l (ends s) (threads s) (pran s) (pstop s))
  (* lines 61-62 *)
  | PClose n : todo s = [] -> ends s = S n ->
      pstep s PLWork (Pool (pqueue s ++ [None]) [] n (threads s) (pran s) (pstop s))
  (* line 69 *)
  | PCheck l r : threads s = l ++ PIdle :: r -> pstop s = false ->
      pstep s PLWork (Pool (pqueue s) (todo s) (ends s) (l ++ PGet :: r) (pran s) (pstop s))
  | PQuit l r : threads s = l ++ PIdle :: r -> pstop s = true ->
      pstep s PLWork (Pool (pqueue s) (todo s) (ends s) (l ++ PEnd :: r) (pran s) (pstop s))
  (* lines 70-76 *)
  | PTake l r b q : threads s = l ++ PGet :: r -> pqueue s = Some b :: q ->
      pstep s PLWork (Pool q (todo s) (ends s) (l ++ PRun b :: r) (pran s) (pstop s))
  | PTakeEnd l r q : threads s = l ++ PGet :: r -> pqueue s = None :: q ->
      pstep s PLWork (Pool q (todo s) (ends s) (l ++ PEnd :: r) (pran s) (pstop s))
  | PTimeout l r : threads s = l ++ PGet :: r ->
      pstep s PLPoll (Pool (pqueue s) (todo s) (ends s) (l ++ PIdle :: r) (pran s) (pstop s))
  (* line 78 and libff/context.py:145-186 *)
  | PDone l r b ok : threads s = l ++ PRun b :: r ->
      pstep s PLWork (Pool (pqueue s) (todo s) (ends s) (l ++ PIdle :: r) (pran s ++ [(b, ok)]) (pstop s || negb ok && halt))
  (* a request to stop from elsewhere *)
  | PInterrupt : pstep s PLStop (Pool (pqueue s) (todo s) (ends s) (threads s) (pran s) true).

  Definition pinitial (jobs : nat) (entries : list A) : pool := Pool [] entries jobs (repeat PIdle jobs) [] false.
  (** The main thread has joined all threads: lines 63-64 *)
  Definition pfinal (s : pool) : Prop := todo s = [] /\ ends s = 0 /\ Forall (eq PEnd) (threads s).
  Inductive prun (s : pool) : list plabel -> pool -> Prop :=
  | prun_nil : prun s [] s
  | prun_step l s1 a s2 : prun s l s1 -> pstep s1 a s2 -> prun s (l ++ [a]) s2.
End Pool.
