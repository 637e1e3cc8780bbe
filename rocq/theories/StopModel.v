(** Model of the request to stop: /repo/libff/context.py:134-143.  The queue has
    room for as many items as there are jobs (line 68) and nothing is ever taken
    from it. *)
From Coq Require Import List Arith.
Import ListNotations.

(** A process: not in [stop], or in it after the queue was empty (line 142) *)
Inductive caller := CReady | CPut.
Record stops := Stops { size : nat; callers : list caller }.
Inductive sstep (capacity : nat) (s : stops) : stops -> Prop :=
(* line 142: the queue is empty *)
| SAsk l r : callers s = l ++ CReady :: r -> size s = 0 -> sstep capacity s (Stops (size s) (l ++ CPut :: r))
(* it is not *)
| SKnown l r : callers s = l ++ CReady :: r -> size s <> 0 -> sstep capacity s s
(* line 143: [put] waits until there is room *)
| SPut l r : callers s = l ++ CPut :: r -> size s < capacity -> sstep capacity s (Stops (S (size s)) (l ++ CReady :: r)).
Inductive sruns (capacity : nat) (s : stops) : stops -> Prop :=
| sruns_nil : sruns capacity s s
| sruns_step s1 s2 : sruns capacity s s1 -> sstep capacity s1 s2 -> sruns capacity s s2.
Definition sinitial (processes : nat) : stops := Stops 0 (repeat CReady processes).
