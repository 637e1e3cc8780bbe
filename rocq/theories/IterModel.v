(** Model of an iteration over a query of the Python API: libff/find.py:112-134
    (Find.__iter__) and libff/processing.py:395-452 (ImmediateGenerator,
    CollectiveGenerator).  The search is the one of WalkModel with collected
    results; the entries that the main process has received are those that have
    been yielded (without sort) or will be.  Simplifications: the records that are
    made of the entries (C98), sorting, exceptions while they are made. *)
From Coq Require Import List ZArith Bool.
From Verif Require Import Py WalkModel.
Import ListNotations.

Section Iteration.
  Variable A : Type.
  Variable excluded matched : A -> res bool.
  Variable jobs : nat.
  Variable prompt punctual : bool.
  Variable timeout : Z.
  Notation state := (state A).
  (** Nothing is executed, so that --halt and the fields of commands do not matter. *)
  Notation step := (step A excluded matched (fun _ => true) Collect jobs false prompt punctual timeout).
  Notation run := (run A excluded matched (fun _ => true) Collect jobs false prompt punctual timeout).

  (** The loop ends and no exception is raised.  Other than in main.py:308-322
      nobody looks at the exit code of the context. *)
  Definition iteration_over (s : state) : bool := match main_ s with MPassed | MStopped => true | _ => false end.
  Definition yielded (s : state) : list A := printed s.
  (** find.py:126-134: if the loop over the generator is left early GeneratorExit
      is raised at the yield.  Only KeyboardInterrupt is handled, so stop and close
      are not called.  From then on the main process does nothing, the others go on. *)
  Inductive goes_on (s : state) : state -> Prop :=
  | goes_nil : goes_on s s
  | goes_step s1 a s2 : goes_on s s1 -> step s1 a s2 -> a <> LMain -> main_ s2 = main_ s1 -> goes_on s s2.
  Definition given_up (roots : list (node A)) (s : state) : Prop :=
    exists ls, run (initial A jobs roots) ls s /\ main_ s = MGet /\ stopping s = false.
End Iteration.
