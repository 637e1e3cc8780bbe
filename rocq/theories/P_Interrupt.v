(** Property C133: what exit status 1 says. *)
From Coq Require Import List NArith ZArith Bool Lia.
From Verif Require Import Py WalkModel WalkSpec WalkProofs WalkRuns InterruptModel InterruptProofs.
Import ListNotations.

Section Interrupt.
  Variable A : Type.
  Variable excluded matched : A -> res bool.
  Variable rendered : A -> bool.
  Variable m : mode.
  Variable jobs : nat.
  Variable halt prompt punctual : bool.
  Variable timeout : Z.
  Notation run := (run A excluded matched rendered m jobs halt prompt punctual timeout).

  (** Status 1 means that --fail was given and nothing matches, or that a program
      without debugging was interrupted; under the conditions of C39 and C41. *)
  Theorem C133_one_partial : forall roots ls s debug fail, (0 < jobs)%nat -> prompt = true -> calm A excluded matched -> (m = Collect -> punctual = true) ->
    run (initial A jobs roots) ls s -> ends A m debug fail s = Some (Exit 1) ->
    main_ s = MInterrupted /\ debug = false \/ main_ s = MPassed /\ fail = true /\ ~ exists a, Match A excluded matched roots a.
  Proof. exact (status_one A excluded matched rendered m jobs halt prompt punctual timeout). Qed.
  (** If no command failed, a search with --fail that comes to its end has status 1
      just if nothing matches, and without --fail status 0. *)
  Theorem C133_none : forall roots ls s debug, (0 < jobs)%nat -> prompt = true -> calm A excluded matched -> (m = Collect -> punctual = true) ->
    run (initial A jobs roots) ls s -> main_ s = MPassed -> Forall (fun p => snd p = true) (ran s) ->
    (ends A m debug true s = Some (Exit 1) <-> ~ exists a, Match A excluded matched roots a) /\ ends A m debug false s = Some (Exit 0).
  Proof. exact (none_one A excluded matched rendered m jobs halt prompt punctual timeout). Qed.
  (** All processes are told about an interrupt. *)
  Theorem C133_stops : forall roots ls s, run (initial A jobs roots) ls s -> main_ s = MInterrupted -> stopping s = true.
  Proof. exact (interrupted_stops A excluded matched rendered m jobs halt prompt punctual timeout). Qed.
End Interrupt.
Print Assumptions C133_one_partial.
Print Assumptions C133_none.
Print Assumptions C133_stops.

(** In general status 1 says neither that there are no results nor that --fail was given. *)
Theorem C133_refuted : ~ (forall (excluded matched : N -> res bool) jobs roots ls s fail, (0 < jobs)%nat -> calm N excluded matched ->
  run N excluded matched all Console jobs false true true 1 (initial N jobs roots) ls s -> ends N Console false fail s = Some (Exit 1) ->
  fail = true \/ ~ exists a, Match N excluded matched roots a).
Proof.
  intros H. destruct interrupted_run as (ls & s & R & M & MA & _).
  assert (E : ends N Console false false s = Some (Exit 1)) by (unfold ends; now rewrite M).
  assert (C : calm N none files) by (intros a; split; eexists; reflexivity).
  destruct (H none files 1 [one] ls s false ltac:(lia) C R E) as [F|F]; [discriminate|]. apply F. now exists 1%N.
Qed.
Print Assumptions C133_refuted.

(** A search that finds something, one that is interrupted, and one without a result *)
Example C133_example : exists ls s, run N none files all Console 1 false true true 1 (initial N 1 [tree]) ls s /\
  ends N Console false true s = Some (Exit 0).
Proof. destruct (good_run Console) as (ls & s & R & M & _ & F & C). exists ls, s. split; [exact R|]. unfold ends, exit_status. now rewrite M, C, F. Qed.
Example C133_interrupted_example : exists ls s, run N none files all Console 1 false true true 1 (initial N 1 [one]) ls s /\
  printed s = [1%N] /\ ends N Console false false s = Some (Exit 1) /\ ends N Console true false s = Some (BySignal 2).
Proof. destruct interrupted_run as (ls & s & R & M & _ & P & _). exists ls, s. unfold ends. rewrite M. auto. Qed.
Example C133_none_example : exists ls s, run N none files all Console 1 false true true 1 (initial N 1 []) ls s /\
  ends N Console false true s = Some (Exit 1) /\ ends N Console false false s = Some (Exit 0).
Proof.
  eexists. eexists. split; [|split].
  - check. wait 1%Z. empty. nothing. pass.
  - reflexivity.
  - reflexivity.
Qed.
