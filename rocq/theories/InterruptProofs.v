(** Proofs about interrupts. *)
From Coq Require Import List NArith ZArith Bool Lia.
From Verif Require Import Py WalkModel WalkSpec WalkProofs WalkInvProofs WalkEndProofs WalkStatusProofs WalkRuns InterruptModel.
Import ListNotations.

Section Proofs.
  Variable A : Type.
  Variable excluded matched : A -> res bool.
  Variable rendered : A -> bool.
  Variable m : mode.
  Variable jobs : nat.
  Variable halt prompt punctual : bool.
  Variable timeout : Z.
  Notation run := (run A excluded matched rendered m jobs halt prompt punctual timeout).

  Lemma status_one roots ls s debug fail : (0 < jobs)%nat -> prompt = true -> calm A excluded matched -> (m = Collect -> punctual = true) ->
    run (initial A jobs roots) ls s -> ends A m debug fail s = Some (Exit EX_NORESULT) -> main_ s = MInterrupted /\ debug = false \/
    main_ s = MPassed /\ fail = true /\ ~ exists a, Match A excluded matched roots a.
  Proof.
    intros J P C Q R E. unfold ends in E.
    assert (X : (main_ s = MPassed \/ main_ s = MStopped) /\ exit_status A m fail s = EX_NORESULT \/ main_ s = MInterrupted /\ debug = false).
    { destruct (main_ s); try discriminate; [left|left|right]; [split; [auto|congruence]|split; [auto|congruence]|]. destruct debug; [discriminate|auto]. }
    destruct X as [[M X]|X]; [right|now left].
    destruct (exit_zero excluded matched rendered m jobs halt prompt punctual timeout roots ls s fail R M (or_intror X)) as [MP F].
    destruct (status_passed excluded matched rendered m jobs halt prompt punctual timeout roots ls s fail J R MP) as (_ & H2 & H3).
    destruct fail; [|rewrite (H2 F) in X; discriminate].
    destruct (H3 F P C Q) as [[Y _]|[_ Y]]; [rewrite Y in X; discriminate|auto].
  Qed.
  Lemma none_one roots ls s debug : (0 < jobs)%nat -> prompt = true -> calm A excluded matched -> (m = Collect -> punctual = true) ->
    run (initial A jobs roots) ls s -> main_ s = MPassed -> Forall (fun p => snd p = true) (ran s) ->
    (ends A m debug true s = Some (Exit EX_NORESULT) <-> ~ exists a, Match A excluded matched roots a) /\
    ends A m debug false s = Some (Exit EX_OK).
  Proof.
    intros J P C Q R M F. destruct (status_passed excluded matched rendered m jobs halt prompt punctual timeout roots ls s true J R M) as (_ & H2 & H3).
    unfold ends. rewrite M. split; [|now rewrite (H2 F)].
    destruct (H3 F P C Q) as [[Y Z]|[Y Z]]; rewrite Y; split; try tauto; intros; discriminate.
  Qed.
  (** Interrupted searches take no more chunks. *)
  Lemma interrupted_stops roots ls s : run (initial A jobs roots) ls s -> main_ s = MInterrupted -> stopping s = true.
  Proof.
    induction 1 as [|l s1 a s2 R IH S]; [discriminate|]. intros M.
    destruct S; cbn in *; try reflexivity; try congruence; try (apply IH; assumption).
    destruct e; cbn in *; try (apply IH; assumption). rewrite (IH M). reflexivity.
  Qed.
End Proofs.

(** One result is printed, then the search is interrupted. *)
Lemma interrupted_run : exists ls s, run N none files all Console 1 false true true 1 (initial N 1 [one]) ls s /\ main_ s = MInterrupted /\ Match N none files [one] 1%N /\ printed s = [1%N] /\ code s = EX_OK.
Proof.
  eexists. eexists. split.
  - check. take. do_work. do_work. do_work. do_work. do_work. do_work. do_work. do_work. finish. go; [apply SInterrupt; now left|]. apply run_nil.
  - split; [reflexivity|split; [|split; reflexivity]]. exists one, (Node 1%N false []). split; [now left|]. split; [|split; reflexivity]. apply below_kid; [now left|reflexivity].
Qed.
