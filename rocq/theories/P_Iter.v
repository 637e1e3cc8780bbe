(** Property C132: what iterations over a query of the API leave behind. *)
From Coq Require Import List NArith ZArith Bool Lia.
From Verif Require Import Py WalkModel WalkSpec WalkProofs WalkRuns IterModel IterSpec IterProofs.
Import ListNotations.

Section Iteration.
  Variable A : Type.
  Variable excluded matched : A -> res bool.
  Variable jobs : nat.
  Variable prompt punctual : bool.
  Variable timeout : Z.
  Notation run := (run A excluded matched (fun _ => true) Collect jobs false prompt punctual timeout).
  Notation goes_on := (goes_on A excluded matched jobs prompt punctual timeout).
  Notation given_up := (given_up A excluded matched jobs prompt punctual timeout).

  (** What is yielded is a result, and nothing is yielded twice, however the
      iteration ends. *)
  Theorem C132_sound : forall roots ls s, run (initial A jobs roots) ls s ->
    (forall a, In a (yielded A s) -> Match A excluded matched roots a) /\ (NoDup (tree_all roots) -> NoDup (yielded A s)).
  Proof. exact (iteration_sound A excluded matched jobs prompt punctual timeout). Qed.
  (** An iteration that is over has yielded all results, if the exit code, which
      nobody looks at, is still 0; under the conditions of C41. *)
  Theorem C132_complete_partial : forall roots ls s, (0 < jobs)%nat -> prompt = true -> punctual = true -> calm A excluded matched ->
    run (initial A jobs roots) ls s -> iteration_over A s = true -> code s = EX_OK ->
    forall a, In a (yielded A s) <-> Match A excluded matched roots a.
  Proof. exact (iteration_complete A excluded matched jobs prompt punctual timeout). Qed.
  (** No process of an iteration that was given up ever ends, unless it is killed
      or one of them fails. *)
  Theorem C132_remain : forall roots s s', given_up roots s -> goes_on s s' -> stopping s' = false ->
    length (workers s') = jobs /\ Forall (fun w => alive w \/ w = Killed) (workers s').
  Proof. exact (given_up_alive A excluded matched jobs prompt punctual timeout). Qed.
  (** Those that have nothing to do ask for work again and again. *)
  Theorem C132_polls : forall s l r, (0 < timeout)%Z -> workers s = l ++ Waiting :: r -> queue s = [] -> stopping s = false ->
    exists s', goes_on s s' /\ workers s' = workers s /\ queue s' = [] /\ stopping s' = false /\ (now s + timeout <= now s')%Z.
  Proof. exact (polls A excluded matched jobs prompt punctual timeout). Qed.
End Iteration.
Print Assumptions C132_sound.
Print Assumptions C132_complete_partial.
Print Assumptions C132_remain.
Print Assumptions C132_polls.

(** If a process fails the iteration just ends. *)
Theorem C132_silent_refuted : ~ (forall (excluded matched : N -> res bool) jobs roots ls s, (0 < jobs)%nat ->
  run N excluded matched (fun _ => true) Collect jobs false true true 1 (initial N jobs roots) ls s -> iteration_over N s = true ->
  forall a, Match N excluded matched roots a -> In a (yielded N s)).
Proof.
  intros H. destruct lost_silently as (ls & s & R & M & MA & P & _).
  assert (O : iteration_over N s = true) by (unfold iteration_over; now rewrite M).
  specialize (H none plugin_fails 1 [two] ls s ltac:(lia) R O 1%N MA). unfold yielded in H. rewrite P in H. exact H.
Qed.
Print Assumptions C132_silent_refuted.
(** Giving up does not end the search. *)
Theorem C132_given_up_refuted : ~ (forall (excluded matched : N -> res bool) jobs roots s, (0 < jobs)%nat ->
  given_up N excluded matched jobs true true 1 roots s ->
  exists s', goes_on N excluded matched jobs true true 1 s s' /\ stopping s' = false /\ ~ Exists alive (workers s') /\ ~ In Killed (workers s')).
Proof.
  intros H. destruct left_early as (ls & s & R & M & B & _).
  assert (G : given_up N none files 1 true true 1 [one] s) by (exists ls; auto).
  destruct (H none files 1 [one] s ltac:(lia) G) as (s' & G' & B' & NA & NK).
  destruct (given_up_alive N none files 1 true true 1 [one] s s' G G' B') as [L F].
  destruct (workers s') as [|w ws]; [discriminate|]. inversion F as [|? ? [X|X] _]; subst; [apply NA; now left|apply NK; now left].
Qed.
Print Assumptions C132_given_up_refuted.

(** The first result of a search is taken, then the loop is left. *)
Example C132_example : exists s, given_up N none files 1 true true 1 [one] s /\ yielded N s = [1%N] /\ workers s = [Waiting] /\ queue s = [] /\
  goes_on N none files 1 true true 1 s s.
Proof.
  destruct left_early as (ls & s & R & M & B & P & W & Q). exists s. split; [exists ls; auto|]. repeat split; auto. apply goes_nil.
Qed.
Example C132_complete_example : calm N none files /\
  exists ls s, run N none files (fun _ => true) Collect 1 false true true 1 (initial N 1 [tree]) ls s /\ iteration_over N s = true /\ code s = EX_OK /\ yielded N s = [1; 3]%N.
Proof.
  split; [intros a; split; eexists; reflexivity|].
  destruct (good_run Collect) as (ls & s & R & M & P & _ & C). exists ls, s. split; [exact R|]. unfold iteration_over. rewrite M. repeat split; [exact C|exact P].
Qed.
