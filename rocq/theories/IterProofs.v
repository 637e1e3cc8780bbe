(** Proofs about iterations. *)
From Coq Require Import List NArith ZArith Bool Lia.
From Verif Require Import Py WalkModel WalkSpec WalkProofs WalkInvProofs WalkEndProofs WalkStatusProofs WalkRuns IterModel IterSpec.
Import ListNotations.

Section Proofs.
  Variable A : Type.
  Variable excluded matched : A -> res bool.
  Variable jobs : nat.
  Variable prompt punctual : bool.
  Variable timeout : Z.
  Notation step := (step A excluded matched (fun _ => true) Collect jobs false prompt punctual timeout).
  Notation run := (run A excluded matched (fun _ => true) Collect jobs false prompt punctual timeout).
  Notation goes_on := (goes_on A excluded matched jobs prompt punctual timeout).

  Lemma iteration_complete roots ls s : (0 < jobs)%nat -> prompt = true -> punctual = true -> calm A excluded matched ->
    run (initial A jobs roots) ls s -> iteration_over A s = true -> code s = EX_OK ->
    forall a, In a (yielded A s) <-> Match A excluded matched roots a.
  Proof.
    intros J P Q C R O E a.
    assert (M : main_ s = MPassed \/ main_ s = MStopped) by (unfold iteration_over in O; destruct (main_ s); try discriminate; auto).
    destruct (exit_zero excluded matched (fun _ => true) Collect jobs false prompt punctual timeout roots ls s false R M) as [MP _].
    { left. unfold exit_status. rewrite E. reflexivity. }
    assert (H := all_results excluded matched (fun _ => true) Collect jobs false prompt punctual timeout roots ls s J P C (fun _ => Q) R MP a).
    unfold yielded. cbn in H. rewrite H. cbn. tauto.
  Qed.
  Lemma iteration_sound roots ls s : run (initial A jobs roots) ls s ->
    (forall a, In a (yielded A s) -> Match A excluded matched roots a) /\ (NoDup (tree_all roots) -> NoDup (yielded A s)).
  Proof.
    intros R. destruct (safe excluded matched (fun _ => true) Collect jobs false prompt punctual timeout roots ls s R) as [H1 H2].
    split; [|exact H2]. intros a H. now apply H1.
  Qed.

  Lemma stop_stays s a s' : step s a s' -> stopping s = true -> stopping s' = true.
  Proof.
    intros H B. destruct H; cbn; try assumption; try congruence; try reflexivity.
    destruct e; cbn; try assumption. now rewrite B.
  Qed.
  Lemma alive_step s a s' : step s a s' -> a <> LMain -> main_ s' = main_ s -> stopping s' = false ->
    Forall (fun w => alive w \/ w = Killed) (workers s) -> Forall (fun w => alive w \/ w = Killed) (workers s').
  Proof.
    intros H NM M B F.
    assert (U : forall l r w w', workers s = l ++ w :: r -> alive w' \/ w' = Killed -> Forall (fun w => alive w \/ w = Killed) (l ++ w' :: r)).
    { intros l r w w' E L. rewrite E in F. apply Forall_app in F as [F1 F2]. apply Forall_app. split; [exact F1|]. constructor; [exact L|]. now inversion F2. }
    destruct H; cbn in *; try congruence; try (eapply U; [eassumption|]; cbn; tauto); try exact F.
    destruct e; cbn; eapply U; try eassumption; cbn; tauto.
  Qed.
  Lemma goes_on_alive s s' : goes_on s s' -> stopping s' = false ->
    Forall (fun w => alive w \/ w = Killed) (workers s) -> Forall (fun w => alive w \/ w = Killed) (workers s').
  Proof.
    induction 1 as [|s1 a s2 G IH S N M]; intros B F; [exact F|].
    assert (B1 : stopping s1 = false) by (destruct (stopping s1) eqn:X; [rewrite (stop_stays _ _ _ S X) in B; discriminate|reflexivity]).
    eapply alive_step; eauto.
  Qed.
  (** Who has ended before the iteration was given up *)
  Lemma alive_run roots ls s : run (initial A jobs roots) ls s -> main_ s <> MPassed -> stopping s = false ->
    Forall (fun w => alive w \/ w = Killed) (workers s).
  Proof.
    induction 1 as [|l s1 a s2 R IH S]; intros M B.
    - cbn. apply Forall_forall. intros w H. apply repeat_spec in H. subst w. left. exact I.
    - assert (B1 : stopping s1 = false) by (destruct (stopping s1) eqn:X; [rewrite (stop_stays _ _ _ S X) in B; discriminate|reflexivity]).
      assert (M1 : main_ s1 <> MPassed).
      { intros X. apply M. destruct S; cbn; try congruence.
        - destruct e; cbn; exact X.
        - destruct H as [H|[H|[t H]]]; congruence. }
      specialize (IH M1 B1).
      assert (U : forall l r w w', workers s1 = l ++ w :: r -> alive w' \/ w' = Killed -> Forall (fun w => alive w \/ w = Killed) (l ++ w' :: r)).
      { intros l' r w w' E L. rewrite E in IH. apply Forall_app in IH as [F1 F2]. apply Forall_app. split; [exact F1|]. constructor; [exact L|]. now inversion F2. }
      destruct S; cbn in *; try congruence; try (eapply U; [eassumption|]; cbn; tauto); try exact IH.
      destruct e; cbn; eapply U; try eassumption; cbn; tauto.
  Qed.
  Lemma given_up_alive roots s s' : given_up A excluded matched jobs prompt punctual timeout roots s -> goes_on s s' -> stopping s' = false ->
    length (workers s') = jobs /\ Forall (fun w => alive w \/ w = Killed) (workers s').
  Proof.
    intros (ls & R & M & B) G B'. split.
    - assert (L : forall s1 a s2, step s1 a s2 -> length (workers s2) = length (workers s1)).
      { intros s1 a s2 S. destruct S; cbn; rewrite ?map_length; try reflexivity;
          try (match goal with H : workers _ = _ |- _ => rewrite H end; rewrite !app_length; reflexivity).
        destruct e; cbn; rewrite H, !app_length; reflexivity. }
      assert (L1 : length (workers s) = jobs).
      { clear - R L. remember (initial A jobs roots) as s0 eqn:E. induction R as [|l s1 a s2 R IH S]; [subst; cbn; apply repeat_length|]. rewrite (L _ _ _ S). auto. }
      clear - G L L1. induction G as [|s1 a s2 G IH S N M]; [exact L1|]. now rewrite (L _ _ _ S).
    - eapply goes_on_alive; eauto. eapply alive_run; eauto. congruence.
  Qed.
  (** A process without work asks again and again. *)
  Lemma polls s l r : (0 < timeout)%Z -> workers s = l ++ Waiting :: r -> queue s = [] -> stopping s = false ->
    exists s', goes_on s s' /\ workers s' = workers s /\ queue s' = [] /\ stopping s' = false /\ (now s + timeout <= now s')%Z.
  Proof.
    intros T W Q B. set (t := (now s + timeout)%Z).
    set (s1 := set_workers A s (l ++ Idle :: r)). set (s2 := set_workers A s1 (l ++ Getting (now s) :: r)).
    set (s3 := tick A s2 t). exists (set_workers A s3 (l ++ Waiting :: r)).
    split; [|cbn; repeat split; [now rewrite W|exact Q|exact B|subst t; lia]].
    assert (G1 : goes_on s s1) by (eapply goes_step; [apply goes_nil|apply SBroken; eassumption|discriminate|reflexivity]).
    assert (G2 : goes_on s s2) by (eapply goes_step; [exact G1|apply (SCheck _ _ _ _ _ _ _ _ _ _ s1 l r); [reflexivity|exact B]|discriminate|reflexivity]).
    assert (G3 : goes_on s s3) by (eapply goes_step; [exact G2|apply STick; cbn; subst t; lia|discriminate|reflexivity]).
    eapply goes_step with (a := LPoll); [exact G3| |discriminate|reflexivity].
    apply SEmpty with (g := now s); [reflexivity|intros _; exact Q|intros _; cbn; subst t; lia].
  Qed.
End Proofs.

(** A plugin fails at the second of two files, the first is lost. *)
Definition two : node N := Node 0%N true [Node 1%N false []; Node 2%N false []].
Definition plugin_fails (a : N) : res bool := if N.eqb a 1 then Ok true else Err PluginErr.
Lemma lost_silently : exists ls s, run N none plugin_fails all Collect 1 false true true 1 (initial N 1 [two]) ls s /\ main_ s = MStopped /\ Match N none plugin_fails [two] 1%N /\ printed s = [] /\ outq s = [] /\ code s = EX_PROCESS.
Proof.
  eexists. eexists. split.
  - check. take. do_work. do_work. go; [eapply SFailed with (l := []) (r := []); reflexivity|]. nothing. go; [eapply SMainStop; reflexivity|]. apply run_nil.
  - split; [reflexivity|split; [|repeat split; reflexivity]]. exists two, (Node 1%N false []). split; [now left|]. split; [|split; reflexivity]. apply below_kid; [now left|reflexivity].
Qed.
(** One result is yielded, then the iteration is given up. *)
Lemma left_early : exists ls s, run N none files all Collect 1 false true true 1 (initial N 1 [one]) ls s /\ main_ s = MGet /\ stopping s = false /\ printed s = [1%N] /\ workers s = [Waiting] /\ queue s = [].
Proof.
  eexists. eexists. split.
  - check. take. do_work. do_work. do_work. do_work. do_work. do_work. do_work. finish. go; [eapply SReceive with (q1 := []); reflexivity|]. check. wait 1%Z. empty. apply run_nil.
  - repeat split; reflexivity.
Qed.
