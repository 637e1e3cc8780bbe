From Coq Require Import List ZArith Bool Lia Permutation.
From Verif Require Import Py PermTac WalkModel WalkSpec WalkProofs WalkInvProofs.
Import ListNotations.

Section Status.
  Context {A : Type}.
  Variable excluded matched : A -> res bool.
  Variable rendered : A -> bool.
  Variable the_mode : mode.
  Variable jobs : nat.
  Variable halt prompt punctual : bool.
  Variable timeout : Z.
  Notation step := (step A excluded matched rendered the_mode jobs halt prompt punctual timeout).
  Notation run := (run A excluded matched rendered the_mode jobs halt prompt punctual timeout).
  Notation initial := (initial A jobs).
  Ltac cases := intros
    [l r E St|l r E St|l r g q1 c q2 t E Q S|l r g E Q T|l r E St|l r E St|l r t sp ok t' e E Wk|l r t sp e E Wk
      |l r t E|l r g q1 c q2 x E Q S|l r w E N1 N2 N3 N4|q1 c q2 M Md O|M O|t M St|t M St|M|w M Iw D|M|t M F T|t T].
  Ltac simp := rewrite ?(affect_workers halt); cbn [set_workers set_queue set_main set_stop receive tick queue outq printed ran workers main_ stopping code found now].
  Definition dead (w : worker A) : Prop := w = Stopped \/ w = Failed \/ w = Killed.
  Lemma inv_dead roots ls s : (0 < jobs)%nat -> run (initial roots) ls s -> code s = EX_PROCESS -> Exists dead (workers s).
  Proof.
    intros J. revert ls s. apply (run_ind_reach _ _ _ _ _ _ _ _ _ (fun s => code s = EX_PROCESS -> Exists dead (workers s))).
    - discriminate.
    - intros ls s a s' R I S. pose proof (inv_passing _ _ _ _ _ _ _ _ _ _ _ _ J R) as (_ & _ & P3). revert S.
      assert (W : forall l r w w', workers s = l ++ w :: r -> ~ dead w \/ dead w' -> code s = EX_PROCESS -> Exists dead (l ++ w' :: r)).
      { intros l r w w' E N C. apply I in C. rewrite E in C. eapply exists_replace; [exact C|auto|tauto]. }
      cases; simp; intros C; try (apply I; exact C);
        try (eapply W; [exact E|left; intros [X|[X|X]]; discriminate|exact C]); try (apply exists_new; right; left; reflexivity);
        try (apply exists_new; right; right; reflexivity).
      + eapply W; [exact E|left; intros [X|[X|X]]; discriminate|]. destruct e; try exact C. cbn in C. now destruct ok.
      + apply Exists_exists. exists w. split; [exact Iw|]. destruct D as [D|D]; [|exact D].
        assert (X : main_ s = MPassed) by (apply P3; apply Exists_exists; exists w; auto). congruence.
      + apply I in C. exfalso. revert C. apply waiting_none; [|exact F]. intros [X|[X|X]]; discriminate.
  Qed.
  Lemma status_passed roots ls s fail : (0 < jobs)%nat -> run (initial roots) ls s -> main_ s = MPassed ->
    (Exists (fun p => snd p = false) (ran s) -> exit_status A the_mode fail s = EX_SUBPROCESS) /\
    (Forall (fun p => snd p = true) (ran s) -> exit_status A the_mode false s = EX_OK) /\
    (Forall (fun p => snd p = true) (ran s) -> prompt = true -> calm A excluded matched -> (the_mode = Collect -> punctual = true) ->
       exit_status A the_mode true s = EX_OK /\ (exists a, Match A excluded matched roots a) \/
       exit_status A the_mode true s = EX_NORESULT /\ ~ (exists a, Match A excluded matched roots a)).
  Proof.
    intros J R M.
    assert (NP : code s <> EX_PROCESS).
    { intros C. apply (inv_dead _ _ _ J R) in C. pose proof (all_passed _ _ _ _ _ _ _ _ _ _ _ _ J R M) as P.
      apply Exists_exists in C as (w & I & C). rewrite Forall_forall in P. apply P in I. subst w. destruct C as [C|[C|C]]; discriminate. }
    destruct (inv_coded _ _ _ _ _ _ _ _ _ _ _ _ R) as (C1 & C2 & C3 & C4 & C5).
    assert (OK : Forall (fun p => snd p = true) (ran s) -> code s = EX_OK).
    { intros F. destruct C4 as [C4|[C4|C4]]; [exact C4| |contradiction]. exfalso. apply C2 in C4. apply Exists_exists in C4 as (p & I & X).
      rewrite Forall_forall in F. apply F in I. unfold failed in X. congruence. }
    split; [|split].
    - intros X. unfold exit_status. destruct C4 as [C4|[C4|C4]]; [|rewrite C4; reflexivity|contradiction].
      exfalso. destruct (C1 C4) as (F & _). apply Exists_exists in X as (p & I & X). rewrite Forall_forall in F. apply F in I. unfold succeeded in I. congruence.
    - intros F. unfold exit_status. now rewrite (OK F).
    - intros F Pr U Pu. unfold exit_status. rewrite (OK F). cbn [Z.eqb EX_OK EX_SUBPROCESS EX_PROCESS andb].
      assert (X : (match the_mode with Collect => match printed s with [] => false | _ => true end | _ => found s end) = true <->
                  exists a, Match A excluded matched roots a).
      { destruct (match the_mode with Collect => true | _ => false end) eqn:Em.
        - assert (the_mode = Collect) as Hm by (destruct the_mode; congruence).
          pose proof (collected _ _ _ _ _ _ _ _ _ _ _ _ J Pr (Pu Hm) R M) as O.
          pose proof (passed_total _ _ _ _ _ _ _ _ _ _ _ _ J Pr U R M) as P.
          destruct (inv_moded _ _ _ _ _ _ _ _ _ _ _ _ R) as (_ & _ & _ & M4 & _).
          unfold finished in P. rewrite O, M4 in P by (rewrite Hm; discriminate). cbn [map concat app] in P. rewrite !app_nil_r in P.
          rewrite Hm. split.
          + intros H. destruct (printed s) as [|a l] eqn:Pe; [discriminate|]. exists a.
            apply (expected_in excluded matched rendered). symmetry in P. apply (Permutation_in a) in P; [|now left]. now apply (sinks_in excluded matched) in P.
          + intros [a H]. apply (expected_in excluded matched rendered) in H.
            assert (I : In a (sinks rendered the_mode (expected excluded matched roots))) by (apply (proj2 (sinks_in excluded matched rendered the_mode _ a)); split; [exact H|now rewrite Hm]).
            apply (Permutation_in _ P) in I. now destruct (printed s).
        - replace (match the_mode with Collect => _ | _ => found s end) with (found s) by (destruct the_mode; congruence).
          eapply found_spec; try eassumption. intros C. rewrite C in Em. discriminate. }
      destruct (match the_mode with Collect => match printed s with [] => false | _ => true end | _ => found s end) eqn:B; cbn [negb].
      + left. split; [reflexivity|]. now apply X.
      + right. split; [reflexivity|]. intros H. apply X in H. discriminate.
  Qed.
  Lemma all_results roots ls s : (0 < jobs)%nat -> prompt = true -> calm A excluded matched -> (the_mode = Collect -> punctual = true) ->
    run (initial roots) ls s -> main_ s = MPassed ->
    forall a, In a (results the_mode s) <-> Match A excluded matched roots a /\ processable the_mode rendered a.
  Proof.
    intros J Pr U Pu R M a. split; [intros H; now apply (safe _ _ _ _ _ _ _ _ _ _ _ _ R)|]. intros [H1 H2].
    destruct (complete _ _ _ _ _ _ _ _ _ _ _ _ J Pr U R M a H1 H2) as [H|H]; [exact H|]. exfalso.
    assert (O : outq s = []).
    { destruct (inv_moded _ _ _ _ _ _ _ _ _ _ _ _ R) as (_ & _ & M3 & _).
      assert (D : the_mode = Collect \/ the_mode <> Collect) by (destruct the_mode; auto; right; discriminate).
      destruct D as [D|D]; [|now apply M3]. apply (collected _ _ _ _ _ _ _ _ _ _ _ _ J Pr (Pu D) R M). }
    rewrite O in H. exact H.
  Qed.
  Lemma exec_once roots ls s : (0 < jobs)%nat -> prompt = true -> calm A excluded matched -> the_mode = Exec ->
    run (initial roots) ls s -> main_ s = MPassed ->
    (forall a, In a (map fst (ran s)) <-> Match A excluded matched roots a /\ rendered a = true) /\
    (NoDup (tree_all roots) -> NoDup (map fst (ran s))).
  Proof.
    intros J Pr U E R M. pose proof (all_results roots ls s J Pr U ltac:(congruence) R M) as H.
    pose proof (proj2 (safe _ _ _ _ _ _ _ _ _ _ _ _ R)) as N. rewrite E in H, N. split; [exact H|exact N].
  Qed.
End Status.
