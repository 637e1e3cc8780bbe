(** Runs of small searches that are counterexamples, and those that show what
    the theorems are about *)
From Coq Require Import List ZArith NArith Bool Lia.
From Verif Require Import Py WalkModel WalkSpec WalkProofs WalkInvProofs WalkEndProofs.
Import ListNotations.
Local Open Scope Z_scope.

Section Cons.
  Context {A : Type} {excluded matched : A -> res bool} {rendered : A -> bool} {m : mode} {jobs : nat}
    {halt prompt punctual : bool} {timeout : Z}.
  Notation step := (step A excluded matched rendered m jobs halt prompt punctual timeout).
  Notation run := (run A excluded matched rendered m jobs halt prompt punctual timeout).
  Lemma run_cons s a s1 l s2 : step s a s1 -> run s1 l s2 -> run s (a :: l) s2.
  Proof.
    intros S R. change (a :: l) with (([] ++ [a]) ++ l). eapply run_app; [|exact R]. econstructor; [constructor|exact S].
  Qed.
End Cons.

(** A directory 0 with a file 1 and a directory 2 that contains a file 3 *)
Definition tree : node N := Node 0%N true [Node 1%N false []; Node 2%N true [Node 3%N false []]].
Definition one : node N := Node 0%N true [Node 1%N false []].
Definition none (a : N) : res bool := Ok false.
Definition files (a : N) : res bool := Ok (N.odd a).
Definition all (a : N) : bool := true.
(** Accessing entry 1 fails. *)
Definition trouble (a : N) : res bool := if N.eqb a 1 then Err OSErr else Ok true.

Ltac norm := match goal with |- WalkModel.run _ _ _ _ _ _ _ _ _ _ ?s _ _ => let s' := eval vm_compute in s in change s with s' end.
Ltac go := norm; eapply run_cons.
Ltac check := go; [apply SCheck with (l := []) (r := []); reflexivity|].
Ltac take := go; [eapply STake with (l := []) (r := []) (q1 := []); reflexivity|].
Ltac do_work := go; [eapply SWork with (l := []) (r := []) (split := false) (ok := true); reflexivity|].
Ltac do_fail := go; [eapply SWork with (l := []) (r := []) (split := false) (ok := false); reflexivity|].
Ltac finish := go; [eapply SEnd with (l := []) (r := []) (split := false); reflexivity|].
Ltac wait n := go; [apply (STick _ _ _ _ _ _ _ _ _ _ _ n); cbn; lia|].
Ltac nothing := go; [apply SNothing; [reflexivity|intros; reflexivity || congruence]|].
Ltac empty := go; [eapply SEmpty with (l := []) (r := []); [reflexivity|cbn; intros; reflexivity || congruence|cbn; intros; lia || congruence]|].
Ltac pass := go; [eapply SPass; [reflexivity|repeat constructor|cbn; intros; lia || congruence]|apply run_nil].

(** A spurious queue.Empty ends the search although there is work. *)
Lemma lost_early : exists ls s, run N none files all Console 1 false false true 1 (initial N 1 [one]) ls s /\
  main_ s = MPassed /\ Match N none files [one] 1%N /\ results Console s = [].
Proof.
  eexists. eexists. split.
  - check. wait 1. empty. nothing. pass.
  - split; [reflexivity|split; [|try split; reflexivity]]. exists one, (Node 1%N false []). split; [now left|]. split; [|split; reflexivity]. apply below_kid; [now left|reflexivity].
Qed.
(** After an error the other entries of the directory are not looked at. *)
Lemma lost_error : exists ls s, run N none trouble all Console 1 false true true 1 (initial N 1 [tree]) ls s /\
  main_ s = MPassed /\ Match N none trouble [tree] 2%N /\ results Console s = [].
Proof.
  eexists. eexists. split.
  - check. take. do_work. do_work. do_work. do_work. finish. check. wait 1. empty. nothing. pass.
  - split; [reflexivity|split; [|try split; reflexivity]]. exists tree, (Node 2%N true [Node 3%N false []]). split; [now left|]. split; [|split; reflexivity]. apply below_kid; [right; now left|reflexivity].
Qed.
(** The main process is late at the barrier. *)
Lemma lost_late : exists ls s, run N none files all Collect 1 false true false 1 (initial N 1 [one]) ls s /\
  main_ s = MPassed /\ Match N none files [one] 1%N /\ results Collect s = [] /\ outq s = [[1%N]].
Proof.
  eexists. eexists. split.
  - nothing. check. take. do_work. do_work. do_work. do_work. do_work. do_work. do_work. finish. check. wait 1. empty. pass.
  - split; [reflexivity|split; [|try split; reflexivity]]. exists one, (Node 1%N false []). split; [now left|]. split; [|split; reflexivity]. apply below_kid; [now left|reflexivity].
Qed.
(** Status 4 although no worker crashed: the command failed, the worker
    stopped, and the main process took it for dead. *)
Lemma wrong_status : exists ls s, run N none files all Exec 1 true true true 1 (initial N 1 [one]) ls s /\
  main_ s = MStopped /\ ~ Exists (fun w => w = Failed \/ w = Killed) (workers s) /\
  ran s = [(1%N, false)] /\ exit_status N Exec false s = EX_PROCESS.
Proof.
  eexists. eexists. split.
  - nothing. go; [eapply SMainBroken; reflexivity|].
    check. take. do_work. do_work. do_work. do_work. do_work. do_work. do_work. do_work. finish. check. take. do_fail. finish.
    go; [apply SQuit with (l := []) (r := []); reflexivity|].
    go; [eapply SDead; [reflexivity|now left|auto]|]. apply run_nil.
  - split; [reflexivity|]. split; [|split; reflexivity]. cbn. intros H. inversion H as [? ? [C|C]|? ? C]; try discriminate. inversion C.
Qed.

(** An ordinary search *)
Lemma good_run m : exists ls s, run N none files all m 1 false true true 1 (initial N 1 [tree]) ls s /\
  main_ s = MPassed /\ results m s = [1; 3]%N /\ found s = (match m with Collect => false | _ => true end) /\ code s = EX_OK.
Proof.
  destruct m; eexists; eexists.
  - split; [check; take; do 10 do_work; finish; check; take; do 8 do_work; finish; check; wait 1; empty; nothing; pass|repeat (split; [reflexivity|]); reflexivity].
  - split; [check; take; do 10 do_work; finish; check; take; do 8 do_work; finish; check; take; do_work; finish; check; take; do_work; finish;
    check; wait 1; empty; nothing; pass|repeat (split; [reflexivity|]); reflexivity].
  - split; [check; take; do 9 do_work; finish; check; take; do 7 do_work; finish;
    go; [apply SReceive with (q1 := []) (q2 := [[3%N]]); reflexivity|];
    go; [apply SReceive with (q1 := []) (q2 := []); reflexivity|];
    check; wait 1; empty; nothing; pass|repeat (split; [reflexivity|]); reflexivity].
Qed.
(** A search with an error in one of two start directories *)
Definition other : node N := Node 10%N true [Node 11%N false []].
Lemma partly_run : exists ls s, run N none trouble all Console 1 false true true 1 (initial N 1 [tree; other]) ls s /\
  main_ s = MPassed /\ SureMatch N none trouble [tree; other] 11%N /\ ~ calm N none trouble /\ results Console s = [11]%N.
Proof.
  eexists. eexists. split.
  - check. take. do 4 do_work. finish. check. take. do 8 do_work. finish. check. wait 1. empty. nothing. pass.
  - split; [reflexivity|]. split; [|split; [|reflexivity]].
    + exists other, (Node 11%N false []). split; [right; now left|]. split; [|split; reflexivity].
      apply surely_kid; [|now left|reflexivity]. repeat constructor. exists false. split; [reflexivity|]. intros _. now exists true.
    + intros C. destruct (C 1%N) as [_ [b C1]]. discriminate C1.
Qed.
