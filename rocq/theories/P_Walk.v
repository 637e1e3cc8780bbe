(** Properties C38-C42, C49-C51: the search, commands, exit status. *)
From Coq Require Import List NArith ZArith Bool Lia Permutation.
From Verif Require Import Py WalkModel WalkSpec WalkProofs WalkInvProofs WalkEndProofs WalkScanProofs WalkHaltProofs WalkStatusProofs
  WalkErrProofs WalkRuns PoolModel PoolSpec PoolProofs StopModel StopProofs.
Import ListNotations.

Section Walk.
  (** Whatever the entries and the tests are *)
  Variable A : Type.
  Variable excluded matched : A -> res bool.
  Variable rendered : A -> bool.
  Variable m : mode.
  Variable jobs : nat.
  Variable halt prompt punctual : bool.
  Variable timeout : Z.
  Notation run := (run A excluded matched rendered m jobs halt prompt punctual timeout).
  Notation initial := (initial A jobs).
  Notation Match := (Match A excluded matched).
  Notation calm := (calm A excluded matched).

  (** C38 *)
  Theorem C38_safe : forall roots ls s, run (initial roots) ls s ->
    (forall a, In a (results m s) -> Match roots a /\ processable m rendered a) /\
    (NoDup (tree_all roots) -> NoDup (results m s)).
  Proof. exact (safe excluded matched rendered m jobs halt prompt punctual timeout). Qed.
  (** C39, if no test raises an exception and queue.Empty is not raised while
      something is in the queue *)
  Theorem C39_complete_partial : forall roots ls s, (0 < jobs)%nat -> prompt = true -> calm -> run (initial roots) ls s ->
    main_ s = MPassed ->
    forall a, Match roots a -> processable m rendered a -> In a (results m s) \/ In a (concat (outq s)).
  Proof. exact (complete excluded matched rendered m jobs halt prompt punctual timeout). Qed.
  (** An exception in some directory does not matter for the others. *)
  Theorem C39_errors_partial : forall roots ls s, (0 < jobs)%nat -> prompt = true -> run (initial roots) ls s ->
    main_ s = MPassed ->
    forall a, SureMatch A excluded matched roots a -> processable m rendered a -> In a (results m s) \/ In a (concat (outq s)).
  Proof. exact (sure_complete excluded matched rendered m jobs halt prompt punctual timeout). Qed.
  (** C40 *)
  Theorem C40_bounded : forall roots ls s, run (initial roots) ls s ->
    (busy ls <= 6 * length roots + 19 * length (tree_all roots))%nat.
  Proof. exact (bounded excluded matched rendered m jobs halt prompt punctual timeout). Qed.
  Theorem C40_ends : forall roots ls s, (0 < timeout)%Z -> calm -> run (initial roots) ls s -> healthy s ->
    exists ls' s', run s ls' s' /\ ~ In LStop ls' /\ main_ s' = MPassed.
  Proof. exact (WalkEndProofs.ends excluded matched rendered m jobs halt prompt punctual timeout). Qed.
  (** C41, if also timeouts are exact *)
  Theorem C41_collected_partial : forall roots ls s, (0 < jobs)%nat -> prompt = true -> punctual = true -> run (initial roots) ls s ->
    main_ s = MPassed -> outq s = [].
  Proof. exact (collected excluded matched rendered m jobs halt prompt punctual timeout). Qed.
  Theorem C41_complete_partial : forall roots ls s, (0 < jobs)%nat -> prompt = true -> calm -> (m = Collect -> punctual = true) ->
    run (initial roots) ls s -> main_ s = MPassed ->
    forall a, In a (results m s) <-> Match roots a /\ processable m rendered a.
  Proof. exact (all_results excluded matched rendered m jobs halt prompt punctual timeout). Qed.
  Theorem C41_errors_partial : forall roots ls s, (0 < jobs)%nat -> prompt = true -> (m = Collect -> punctual = true) ->
    run (initial roots) ls s -> main_ s = MPassed ->
    forall a, SureMatch A excluded matched roots a -> processable m rendered a -> In a (results m s).
  Proof. exact (sure_results excluded matched rendered m jobs halt prompt punctual timeout). Qed.
  (** C42: a worker has dealt with the entries [kept] and has given away the
      others; whenever it chose to give some away. *)
  Theorem C42_scan : forall es effs ds ds', calm -> scan A excluded matched rendered m jobs (TEntries es [] [] ds) effs ds' ->
    ds' = ds /\ exists kept, es = kept ++ concat (rev (given A effs)) /\
      concat (handed A effs) = filter (to_search A excluded) kept /\
      concat (emitted A effs) = filter (usable A rendered m) (map entry (filter (to_report A excluded matched) kept)) /\
      Forall (fun l => (1 <= length l <= 100)%nat) (handed A effs) /\ Forall (fun l => (1 <= length l <= 100)%nat) (emitted A effs) /\
      Forall (fun l => l <> []) (given A effs).
  Proof. exact (scan_spec excluded matched rendered m jobs). Qed.
  (** C49, commands that are run by the workers: no more than one for every
      worker that waits for work or has a command *)
  Theorem C49_halt : forall roots l1 s1 l2 s2, run (initial roots) l1 s1 -> stopping s1 = true -> run s1 l2 s2 ->
    (length (ran s2) <= length (ran s1) + length (filter may_run (workers s1)))%nat /\ (length (ran s2) <= length (ran s1) + jobs)%nat.
  Proof.
    exact (fun roots l1 s1 l2 s2 R1 H R2 =>
      conj (halted excluded matched rendered m jobs halt prompt punctual timeout roots l1 s1 l2 s2 R1 H R2)
           (halted_jobs excluded matched rendered m jobs halt prompt punctual timeout roots l1 s1 l2 s2 R1 H R2)).
  Qed.
  (** Without --halt a command that fails stops nothing. *)
  Theorem C49_go_on : forall roots ls s, halt = false -> ~ In LStop ls -> run (initial roots) ls s -> stopping s = false.
  Proof. exact (go_on excluded matched rendered m jobs halt prompt punctual timeout). Qed.
  (** Every command is run once, if the search came to its end; under the
      conditions of C39 *)
  Theorem C49_once_partial : forall roots ls s, (0 < jobs)%nat -> prompt = true -> calm -> m = Exec ->
    run (initial roots) ls s -> main_ s = MPassed ->
    (forall a, In a (map fst (ran s)) <-> Match roots a /\ rendered a = true) /\
    (NoDup (tree_all roots) -> NoDup (map fst (ran s))).
  Proof. exact (exec_once excluded matched rendered m jobs halt prompt punctual timeout). Qed.
  (** C50: exit status 0 or 1, unless interrupted, means that no command failed
      and all processes ended together. *)
  Theorem C50_zero : forall roots ls s fail, run (initial roots) ls s -> main_ s = MPassed \/ main_ s = MStopped ->
    exit_status A m fail s = EX_OK \/ exit_status A m fail s = EX_NORESULT ->
    main_ s = MPassed /\ Forall (fun p => snd p = true) (ran s).
  Proof. exact (exit_zero excluded matched rendered m jobs halt prompt punctual timeout). Qed.
  (** 3: a command failed; 4: a worker ended before the others; if a command
      failed or there was an exception, it is one of them. *)
  Theorem C50_cases : forall roots ls s fail, run (initial roots) ls s ->
    (exit_status A m fail s = EX_SUBPROCESS -> Exists (fun p => snd p = false) (ran s)) /\
    (exit_status A m fail s = EX_PROCESS -> Exists (fun w => w = Passed \/ w = Stopped \/ w = Failed \/ w = Killed) (workers s)) /\
    (Exists (fun p => snd p = false) (ran s) -> exit_status A m fail s = EX_SUBPROCESS \/ exit_status A m fail s = EX_PROCESS) /\
    (Exists (eq Failed) (workers s) -> exit_status A m fail s = EX_SUBPROCESS \/ exit_status A m fail s = EX_PROCESS).
  Proof. exact (exit_cases excluded matched rendered m jobs halt prompt punctual timeout). Qed.
  (** The status of a search that came to its end *)
  Theorem C50_status : forall roots ls s fail, (0 < jobs)%nat -> run (initial roots) ls s -> main_ s = MPassed ->
    (Exists (fun p => snd p = false) (ran s) -> exit_status A m fail s = EX_SUBPROCESS) /\
    (Forall (fun p => snd p = true) (ran s) -> exit_status A m false s = EX_OK) /\
    (Forall (fun p => snd p = true) (ran s) -> prompt = true -> calm -> (m = Collect -> punctual = true) ->
       exit_status A m true s = EX_OK /\ (exists a, Match roots a) \/
       exit_status A m true s = EX_NORESULT /\ ~ (exists a, Match roots a)).
  Proof. exact (status_passed excluded matched rendered m jobs halt prompt punctual timeout). Qed.
End Walk.
Print Assumptions C38_safe.
Print Assumptions C39_complete_partial.
Print Assumptions C39_errors_partial.
Print Assumptions C40_bounded.
Print Assumptions C40_ends.
Print Assumptions C41_collected_partial.
Print Assumptions C41_complete_partial.
Print Assumptions C41_errors_partial.
Print Assumptions C42_scan.
Print Assumptions C49_halt.
Print Assumptions C49_go_on.
Print Assumptions C49_once_partial.
Print Assumptions C50_zero.
Print Assumptions C50_cases.
Print Assumptions C50_status.

(** C39 does not hold without these hypotheses. *)
Theorem C39_refuted_early : exists ls s, run N none files all Console 1 false false true 1 (initial N 1 [one]) ls s /\
  main_ s = MPassed /\ Match N none files [one] 1%N /\ results Console s = [].
Proof. exact lost_early. Qed.
Theorem C39_refuted_error : exists ls s, run N none trouble all Console 1 false true true 1 (initial N 1 [tree]) ls s /\
  main_ s = MPassed /\ Match N none trouble [tree] 2%N /\ results Console s = [].
Proof. exact lost_error. Qed.
(** C41 neither *)
Theorem C41_refuted : exists ls s, run N none files all Collect 1 false true false 1 (initial N 1 [one]) ls s /\
  main_ s = MPassed /\ Match N none files [one] 1%N /\ results Collect s = [] /\ outq s = [[1%N]].
Proof. exact lost_late. Qed.
(** Exit status 4 although no worker crashed *)
Theorem C50_refuted : exists ls s, run N none files all Exec 1 true true true 1 (initial N 1 [one]) ls s /\
  main_ s = MStopped /\ ~ Exists (fun w => w = Failed \/ w = Killed) (workers s) /\
  ran s = [(1%N, false)] /\ exit_status N Exec false s = EX_PROCESS.
Proof. exact wrong_status. Qed.
Print Assumptions C39_refuted_early.
Print Assumptions C39_refuted_error.
Print Assumptions C41_refuted.
Print Assumptions C50_refuted.
(** A search that meets the hypotheses of all of these theorems; it finds two
    files. *)
Example C38_example : forall m, exists ls s, run N none files all m 1 false true true 1 (initial N 1 [tree]) ls s /\
  main_ s = MPassed /\ results m s = [1; 3]%N /\ found s = (match m with Collect => false | _ => true end) /\ code s = EX_OK.
Proof. exact good_run. Qed.
Example C39_example : calm N none files /\ Match N none files [tree] 3%N /\ NoDup (tree_all [tree]) /\ tree_all [tree] = [1; 2; 3]%N.
Proof.
  split; [intros a; split; eexists; reflexivity|]. split; [|split; [|reflexivity]].
  - exists tree, (Node 3%N false []). split; [now left|]. split; [|split; reflexivity].
    apply below_deep with (m := Node 2%N true [Node 3%N false []]); [|reflexivity|now left|reflexivity].
    apply below_kid; [right; now left|reflexivity].
  - cbn. repeat constructor; cbn; intuition discriminate.
Qed.
(** An error in one of two start directories *)
Example C39_errors_example : exists ls s, run N none trouble all Console 1 false true true 1 (initial N 1 [tree; other]) ls s /\
  main_ s = MPassed /\ SureMatch N none trouble [tree; other] 11%N /\ ~ calm N none trouble /\ results Console s = [11]%N.
Proof. exact partly_run. Qed.
Example C40_example : healthy (initial N 3 [tree]).
Proof.
  split; [reflexivity|]. split; [now left|]. cbn. repeat constructor; discriminate.
Qed.
(** Twelve files; five of them are given away after the first. *)
Example C42_example : exists effs, scan N none files all Collect 2 (TEntries (map (fun a => Node a false []) [1;2;3;4;5;6;7;8;9;10;11;12]%N) [] [] []) effs [] /\
  length (concat (given N effs)) = 5%nat /\ emitted N effs = [[1;3;5;7]%N].
Proof.
  eexists. split.
  - eapply scan_step with (split := true); [discriminate|reflexivity|].
    do 11 (eapply scan_step with (split := false); [discriminate|reflexivity|]). apply scan_done.
  - split; reflexivity.
Qed.
Example C49_example : exists ls s, run N none files all Exec 1 true true true 1 (initial N 1 [tree]) ls s /\
  stopping s = true /\ queue s <> [] /\ ran s = [(1%N, false)].
Proof.
  eexists. eexists. split.
  - check. take. do 10 do_work. finish. check. take. do 8 do_work. finish. check. take. do_fail. apply run_nil.
  - split; [reflexivity|]. split; [discriminate|reflexivity].
Qed.
(** A command fails and the next is run. *)
Example C49_go_on_example : exists ls s, run N none files all Exec 1 false true true 1 (initial N 1 [tree]) ls s /\
  ~ In LStop ls /\ ran s = [(1, false); (3, true)]%N.
Proof.
  eexists. eexists. split.
  - check. take. do 10 do_work. finish. check. take. do 8 do_work. finish. check. take. do_fail. finish. check. take. do_work. apply run_nil.
  - split; [cbn; intuition discriminate|reflexivity].
Qed.

(** C49, commands that are run after the results have been collected *)
Section Pool.
  Variable A B : Type.
  Variable render : A -> option B.
  Variable halt : bool.
  Notation prun := (prun render halt).
  Theorem C49_pool_once : forall jobs entries ls s, (0 < jobs)%nat -> halt = false -> ~ In PLStop ls ->
    prun (pinitial jobs entries) ls s -> pfinal s -> Permutation (map fst (pran s)) (commands render entries).
  Proof. exact (pool_once render halt). Qed.
  Theorem C49_pool_safe : forall jobs entries ls s, prun (pinitial jobs entries) ls s ->
    exists others, Permutation (commands render entries) (map fst (pran s) ++ others).
  Proof. exact (pool_subset render halt). Qed.
  Theorem C49_pool_halt : forall s1 l2 s2, pstop s1 = true -> prun s1 l2 s2 ->
    (PoolSpec.started s2 <= PoolSpec.started s1 + waiting (threads s1))%nat.
  Proof. exact (pool_halted render halt). Qed.
  Theorem C49_pool_ends : forall jobs entries ls s, prun (pinitial jobs entries) ls s ->
    exists ls' s', prun s ls' s' /\ Forall (eq PLWork) ls' /\ pfinal s'.
  Proof. exact (pool_ends render halt). Qed.
End Pool.
Print Assumptions C49_pool_once.
Print Assumptions C49_pool_safe.
Print Assumptions C49_pool_halt.
Print Assumptions C49_pool_ends.
Example C49_pool_example : exists ls s, prun (fun a : N => if N.eqb a 2 then None else Some (a + 10)%N) true (pinitial 1 [1; 2; 3]%N) ls s /\
  pfinal s /\ pran s = [(11, true); (13, false)]%N /\ pstop s = true.
Proof.
  assert (C : forall s a s1 l s2, pstep (fun a : N => if N.eqb a 2 then None else Some (a + 10)%N) true s a s1 ->
    prun (fun a : N => if N.eqb a 2 then None else Some (a + 10)%N) true s1 l s2 ->
    prun (fun a : N => if N.eqb a 2 then None else Some (a + 10)%N) true s (a :: l) s2).
  { intros s a s1 l s2 S R. change (a :: l) with (([] ++ [a]) ++ l). eapply prun_app; [|exact R]. econstructor; [constructor|exact S]. }
  eexists. eexists. split.
  - pnorm; eapply C; [eapply PAdd; reflexivity|]. pnorm; eapply C; [eapply PAdd; reflexivity|]. pnorm; eapply C; [eapply PAdd; reflexivity|].
    pnorm; eapply C; [eapply PClose; reflexivity|]. pnorm; eapply C; [eapply PCheck with (l := []) (r := []); reflexivity|].
    pnorm; eapply C; [eapply PTake with (l := []) (r := []); reflexivity|]. pnorm; eapply C; [eapply PDone with (l := []) (r := []) (ok := true); reflexivity|].
    pnorm; eapply C; [eapply PCheck with (l := []) (r := []); reflexivity|].
    pnorm; eapply C; [eapply PTake with (l := []) (r := []); reflexivity|]. pnorm; eapply C; [eapply PDone with (l := []) (r := []) (ok := false); reflexivity|].
    pnorm; eapply C; [eapply PQuit with (l := []) (r := []); reflexivity|]. apply prun_nil.
  - split; [|split; reflexivity]. split; [reflexivity|]. split; [reflexivity|]. repeat constructor.
Qed.

(** C51, if there are no more callers than jobs: [put] does not have to wait *)
Theorem C51_free_partial : forall jobs n s l r, n <= jobs -> sruns jobs (sinitial n) s -> callers s = l ++ CPut :: r ->
  exists s', sstep jobs s s' /\ callers s' = l ++ CReady :: r.
Proof. exact free. Qed.
(** The main process may be one more; then one of them can be blocked for
    ever. *)
Theorem C51_refuted : forall jobs, exists i s, sruns jobs (sinitial (jobs + 1)) s /\
  forall s', sruns jobs s s' -> nth_error (callers s') i = Some CPut /\ size s' >= jobs.
Proof. exact blocked. Qed.
Print Assumptions C51_free_partial.
Print Assumptions C51_refuted.
Example C51_example : sruns 2 (sinitial 2) (Stops 1 [CReady; CPut]).
Proof. exact (some_put 2 2 0 1 ltac:(lia) ltac:(lia)). Qed.
