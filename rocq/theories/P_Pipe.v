(** Property C131: whether the output could be written. *)
From Coq Require Import List NArith ZArith Bool Arith Lia Permutation.
From Verif Require Import Py PipeModel PipeSpec PipeProofs.
Import ListNotations.
Local Open Scope nat_scope.

(** * The processes print
    If ff does not end with exit status 4, all lines of all chunks have been
    written, whatever went wrong in between and whoever printed them. *)
Theorem C131_immediate : forall medium size fail jobs chunks evs st, run medium size (start jobs chunks) evs = Some st -> may_end st = true ->
  status (immediate fail st) <> 4%Z -> merged chunks (written (immediate fail st)) /\ complaints (immediate fail st) = 0.
Proof. exact immediate_told. Qed.
Print Assumptions C131_immediate.
(** No line is written twice and none that is not a result. *)
Theorem C131_immediate_part : forall medium size fail jobs chunks evs st, run medium size (start jobs chunks) evs = Some st ->
  exists lost, Permutation (concat chunks) (written (immediate fail st) ++ lost).
Proof. exact immediate_part. Qed.
Print Assumptions C131_immediate_part.
(** After a failure no process takes more work: what remains to be done are the
    lines of the chunks at hand. *)
Theorem C131_stops : forall medium size jobs chunks evs st more st', run medium size (start jobs chunks) evs = Some st ->
  stopping st = true -> run medium size st more = Some st' -> length more <= held st.
Proof. exact (fun medium size jobs chunks evs st more st' _ B => run_stops medium size more st st' B). Qed.
Print Assumptions C131_stops.
(** No run gets stuck, and none goes on for ever. *)
Theorem C131_goes_on : forall medium size jobs chunks evs st, jobs <> 0 -> run medium size (start jobs chunks) evs = Some st ->
  may_end st = true \/ exists ev st', step medium size st ev = Some st'.
Proof. exact run_goes_on. Qed.
Print Assumptions C131_goes_on.
Theorem C131_ends : forall medium size jobs chunks evs st, run medium size (start jobs chunks) evs = Some st ->
  length evs <= length chunks + length (concat chunks).
Proof. exact run_short_start. Qed.
Print Assumptions C131_ends.
(** With a reader that reads everything there is no complaint, and the status is
    the one of --fail. *)
Theorem C131_immediate_read : forall medium size fail jobs chunks evs st, all_read medium ->
  run medium size (start jobs chunks) evs = Some st -> may_end st = true ->
  merged chunks (written (immediate fail st)) /\ complaints (immediate fail st) = 0 /\
  status (immediate fail st) = (if fail then match written (immediate fail st) with [] => 1 | _ => 0 end else 0)%Z.
Proof. exact immediate_fine. Qed.
Print Assumptions C131_immediate_read.

(** * The main process prints
    Exit status 0 means that all lines have been written, in order, if no line is
    longer than the buffer of sys.stdout. *)
Theorem C131_collected_partial : forall medium size fail lines, stays_broken medium -> Forall (fun l => length l <= size) lines ->
  status (collective medium size fail lines) = 0%Z ->
  written (collective medium size fail lines) = lines /\ complaints (collective medium size fail lines) = 0.
Proof. exact collective_told. Qed.
Print Assumptions C131_collected_partial.
(** A beginning of the lines has been written in any case. *)
Theorem C131_collected_part : forall medium size fail lines, exists lost, lines = written (collective medium size fail lines) ++ lost.
Proof. exact collective_part. Qed.
Print Assumptions C131_collected_part.
Theorem C131_collected_read : forall medium size fail lines, all_read medium ->
  collective medium size fail lines = Outcome lines (if fail then match lines with [] => 1 | _ => 0 end else 0)%Z 0.
Proof. exact collective_fine. Qed.
Print Assumptions C131_collected_read.

(** The same for the array of --json and for --count, whatever is written when. *)
Theorem C131_json : forall medium size fail results calls last left, stays_broken medium ->
  status (json_array medium size fail results calls last left) = 0%Z ->
  written (json_array medium size fail results calls last left) = calls ++ [last] /\ complaints (json_array medium size fail results calls last left) = 0.
Proof. exact json_told. Qed.
Print Assumptions C131_json.
Theorem C131_count : forall medium size fail results calls last left,
  status (counts medium size fail results calls last left) = 0%Z ->
  written (counts medium size fail results calls last left) = calls ++ [last] /\ complaints (counts medium size fail results calls last left) = 0.
Proof. exact counts_told. Qed.
Print Assumptions C131_count.
Theorem C131_unflushed_read : forall medium size fail results calls last left, all_read medium ->
  json_array medium size fail results calls last left = Outcome (calls ++ [last]) (if fail then match results with [] => 1 | _ => 0 end else 0)%Z 0 /\
  counts medium size fail results calls last left = Outcome (calls ++ [last]) (if fail then match results with [] => 1 | _ => 0 end else 0)%Z 0.
Proof. exact array_fine. Qed.
Print Assumptions C131_unflushed_read.

(** A line that is longer than the buffer is given up silently. *)
Theorem C131_long_refuted : ~ (forall medium size fail lines, stays_broken medium ->
  status (collective medium size fail lines) = 0%Z -> written (collective medium size fail lines) = lines).
Proof.
  intros H. specialize (H (fun _ => Some BrokenPipe) 2 false [$"abc"] (fun _ X => X) eq_refl). discriminate H.
Qed.
Print Assumptions C131_long_refuted.
(** That main.py catches BrokenPipeError does not make ff end quietly when the
    reader goes away: a process that prints ends with a traceback and ff with
    exit status 4, ... *)
Theorem C131_quiet_immediate_refuted : ~ (forall medium size jobs chunks evs st, only_closed medium ->
  run medium size (start jobs chunks) evs = Some st -> may_end st = true ->
  status (immediate false st) = 0%Z \/ complaints (immediate false st) = 0).
Proof.
  intros H. set (medium := fun n => if n <? 1 then None else Some BrokenPipe).
  destruct (H medium 100 2 [[$"a"]; [$"b"]] [Take 0; Take 1; Print 1; Print 0] _ ltac:(split; intros [|n]; cbn; congruence) eq_refl eq_refl) as [X|X]; discriminate X.
Qed.
Print Assumptions C131_quiet_immediate_refuted.
(** ... and the main process, having caught the exception, fails when the
    interpreter flushes once more. *)
Theorem C131_quiet_collected_refuted : ~ (forall medium size lines, only_closed medium -> Forall (fun l => length l <= size) lines ->
  status (collective medium size false lines) = 0%Z \/ complaints (collective medium size false lines) = 0).
Proof.
  intros H. set (medium := fun n => if n <? 1 then None else Some BrokenPipe).
  destruct (H medium 100 [$"a"; $"b"] ltac:(split; intros [|n]; cbn; congruence)) as [X|X]; [|discriminate X|discriminate X].
  repeat constructor; cbn; lia.
Qed.
Print Assumptions C131_quiet_collected_refuted.

(** Two processes and a reader that takes one line; the same with a reader that
    takes all; sorted results on a full disk. *)
Example C131_example :
  let once := fun n => if n <? 1 then None else Some BrokenPipe in
  let full := fun n => if n <? 2 then None else Some OtherOSError in
  let chunks := [[$"a"; $"b"]; [$"c"]] in
  (exists st, run once 100 (start 2 chunks) [Take 1; Take 0; Print 0; Print 1] = Some st /\ may_end st = true /\ stopping st = true /\ held st = 0 /\
     immediate false st = Outcome [$"c"] 4 2) /\
  (exists st, run (fun _ => None) 100 (start 2 chunks) [Take 1; Take 0; Print 1; Print 0; Print 1] = Some st /\ may_end st = true /\
     immediate true st = Outcome [$"a"; $"c"; $"b"] 0 0 /\ all_read (fun _ => None)) /\
  only_closed once /\ stays_broken full /\
  collective full 100 false [$"a"; $"b"; $"c"] = Outcome [$"a"; $"b"] 120 2 /\
  collective (fun _ => None) 100 false [$"a"; $"b"; $"c"] = Outcome [$"a"; $"b"; $"c"] 0 0 /\
  json_array once 100 false [$"a"] [$"[1,2,"; $"3,4,"] ($"5]") ($"3") = Outcome [$"[1,2,"] 120 1 /\
  json_array once 100 false [$"a"] [$"[1,2,"] [] [] = Outcome [$"[1,2,"] 120 1 /\
  json_array (fun _ => None) 100 false [$"a"] [$"[1,2,"] ($"3]") [] = Outcome [$"[1,2,"; $"3]"] 0 0 /\
  counts once 100 false [$"a"] [] ($"_total=1") [] = Outcome [$"_total=1"] 0 0 /\
  counts full 100 false [$"a"] [$"x"; $"y"; $"z"] ($"_total=1") [] = Outcome [$"x"; $"y"] 1 1.
Proof.
  cbv zeta. split; [eexists; repeat split; vm_compute; reflexivity|]. split; [eexists; repeat split; vm_compute; reflexivity|].
  split; [split; intros [|n]; cbn; congruence|]. split; [intros [|[|n]]; cbn; congruence|]. repeat split; reflexivity.
Qed.
