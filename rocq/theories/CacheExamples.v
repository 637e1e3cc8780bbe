(** Histories of the cache that are used as examples. *)
From Coq Require Import List NArith ZArith Bool.
From Verif Require Import Py CountModel CacheModel CacheSpec.
Import ListNotations.

(** A plugin whose data is the content of the file; a file has a content and a
    modification time in nanoseconds. *)
Definition file := (str * Z)%type.
Definition seconds (f : file) : Z := Z.quot (snd f) 1000000000.
Definition xcompute (_ _ : str) (f : file) : res (cached str) := Ok (Value (fst f)).
Definition xtag (_ : str) (f : file) : Z := seconds f.
Definition xfinish (_ _ : str) (c : cached str) : cached str := c.
Definition xdumps (c : cached str) : option str := match c with NODATA => Some [] | Value v => Some (1%N :: v) end.
Definition xloads (s : str) : cached str := match s with [] => NODATA | _ :: v => Value v end.
Lemma xloads_dumps c data : xdumps c = Some data -> xloads data = c.
Proof. destruct c; intros [= <-]; reflexivity. Qed.
Notation xrun steady := (run xcompute xtag xfinish str_of_Z xdumps xloads steady).
Notation xstep steady := (step xcompute xtag xfinish str_of_Z xdumps xloads steady).
Definition xpath : str := $"/f".
Definition xa : file := ($"A", 1000000001%Z).
Definition xs0 : state Z file := State [] (fun _ => None) (fun _ => xa) [(xpath, xa)].
Lemma xs0_initial : initial xs0.
Proof. split; [reflexivity|]. split; [reflexivity|]. intros path f [[= <- <-]|[]]. reflexivity. Qed.
Arguments run_nil {V T F R compute tag_of finish pickle_tag dumps loads steady s}.
Arguments run_step {V T F R compute tag_of finish pickle_tag dumps loads steady s l s1 e s2}.
Definition xtable : str := sql_table_name ($"a") 0.
Ltac fin := first [reflexivity | discriminate | (left; reflexivity) | (right; left; reflexivity) | (intros _; reflexivity)].
Tactic Notation "after" hyp(H) uconstr(c) ident(H') := epose proof (run_step H ltac:(eapply c; fin)) as H'.

Ltac start steady := pose proof (@run_nil _ _ _ _ xcompute xtag xfinish str_of_Z xdumps xloads steady xs0) as R.

(** the same second *)
Definition xb : file := ($"B", 1000000002%Z).
Lemma stale_history : exists l s1 s2, xrun true xs0 l s1 /\ xstep true s1 (Found xtable xpath (Value ($"A"))) s2 /\ files s1 xpath = xb.
Proof.
  start true.
  after R (s_start _ _ _ _ _ _ _ _ _ _ _ _ 0%nat 0%Z) R1.
  after R1 (s_init _ _ _ _ _ _ _ _ _ _ _ _ 0%nat _ ($"a") 0%N) R2.
  after R2 (s_miss _ _ _ _ _ _ _ _ _ _ _ _ 0%nat _ xtable xpath xa) R3.
  after R3 (s_set _ _ _ _ _ _ _ _ _ _ _ _ 0%nat _ xtable xpath 1%Z (Value ($"A")) (1%N :: $"A") 0%Z) R4.
  after R4 (s_close _ _ _ _ _ _ _ _ _ _ _ _ 0%nat) R5.
  after R5 (s_publish _ _ _ _ _ _ _ _ _ _ _ _ 0%nat) R6.
  after R6 (s_done _ _ _ _ _ _ _ _ _ _ _ _ 0%nat _ _ 0%Z) R7.
  after R7 (s_modify _ _ _ _ _ _ _ _ _ _ _ _ xpath xb) R8.
  eexists _, _, _. split; [exact R8|]. split; [|reflexivity]. change (Value ($"A")) with (xfinish xtable xpath (Value ($"A"))).
  eapply (s_hit _ _ _ _ _ _ _ _ _ _ _ _ 0%nat _ xtable xpath xb (Value ($"A"))); fin.
Qed.
(** data is a function of path and time, but the file is changed between
    lstat and the computation, and then restored together with its time *)
Definition xc : file := ($"B", 2000000000%Z).
Lemma race_history : exists l s1 s2, xrun false xs0 l s1 /\ xstep false s1 (Found xtable xpath (Value ($"B"))) s2 /\
  files s1 xpath = xa /\ past s1 = [(xpath, xa); (xpath, xc); (xpath, xa)].
Proof.
  start false.
  after R (s_start _ _ _ _ _ _ _ _ _ _ _ _ 0%nat 0%Z) R1.
  after R1 (s_init _ _ _ _ _ _ _ _ _ _ _ _ 0%nat _ ($"a") 0%N) R2.
  after R2 (s_miss _ _ _ _ _ _ _ _ _ _ _ _ 0%nat _ xtable xpath xa) R3.
  after R3 (s_modify _ _ _ _ _ _ _ _ _ _ _ _ xpath xc) R3'.
  after R3' (s_set _ _ _ _ _ _ _ _ _ _ _ _ 0%nat _ xtable xpath 1%Z (Value ($"B")) (1%N :: $"B") 0%Z) R4.
  after R4 (s_close _ _ _ _ _ _ _ _ _ _ _ _ 0%nat) R5.
  after R5 (s_publish _ _ _ _ _ _ _ _ _ _ _ _ 0%nat) R6.
  after R6 (s_done _ _ _ _ _ _ _ _ _ _ _ _ 0%nat _ _ 0%Z) R7.
  after R7 (s_modify _ _ _ _ _ _ _ _ _ _ _ _ xpath xa) R8.
  eexists _, _, _. split; [exact R8|]. split; [|split; reflexivity]. change (Value ($"B")) with (xfinish xtable xpath (Value ($"B"))).
  eapply (s_hit _ _ _ _ _ _ _ _ _ _ _ _ 0%nat _ xtable xpath xa (Value ($"B"))); fin.
Qed.
(** another version of the plugin drops the table *)
Lemma dropped_history : exists l s1 s2, xrun true xs0 l s1 /\ xstep true s1 (Raised xtable xpath OperationalErr) s2 /\ past s1 = [(xpath, xa)].
Proof.
  start true.
  after R (s_start _ _ _ _ _ _ _ _ _ _ _ _ 0%nat 0%Z) R1.
  after R1 (s_init _ _ _ _ _ _ _ _ _ _ _ _ 0%nat _ ($"a") 0%N) R2.
  after R2 (s_start _ _ _ _ _ _ _ _ _ _ _ _ 1%nat 0%Z) R3.
  after R3 (s_init _ _ _ _ _ _ _ _ _ _ _ _ 1%nat _ ($"a") 1%N) R4.
  eexists _, _, _. split; [exact R4|]. split; [|reflexivity].
  eapply (s_no_table _ _ _ _ _ _ _ _ _ _ _ _ 0%nat _ xtable xpath xa); fin.
Qed.
(** two processes compute the same; one of them is killed while it commits and
    the database is locked, the other one succeeds; a third process finds the row *)
Lemma crash_history : exists l s1 s2, xrun true xs0 l s1 /\ xstep true s1 (Found xtable xpath (Value ($"A"))) s2 /\
  db s1 = [(xtable, [Row ($"/f") ($"1") (1%N :: $"A")])] /\ past s1 = [(xpath, xa)].
Proof.
  start true.
  after R (s_start _ _ _ _ _ _ _ _ _ _ _ _ 0%nat 0%Z) R1.
  after R1 (s_init _ _ _ _ _ _ _ _ _ _ _ _ 0%nat _ ($"a") 0%N) R2.
  after R2 (s_fork _ _ _ _ _ _ _ _ _ _ _ _ 0%nat 1%nat) R3.
  after R3 (s_miss _ _ _ _ _ _ _ _ _ _ _ _ 0%nat _ xtable xpath xa) R4.
  after R4 (s_miss _ _ _ _ _ _ _ _ _ _ _ _ 1%nat _ xtable xpath xa) R5.
  after R5 (s_set _ _ _ _ _ _ _ _ _ _ _ _ 0%nat _ xtable xpath 1%Z (Value ($"A")) (1%N :: $"A") 0%Z) R6.
  after R6 (s_set_commit _ _ _ _ _ _ _ _ _ _ _ _ 1%nat _ xtable xpath 1%Z (Value ($"A")) (1%N :: $"A") 99%Z) R7.
  after R7 (s_close _ _ _ _ _ _ _ _ _ _ _ _ 0%nat) R8.
  after R8 (s_locked _ _ _ _ _ _ _ _ _ _ _ _ 1%nat _ _ _ _ _ 1%nat) R9.
  after R9 (s_end _ _ _ _ _ _ _ _ _ _ _ _ 1%nat) R10.
  after R10 (s_publish _ _ _ _ _ _ _ _ _ _ _ _ 0%nat) R11.
  after R11 (s_start _ _ _ _ _ _ _ _ _ _ _ _ 2%nat 0%Z) R12.
  eexists _, _, _. split; [exact R12|]. split; [|split; reflexivity]. change (Value ($"A")) with (xfinish xtable xpath (Value ($"A"))).
  eapply (s_hit _ _ _ _ _ _ _ _ _ _ _ _ 2%nat _ xtable xpath xa (Value ($"A"))); fin.
Qed.
