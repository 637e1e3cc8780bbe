(** Proofs about the calls that -X makes. *)
From Coq Require Import List NArith ZArith Bool Lia.
From Verif Require Import Py BatchModel.
Import ListNotations.

Section Batch.
  Context {A : Type}.
  Variable render : list A -> res (list str).
  Variable run : nat -> list str -> outcome.
  Notation exec_batch := (exec_batch render run).

  Lemma div2_lt n : 0 < n -> Nat.div2 n < n.
  Proof. intros H. apply Nat.lt_div2. exact H. Qed.
  (** enough fuel: every turn passes on results or halves the list *)
  Lemma enough_fuel N : forall fuel n entries remainder,
    length (entries ++ remainder) <= N -> length (entries ++ remainder) * (N + 1) + length entries <= fuel ->
    (forall l, render l <> Err OutOfFuel) -> ended (exec_batch fuel n entries remainder) <> Err OutOfFuel.
  Proof.
    induction fuel as [|fuel IH]; intros n entries remainder L F R; destruct entries as [|x entries]; cbn [BatchModel.exec_batch]; try (cbn; discriminate).
    - rewrite app_length in F. cbn [length] in F. nia.
    - destruct (render (x :: entries)) as [args|e] eqn:E; [|cbn; intros X; injection X as ->; now apply (R (x :: entries))].
      destruct (run n args) as [status| |]; [| |cbn; discriminate].
      + cbn [called ended]. rewrite app_length in L, F. cbn [length] in L, F. apply IH; auto; rewrite app_nil_r; nia.
      + assert (D := div2_lt (length (x :: entries)) ltac:(cbn; lia)). set (k := Nat.div2 (length (x :: entries))) in *.
        assert (EL : length (firstn k (x :: entries) ++ skipn k (x :: entries) ++ remainder) = length ((x :: entries) ++ remainder)).
        { rewrite app_assoc, firstn_skipn. reflexivity. }
        apply IH; auto; rewrite EL; auto. rewrite firstn_length. lia.
  Qed.
  (** what has been passed is a beginning of the results; the rest is dropped
      only after an attempt with one result was too long *)
  Lemma passed : forall fuel n entries remainder d, exec_batch fuel n entries remainder = d ->
    (forall l args status, In (l, args, status) (calls d) -> l <> [] /\ render l = Ok args) /\
    exists rest, entries ++ remainder = concat (map (fun c => fst (fst c)) (calls d)) ++ rest /\
      (ended d = Ok tt -> (entries = [] -> remainder = []) -> rest = [] \/
        exists x rest' m args, rest = x :: rest' /\ render [x] = Ok args /\ run m args = TooLong).
  Proof.
    induction fuel as [|fuel IH]; intros n entries remainder d <-; destruct entries as [|x entries]; cbn [BatchModel.exec_batch].
    1, 2, 3: cbn; split; [intros ? ? ? []|]; eexists; split; [reflexivity|]; intros E H; try discriminate; left; auto.
    destruct (render (x :: entries)) as [args|e] eqn:E.
    2: { cbn. split; [intros ? ? ? []|]. eexists. split; [reflexivity|]. intros X. discriminate X. }
    destruct (run n args) as [status| |] eqn:Ru.
    3: { cbn. split; [intros ? ? ? []|]. eexists. split; [reflexivity|]. intros X. discriminate X. }
    - destruct (IH (S n) remainder [] _ eq_refl) as (C & rest & E1 & E2). cbn [called calls ended]. split.
      + intros l a st [[= <- <- <-]|I]; [split; [discriminate|exact E]|now apply (C l a st)].
      + exists rest. rewrite app_nil_r in E1. cbn [map concat fst]. split; [rewrite <- app_assoc; now f_equal|].
        intros O _. apply E2; auto.
    - set (k := Nat.div2 (length (x :: entries))) in *.
      destruct (IH (S n) (firstn k (x :: entries)) (skipn k (x :: entries) ++ remainder) _ eq_refl) as (C & rest & E1 & E2). split; [exact C|].
      exists rest. rewrite app_assoc, firstn_skipn in E1. split; [exact E1|]. intros O _.
      destruct entries as [|y entries].
      + right. cbn [length Nat.div2] in k. subst k. cbn [firstn skipn] in E1 |- *.
        assert (Z0 : exec_batch fuel (S n) [] ([x] ++ remainder) = Done [] false (Ok tt)) by (destruct fuel; reflexivity).
        cbn [firstn skipn] in *. rewrite Z0 in E1. cbn in E1. exists x, remainder, n, args. auto.
      + apply E2; auto. intros X. exfalso. apply (f_equal (@length A)) in X. rewrite firstn_length in X.
        assert (0 < k) by (subst k; cbn; lia). cbn [length] in X. lia.
  Qed.
  Lemma finalize_ends entries : (forall l, render l <> Err OutOfFuel) -> ended (finalize render run entries) <> Err OutOfFuel.
  Proof. intros R. apply (enough_fuel (length entries)); auto; rewrite app_nil_r; nia. Qed.
  Lemma finalize_passed entries :
    let d := finalize render run entries in
    (forall l args status, In (l, args, status) (calls d) -> l <> [] /\ render l = Ok args) /\
    exists rest, entries = concat (map (fun c => fst (fst c)) (calls d)) ++ rest /\
      (ended d = Ok tt -> rest = [] \/ exists x rest' m args, rest = x :: rest' /\ render [x] = Ok args /\ run m args = TooLong).
  Proof.
    cbn. destruct (passed ((length entries + 1) * (length entries + 1)) 0 entries [] _ eq_refl) as (C & rest & E1 & E2).
    split; [exact C|]. exists rest. rewrite app_nil_r in E1. auto.
  Qed.
  Lemma ended_errors : (forall l, exists args, render l = Ok args) -> forall fuel n entries remainder e,
    ended (exec_batch fuel n entries remainder) = Err e -> e <> OutOfFuel -> e = SubprocessErr /\ exists m args, run m args = Refused.
  Proof.
    intros R. induction fuel as [|fuel IH]; intros n entries remainder e; destruct entries as [|x entries]; cbn [BatchModel.exec_batch]; try discriminate.
    - cbn. now intros [= <-].
    - destruct (R (x :: entries)) as [args ->]. destruct (run n args) as [status| |] eqn:Ru; cbn [called ended].
      + apply IH.
      + apply IH.
      + intros [= <-] _. eauto.
  Qed.
  Lemma exit_flag : forall fuel n entries remainder, let d := exec_batch fuel n entries remainder in
    bad_exit d = true <-> exists l args status, In (l, args, status) (calls d) /\ status <> 0%Z.
  Proof.
    induction fuel as [|fuel IH]; intros n entries remainder; destruct entries as [|x entries]; cbn [BatchModel.exec_batch];
      try (cbn; split; [discriminate|intros (? & ? & ? & [] & _)]).
    destruct (render (x :: entries)) as [args|e]; [|cbn; split; [discriminate|intros (? & ? & ? & [] & _)]].
    destruct (run n args) as [status| |] eqn:Ru; [| |cbn; split; [discriminate|intros (? & ? & ? & [] & _)]].
    - cbn [called bad_exit calls]. rewrite orb_true_iff, negb_true_iff, Z.eqb_neq. specialize (IH (S n) remainder []). cbn in IH. rewrite IH. split.
      + intros [H|(l & a & st & I & H)]; [exists (x :: entries), args, status; split; [now left|auto]|]. exists l, a, st. split; [now right|auto].
      + intros (l & a & st & [E|I] & Hs); [injection E; intros; subst; now left|right; eauto 6].
    - apply IH.
  Qed.
End Batch.
