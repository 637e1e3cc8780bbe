From Coq Require Import List Arith Lia.
From Verif Require Import StopModel.
Import ListNotations.
Definition puts (l : list caller) : nat := length (filter (fun c => match c with CPut => true | _ => false end) l).
Lemma puts_at l r c : puts (l ++ c :: r) = puts l + (match c with CPut => 1 | _ => 0 end) + puts r.
Proof. unfold puts. rewrite filter_app, app_length. cbn [filter]. destruct c; cbn [length]; lia. Qed.
Lemma puts_le l : puts l <= length l.
Proof. unfold puts. induction l as [|c l IH]; [auto|]. cbn [filter length]. destruct c; cbn [length]; lia. Qed.
Lemma sinv c n s : sruns c (sinitial n) s -> length (callers s) = n /\ size s + puts (callers s) <= n.
Proof.
  induction 1 as [|s1 s2 R [L I] S].
  - cbn. rewrite repeat_length. split; [reflexivity|]. pose proof (puts_le (repeat CReady n)) as P. rewrite repeat_length in P. exact P.
  - destruct S as [l r E Z|l r E Z|l r E Z]; cbn [callers size]; [| |]; rewrite ?E in *; rewrite ?app_length, ?puts_at in *; cbn [length] in *.
    + pose proof (puts_le l). pose proof (puts_le r). split; [exact L|lia].
    + split; [exact L|lia].
    + split; [exact L|lia].
Qed.
Lemma free c n s l r : n <= c -> sruns c (sinitial n) s -> callers s = l ++ CPut :: r -> exists s', sstep c s s' /\ callers s' = l ++ CReady :: r.
Proof.
  intros N R E. destruct (sinv _ _ _ R) as [L I]. rewrite E, puts_at in I.
  exists (Stops (S (size s)) (l ++ CReady :: r)). split; [apply SPut; [exact E|lia]|reflexivity].
Qed.
(** One process too many *)
Lemma all_ask c n m : sruns c (sinitial (n + m)) (Stops 0 (repeat CPut n ++ repeat CReady m)).
Proof.
  revert m. induction n as [|n IH]; intros m; [constructor|].
  specialize (IH (S m)). replace (n + S m) with (S n + m) in IH by lia. econstructor; [exact IH|].
  assert (E : repeat CPut (S n) = repeat CPut n ++ [CPut]) by (change [CPut] with (repeat CPut 1); rewrite <- repeat_app; f_equal; lia).
  rewrite E, <- app_assoc. cbn [repeat app]. apply (SAsk c (Stops 0 (repeat CPut n ++ CReady :: repeat CReady m)) (repeat CPut n) (repeat CReady m)); reflexivity.
Qed.
Lemma some_put c n m k : k <= c -> k <= n -> sruns c (sinitial (n + m)) (Stops k (repeat CReady k ++ repeat CPut (n - k) ++ repeat CReady m)).
Proof.
  induction k as [|k IH]; intros H1 H2; [cbn [repeat app]; rewrite Nat.sub_0_r; apply all_ask|].
  econstructor; [apply IH; lia|]. replace (n - k) with (S (n - S k)) by lia.
  assert (E : repeat CReady (S k) = repeat CReady k ++ [CReady]) by (change [CReady] with (repeat CReady 1); rewrite <- repeat_app; f_equal; lia).
  rewrite E, <- app_assoc. cbn [repeat app].
  apply (SPut c (Stops k (repeat CReady k ++ CPut :: repeat CPut (n - S k) ++ repeat CReady m)) (repeat CReady k) (repeat CPut (n - S k) ++ repeat CReady m)).
  - reflexivity.
  - cbn [size]. lia.
Qed.
Definition stuck (c : nat) (i : nat) (s : stops) : Prop := nth_error (callers s) i = Some CPut /\ c <= size s.
Lemma nth_replace {B} l (x y : B) r i z : nth_error (l ++ x :: r) i = Some z -> x <> z -> nth_error (l ++ y :: r) i = Some z.
Proof.
  revert i. induction l as [|w l IH]; intros [|i] H N; cbn in *; try congruence; eauto.
Qed.
Lemma stuck_stays c i s s' : stuck c i s -> sruns c s s' -> stuck c i s'.
Proof.
  intros H. induction 1 as [|s1 s2 R [I1 I2] S]; [exact H|]. destruct S as [l r E Z|l r E Z|l r E Z]; unfold stuck; cbn [callers size].
  - rewrite E in I1. split; [|exact I2]. eapply nth_replace; [exact I1|discriminate].
  - auto.
  - lia.
Qed.
Lemma blocked jobs : exists i s, sruns jobs (sinitial (jobs + 1)) s /\ forall s', sruns jobs s s' -> nth_error (callers s') i = Some CPut /\ size s' >= jobs.
Proof.
  exists jobs, (Stops jobs (repeat CReady jobs ++ repeat CPut 1 ++ repeat CReady 0)). split.
  - pose proof (some_put jobs (jobs + 1) 0 jobs ltac:(lia) ltac:(lia)) as R. rewrite Nat.add_0_r in R. replace (jobs + 1 - jobs) with 1 in R by lia. exact R.
  - intros s' R. apply (stuck_stays jobs jobs) in R; [exact R|]. split; [|auto]. cbn [callers].
    rewrite nth_error_app2; rewrite repeat_length; [|lia]. now rewrite Nat.sub_diag.
Qed.
