From Coq Require Import List ZArith Bool Lia Arith.
From Verif Require Import Py WalkModel WalkSpec WalkProofs WalkInvProofs WalkEndProofs.
Import ListNotations.

Definition single_chunk {A} (c : chunk A) : Prop := match c with CArgs l => (length l <= 1)%nat | _ => True end.
Definition single_worker {A} (w : worker A) : Prop := match w with Run (TArgs l) => (length l <= 1)%nat | _ => True end.
Definition single {A} (s : state A) : Prop := Forall single_chunk (queue s) /\ Forall single_worker (workers s).
Definition may {A} (ws : list (worker A)) : nat := length (filter may_run ws).
Lemma may_at {A} l r (w : worker A) : may (l ++ w :: r) = may l + (if may_run w then 1 else 0) + may r.
Proof. unfold may. rewrite filter_app, app_length. cbn [filter]. destruct (may_run w); cbn [length]; lia. Qed.

Section Halt.
  Context {A : Type}.
  Variable excluded matched : A -> res bool.
  Variable rendered : A -> bool.
  Variable the_mode : mode.
  Variable jobs : nat.
  Variable halt prompt punctual : bool.
  Variable timeout : Z.
  Notation works := (works excluded matched rendered the_mode jobs).
  Notation step := (step A excluded matched rendered the_mode jobs halt prompt punctual timeout).
  Notation run := (run A excluded matched rendered the_mode jobs halt prompt punctual timeout).
  Notation initial := (initial A jobs).
  Ltac cases := intros
    [l r E St|l r E St|l r g q1 c q2 t E Q S|l r g E Q T|l r E St|l r E St|l r t sp ok t' e E Wk|l r t sp e E Wk
      |l r t E|l r g q1 c q2 x E Q S|l r w E N1 N2 N3 N4|q1 c q2 M Md O|M O|t M St|t M St|M|w M Iw D|M|t M F T|t T].
  Ltac simp := rewrite ?(affect_workers halt); cbn [set_workers set_queue set_main set_stop receive tick queue outq printed ran workers main_ stopping code found now].

  Lemma works_single t t' e : works t t' e -> single_worker (Run t) ->
    (forall t1, t' = Some t1 -> single_worker (Run t1) /\
       (if may_run (Run t1) then 1 else 0) + (match e with ERun _ => 1 | _ => 0 end) <= (if may_run (Run t) then 1 else 0)) /\
    (forall c, e = EPut c -> single_chunk c).
  Proof.
    destruct 1; intros G; (split; [intros t1 T; try discriminate T; apply (f_equal (fun o => match o with Some x => x | None => t1 end)) in T; subst t1|intros c C; try discriminate C; try (injection C as <-; cbn; auto)]);
      try (cbn; split; [auto|lia]).
    - destruct (kids d); cbn; split; auto.
    - destruct the_mode; cbn; split; auto.
    - destruct the_mode; discriminate.
    - cbn [single_worker length] in G. destruct l; [cbn; split; [lia|auto]|cbn [length] in G; lia].
  Qed.
  Lemma start_single c t : start A c = Ok t -> single_chunk c -> single_worker (Run t).
  Proof. destruct c as [l|[|x l]|[|x l]]; cbn [start]; intros H; inversion H; auto. Qed.
  Lemma step_single s a s' : step s a s' -> single s -> single s'.
  Proof.
    intros S [G1 G2]. revert S. unfold single. cases; simp; try rewrite E in G2;
      try (split; [assumption|eapply forall_replace; [eassumption|exact I]]); try (split; assumption).
    - rewrite Q in G1. apply Forall_app in G1 as [Q1 Q2]. inversion Q2; subst. split; [apply Forall_app; auto|].
      eapply forall_replace; [eassumption|]. eapply start_single; eassumption.
    - apply work_works in Wk. destruct (works_single _ _ _ Wk) as [H1 H2]; [apply (forall_at _ _ _ _ G2)|].
      split; [|eapply forall_replace; [eassumption|now apply H1]].
      destruct e; cbn [affect set_workers set_queue receive queue]; try assumption. apply Forall_app. auto.
    - rewrite Q in G1. apply Forall_app in G1 as [Q1 Q2]. inversion Q2; subst. split; [apply Forall_app; auto|].
      eapply forall_replace; [eassumption|]. exact I.
    - split; [assumption|]. clear. induction (workers s); constructor; auto. exact I.
  Qed.
  Lemma inv_single roots ls s : run (initial roots) ls s -> single s.
  Proof.
    revert ls s. apply run_ind_inv.
    - split; unfold WalkModel.initial; simp.
      + induction roots; constructor; auto. exact I.
      + induction jobs; constructor; auto. exact I.
    - intros. eapply step_single; eassumption.
  Qed.
  Lemma step_halted s a s' : step s a s' -> single s -> stopping s = true ->
    stopping s' = true /\ length (ran s') + may (workers s') <= length (ran s) + may (workers s).
  Proof.
    intros S [G1 G2] H. revert S. cases; simp; try congruence; try (split; [reflexivity || assumption|]);
      try (rewrite E, !may_at; cbn [may_run]; destruct (_ : bool); lia); try (rewrite E, !may_at; cbn [may_run]; lia); try lia.
    - rewrite E, !may_at. cbn [may_run]. destruct t as [| | | | |[|]]; cbn; lia.
    - split; [destruct e; cbn; auto; now rewrite H|]. apply work_works in Wk. rewrite E in G2. destruct (works_single _ _ _ Wk (forall_at _ _ _ _ G2)) as [H1 _].
      destruct (H1 t' eq_refl) as [_ L]. rewrite E, !may_at.
      replace (length (ran (affect A halt e ok (set_workers A s (l ++ Run t' :: r))))) with (length (ran s) + match e with ERun _ => 1 | _ => 0 end)
        by (destruct e; cbn; rewrite ?app_length; cbn; lia). lia.
    - replace (may (map (fun _ => Passed) (workers s))) with 0; [lia|]. clear. unfold may. induction (workers s); auto.
  Qed.
  Lemma halted roots l1 s1 l2 s2 : run (initial roots) l1 s1 -> stopping s1 = true -> run s1 l2 s2 ->
    length (ran s2) <= length (ran s1) + may (workers s1).
  Proof.
    intros R1 H R2. enough (single s2 /\ stopping s2 = true /\ length (ran s2) + may (workers s2) <= length (ran s1) + may (workers s1)) by lia.
    pose proof (inv_single _ _ _ R1) as I. induction R2 as [|l s2 a s3 R2 (I2 & H2 & L) S]; [auto|].
    pose proof (step_single _ _ _ S I2). destruct (step_halted _ _ _ S I2 H2) as [H3 L3]. repeat split; auto; try apply H0. lia.
  Qed.
  Lemma workers_length roots ls s : run (initial roots) ls s -> length (workers s) = jobs.
  Proof.
    revert ls s. apply (run_ind_inv _ _ _ _ _ _ _ _ _ (fun s => length (workers s) = jobs)).
    - unfold WalkModel.initial. simp. apply repeat_length.
    - intros s a s' H. cases; simp; try assumption; try (rewrite E in H; rewrite app_length in *; exact H). now rewrite map_length.
  Qed.
  Lemma may_le (ws : list (worker A)) : may ws <= length ws.
  Proof. unfold may. induction ws as [|w ws IH]; [auto|]. cbn [filter length]. destruct (may_run w); cbn [length]; lia. Qed.
  Lemma halted_jobs roots l1 s1 l2 s2 : run (initial roots) l1 s1 -> stopping s1 = true -> run s1 l2 s2 ->
    length (ran s2) <= length (ran s1) + jobs.
  Proof.
    intros R1 H R2. pose proof (halted _ _ _ _ _ R1 H R2). pose proof (may_le (workers s1)). rewrite (workers_length _ _ _ R1) in *. lia.
  Qed.
  Lemma go_on roots ls s : halt = false -> ~ In LStop ls -> run (initial roots) ls s -> stopping s = false.
  Proof.
    intros Ha N R. remember (initial roots) as s0 eqn:E0. induction R as [|l s1 a s2 R IH S]; [now subst|].
    assert (IH' : stopping s1 = false) by (apply IH; intros I; apply N, in_or_app; now left).
    assert (Na : a <> LStop) by (intros ->; apply N, in_or_app; right; now left). clear - IH' Na S Ha. revert Na. revert S.
    cases; intros Na; try (now elim Na); try exact IH'. rewrite Ha. destruct e; cbn [affect set_workers set_queue receive stopping]; try exact IH'.
    rewrite IH', andb_false_r. reflexivity.
  Qed.
End Halt.
