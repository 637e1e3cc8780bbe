From Coq Require Import List ZArith Bool Lia Permutation.
From Verif Require Import Py PermTac WalkModel WalkSpec WalkProofs.
Import ListNotations.

Section Inv.
  Context {A : Type}.
  Variable excluded matched : A -> res bool.
  Variable rendered : A -> bool.
  Variable the_mode : mode.
  Variable jobs : nat.
  Variable halt prompt punctual : bool.
  Variable timeout : Z.
  Notation work := (work A excluded matched rendered the_mode jobs).
  Notation step := (step A excluded matched rendered the_mode jobs halt prompt punctual timeout).
  Notation run := (run A excluded matched rendered the_mode jobs halt prompt punctual timeout).
  Notation initial := (initial A jobs).
  Notation pend_chunk := (pend_chunk excluded matched rendered the_mode).
  Notation pend_task := (pend_task excluded matched rendered the_mode).
  Notation sinks := (sinks rendered the_mode).
  Notation expected := (expected excluded matched).
  Notation untroubled := (calm A excluded matched).

  (** The cases of a step of a worker *)
  Inductive works : task A -> option (task A) -> effect A -> Prop :=
  | w_dirs_nil : works (TDirs []) None ENone
  | w_dirs d ds : works (TDirs (d :: ds)) (Some (match kids d with [] => TDirs ds | l => TEntries l [] [] ds end)) ENone
  | w_entries_nil z p ds : works (TEntries [] z p ds) (Some (TPut (chunk_size jobs (length z)) z p ds)) ENone
  | w_drop x es z p ds : excluded (entry x) = Err OSErr \/ (excluded (entry x) = Ok false /\ matched (entry x) = Err OSErr) ->
      works (TEntries (x :: es) z p ds) (Some (TPut (chunk_size jobs (length z)) z p ds)) ENone
  | w_exclude x es z p ds : excluded (entry x) = Ok true -> works (TEntries (x :: es) z p ds) (Some (TEntries es z p ds)) ENone
  | w_entry x es z p ds b : excluded (entry x) = Ok false -> matched (entry x) = Ok b ->
      works (TEntries (x :: es) z p ds)
        (Some (TEntries es (if is_dir x then z ++ [x] else z) (if b then p ++ [x] else p) ds)) ENone
  | w_split x es z p ds b : excluded (entry x) = Ok false -> matched (entry x) = Ok b -> (10 < length es)%nat ->
      works (TEntries (x :: es) z p ds)
        (Some (TEntries (firstn (split_at (length es)) es) (if is_dir x then z ++ [x] else z) (if b then p ++ [x] else p) ds))
        (EPut (CEntries (skipn (split_at (length es)) es)))
  | w_put_nil n p ds : works (TPut n [] p ds) (Some (TEmit p ds)) ENone
  | w_put n x z p ds : works (TPut n (x :: z) p ds) (Some (TPut n (skipn n (x :: z)) p ds)) (EPut (CDirs (firstn n (x :: z))))
  | w_emit_nil ds : works (TEmit [] ds) (Some (TDirs ds)) ENone
  | w_emit x p ds : works (TEmit (x :: p) ds) (Some (TSend (firstn 100 (x :: p)) (skipn 100 (x :: p)) ds))
      (match the_mode with Collect => ENone | _ => EFound end)
  | w_send_nil p ds : works (TSend [] p ds) (Some (TEmit p ds)) ENone
  | w_send x es p ds : the_mode = Collect -> works (TSend (x :: es) p ds) (Some (TEmit p ds)) (ESend (map entry (x :: es)))
  | w_print x es p ds : the_mode = Console -> rendered (entry x) = true ->
      works (TSend (x :: es) p ds) (Some (TSend es p ds)) (EPrint (entry x))
  | w_exec x es p ds : the_mode = Exec -> rendered (entry x) = true ->
      works (TSend (x :: es) p ds) (Some (TSend es p ds)) (EPut (CArgs [entry x]))
  | w_skip x es p ds : the_mode <> Collect -> rendered (entry x) = false ->
      works (TSend (x :: es) p ds) (Some (TSend es p ds)) ENone
  | w_args_nil : works (TArgs []) None ENone
  | w_args a l : works (TArgs (a :: l)) (Some (TArgs l)) (ERun a).
  Lemma work_works sp t t' e : work sp t = Ok (t', e) -> works t t' e.
  Proof.
    intros H.
    destruct t as [[|d ds]|[|x es] z p ds|size [|x z] p ds|[|x p] ds|[|x es] p ds|[|y l0]]; cbn [WalkModel.work] in H;
      try (injection H as <- <-; constructor; fail).
    - destruct (excluded (entry x)) as [b|err] eqn:X.
      + destruct b; [injection H as <- <-; now constructor|].
        destruct (matched (entry x)) as [b|err] eqn:M.
        * destruct sp; cbn [andb] in H; [destruct (10 <? length es)%nat eqn:L|]; injection H as <- <-;
            [apply w_split; try assumption; now apply Nat.ltb_lt in L|now apply w_entry|now apply w_entry].
        * destruct err; try discriminate. injection H as <- <-. apply w_drop. now right.
      + destruct err; try discriminate. injection H as <- <-. apply w_drop. now left.
    - destruct the_mode eqn:Em.
      + injection H as <- <-. destruct (rendered (entry x)) eqn:R; [now apply w_print|apply w_skip; [congruence|assumption]].
      + injection H as <- <-. destruct (rendered (entry x)) eqn:R; [now apply w_exec|apply w_skip; [congruence|assumption]].
      + injection H as <- <-. now apply w_send.
  Qed.
  Lemma works_end t t' e : works t t' e -> t' = None -> e = ENone /\ pend_task t = [].
  Proof. destruct 1; intros Hn; try discriminate Hn; auto. Qed.
  Definition pend_worker (w : worker A) : list A := match w with Run t => pend_task t | _ => [] end.
  Definition finished (s : state A) : list A := printed s ++ map fst (ran s) ++ concat (outq s).
  Definition total (s : state A) : list A :=
    finished s ++ flat_map pend_chunk (queue s) ++ flat_map pend_worker (workers s).
  Definition crashed (w : worker A) : Prop := w = Failed \/ w = Killed.

  Lemma run_ind_inv (P : state A -> Prop) s : P s -> (forall s1 a s2, P s1 -> step s1 a s2 -> P s2) ->
    forall l s', run s l s' -> P s'.
  Proof. intros H0 HS l s' H. induction H; eauto. Qed.

  Lemma run_ind_reach (P : state A -> Prop) s : P s -> (forall l s1 a s2, run s l s1 -> P s1 -> step s1 a s2 -> P s2) ->
    forall l s', run s l s' -> P s'.
  Proof. intros H0 HS l s' H. induction H; eauto. Qed.

  Lemma start_pend c t : start A c = Ok t -> pend_task t = pend_chunk c.
  Proof.
    destruct c as [l|[|x l]|[|x l]]; cbn; intros H; inversion H; try reflexivity. cbn. now rewrite !app_nil_r.
  Qed.

  Lemma affect_workers e ok s : workers (affect A halt e ok s) = workers s.
  Proof. destruct e; reflexivity. Qed.
  Lemma affect_total e ok s : Permutation (total (affect A halt e ok s))
    (total s ++ pend_effect excluded matched rendered the_mode e).
  Proof.
    unfold total, finished. destruct e; cbn [affect printed ran outq queue workers set_queue receive pend_effect].
    - now rewrite app_nil_r.
    - rewrite flat_map_app. cbn [flat_map]. rewrite app_nil_r. perm.
    - now rewrite app_nil_r.
    - perm.
    - rewrite concat_app. cbn [concat]. rewrite app_nil_r. perm.
    - rewrite map_app. cbn [map fst]. perm.
  Qed.

  Ltac lost_nil := exists []; rewrite ?app_nil_r; split; [|auto].
  Lemma step_total s a s' : step s a s' -> exists lost, Permutation (total s) (total s' ++ lost) /\
    (untroubled -> lost = [] \/ Exists crashed (workers s')).
  Proof.
    assert (W : forall l r w w' q o, workers s = l ++ w :: r ->
      Permutation (pend_worker w ++ flat_map pend_chunk (queue s)) (pend_worker w' ++ flat_map pend_chunk q ++ o) ->
      Permutation (total s) (finished s ++ flat_map pend_chunk q ++ flat_map pend_worker (l ++ w' :: r) ++ o)).
    { intros l r w w' q o E P. unfold total. rewrite E, !flat_map_app. cbn [flat_map].
      transitivity (finished s ++ (pend_worker w ++ flat_map pend_chunk (queue s)) ++ flat_map pend_worker l ++ flat_map pend_worker r); [perm|].
      rewrite P. perm. }
    destruct 1 as [l r E St|l r E St|l r g q1 c q2 t E Q S|l r g E Q T|l r E St|l r E St|l r t sp ok t' e E Wk|l r t sp e E Wk
      |l r t E|l r g q1 c q2 x E Q S|l r w E N1 N2 N3 N4|q1 c q2 M Md O|M O|t M St|t M St|M|w M Iw D|M|t M F T|t T].
    - exists []. rewrite app_nil_r. split; [|auto]. unfold total at 2. cbn [set_workers queue outq printed ran workers].
      rewrite <- (app_nil_r (flat_map pend_worker _)). eapply W; [exact E|]. cbn. now rewrite app_nil_r.
    - exists []. rewrite app_nil_r. split; [|auto]. unfold total at 2. cbn [set_workers queue outq printed ran workers].
      rewrite <- (app_nil_r (flat_map pend_worker _)). eapply W; [exact E|]. cbn. now rewrite app_nil_r.
    - exists []. rewrite app_nil_r. split; [|auto]. unfold total at 2. cbn [set_workers set_queue queue outq printed ran workers].
      rewrite <- (app_nil_r (flat_map pend_worker _)). eapply W; [exact E|]. cbn [pend_worker app]. rewrite (start_pend _ _ S), Q, !flat_map_app.
      cbn [flat_map]. perm.
    - exists []. rewrite app_nil_r. split; [|auto]. unfold total at 2. cbn [set_workers queue outq printed ran workers].
      rewrite <- (app_nil_r (flat_map pend_worker _)). eapply W; [exact E|]. cbn. now rewrite app_nil_r.
    - exists []. rewrite app_nil_r. split; [|auto]. unfold total at 2. cbn [set_workers queue outq printed ran workers].
      rewrite <- (app_nil_r (flat_map pend_worker _)). eapply W; [exact E|]. cbn. now rewrite app_nil_r.
    - exists []. rewrite app_nil_r. split; [|auto]. unfold total at 2. cbn [set_workers queue outq printed ran workers].
      rewrite <- (app_nil_r (flat_map pend_worker _)). eapply W; [exact E|]. cbn. now rewrite app_nil_r.
    - destruct (work_perm excluded matched rendered the_mode jobs _ _ _ _ Wk) as (lost & P & C). exists lost. split.
      + rewrite (affect_total e ok). unfold total at 2. cbn [set_workers queue outq printed ran workers].
        rewrite (W l r _ (Run t') (queue s) (pend_effect excluded matched rendered the_mode e ++ lost) E); [perm|].
        cbn [pend_worker pend_opt] in *. rewrite P. perm.
      + intros U; left; auto.
    - destruct (work_perm excluded matched rendered the_mode jobs _ _ _ _ Wk) as (lost & P & C).
      exists (pend_effect excluded matched rendered the_mode e ++ lost). split.
      + unfold total at 2. cbn [set_workers queue outq printed ran workers].
        rewrite (W l r _ Idle (queue s) (pend_effect excluded matched rendered the_mode e ++ lost) E); [perm|].
        cbn [pend_worker pend_opt] in *. rewrite P. perm.
      + apply work_works in Wk. destruct (works_end _ _ _ Wk eq_refl) as [-> _]. cbn [pend_effect app].
        intros U; left; auto.
    - exists (pend_worker (Run t)). split.
      + unfold total at 2. cbn [set_workers set_stop queue outq printed ran workers].
        rewrite (W l r _ Failed (queue s) (pend_worker (Run t)) E); [perm|]. cbn [pend_worker app]. apply Permutation_app_comm.
      + intros _. right. cbn [set_workers set_stop workers]. apply Exists_app. right. left. now left.
    - exists (pend_chunk c). split.
      + unfold total at 2. cbn [set_workers set_stop set_queue queue outq printed ran workers].
        rewrite (W l r _ Failed (q1 ++ q2) (pend_chunk c) E); [perm|]. cbn [pend_worker app]. rewrite Q, !flat_map_app. cbn [flat_map]. perm.
      + intros _. right. cbn [set_workers set_stop workers]. apply Exists_app. right. left. now left.
    - exists (pend_worker w). split.
      + unfold total at 2. cbn [set_workers set_stop queue outq printed ran workers].
        rewrite (W l r _ Killed (queue s) (pend_worker w) E); [perm|]. cbn [pend_worker app]. apply Permutation_app_comm.
      + intros _. right. cbn [set_workers set_stop workers]. apply Exists_app. right. left. now right.
    - lost_nil. unfold total, finished. cbn [receive queue outq printed ran workers]. rewrite O, !concat_app. cbn [concat]. perm.
    - lost_nil. reflexivity.
    - lost_nil. reflexivity.
    - lost_nil. reflexivity.
    - lost_nil. reflexivity.
    - lost_nil. reflexivity.
    - lost_nil. reflexivity.
    - clear W. lost_nil. unfold total, finished. cbn [set_main set_workers queue outq printed ran workers].
      assert (H1 : flat_map pend_worker (workers s) = []) by (induction F; [reflexivity|cbn; subst; exact IHF]).
      assert (H2 : flat_map pend_worker (map (fun _ => Passed) (workers s)) = []) by (clear; induction (workers s); auto).
      now rewrite H1, H2.
    - lost_nil. reflexivity.
  Qed.

  (** A worker is replaced by another *)
  Lemma exists_replace (P Q : worker A -> Prop) l r w w' : Exists P (l ++ w :: r) ->
    (forall x, P x -> Q x) -> (P w -> Q w') -> Exists Q (l ++ w' :: r).
  Proof.
    intros H PQ R. apply Exists_app in H as [H|H].
    - apply Exists_app. left. eapply Exists_impl; [exact PQ|exact H].
    - apply Exists_app. right. inversion H; subst; [left; auto|right]. eapply Exists_impl; [exact PQ|assumption].
  Qed.
  Lemma exists_new (Q : worker A -> Prop) l r w' : Q w' -> Exists Q (l ++ w' :: r).
  Proof. intros H. apply Exists_app. right. now left. Qed.

  Ltac cases := intros
    [l r E St|l r E St|l r g q1 c q2 t E Q S|l r g E Q T|l r E St|l r E St|l r t sp ok t' e E Wk|l r t sp e E Wk
      |l r t E|l r g q1 c q2 x E Q S|l r w E N1 N2 N3 N4|q1 c q2 M Md O|M O|t M St|t M St|M|w M Iw D|M|t M F T|t T].
  Ltac simp := rewrite ?affect_workers; cbn [set_workers set_queue set_main set_stop receive tick queue outq printed ran workers main_ stopping code found now].

  Lemma waiting_none (P : worker A -> Prop) ws : ~ P Waiting -> Forall (eq Waiting) ws -> ~ Exists P ws.
  Proof. intros N F E. apply Exists_exists in E as (w & I & H). rewrite Forall_forall in F. apply F in I. subst w. auto. Qed.

  Lemma crash_stays s a s' : step s a s' -> Exists crashed (workers s) -> Exists crashed (workers s').
  Proof.
    cases; simp; intros H; try assumption; try (rewrite E in H; eapply exists_replace; [exact H|auto|];
      intros [?|?]; congruence).
    exfalso. revert H. apply waiting_none; [intros [C|C]; discriminate|exact F].
  Qed.
  Lemma initial_total roots : total (initial roots) = sinks (expected roots).
  Proof.
    unfold total, finished, initial. cbn [printed ran outq queue workers map concat app].
    assert (H : forall n, flat_map pend_worker (repeat Idle n) = []) by (induction n; auto). rewrite H, app_nil_r.
    unfold WalkProofs.expected. induction roots as [|d roots IH]; [reflexivity|]. cbn [map flat_map]. rewrite sinks_app, <- IH.
    cbn [pend_chunk WalkProofs.pend_chunk flat_map]. now rewrite app_nil_r.
  Qed.
  Lemma inv_total roots ls s : run (initial roots) ls s ->
    exists lost, Permutation (sinks (expected roots)) (total s ++ lost) /\ (untroubled -> lost = [] \/ Exists crashed (workers s)).
  Proof.
    revert ls s. apply (run_ind_inv (fun s => exists lost, Permutation (sinks (expected roots)) (total s ++ lost) /\
      (untroubled -> lost = [] \/ Exists crashed (workers s)))).
    - exists []. rewrite initial_total, app_nil_r. auto.
    - intros s1 a s2 (lost & P & C) S. destruct (step_total _ _ _ S) as (lost' & P' & C'). exists (lost' ++ lost). split.
      + rewrite P, P'. perm.
      + intros U. specialize (C U). specialize (C' U). destruct C as [->|C]; [rewrite app_nil_r; exact C'|].
        right. eapply crash_stays; eassumption.
  Qed.

  (** What is used in which mode *)
  Definition no_args_chunk (c : chunk A) : Prop := match c with CArgs _ => the_mode = Exec | _ => True end.
  Definition no_args_worker (w : worker A) : Prop := match w with Run (TArgs _) => the_mode = Exec | _ => True end.
  Definition moded (s : state A) : Prop :=
    Forall no_args_chunk (queue s) /\ Forall no_args_worker (workers s) /\
    (the_mode <> Collect -> outq s = []) /\ (the_mode <> Exec -> ran s = []) /\ (the_mode = Exec -> printed s = []).
  Lemma work_moded sp t t' e : work sp t = Ok (t', e) -> no_args_worker (Run t) ->
    (forall t1, t' = Some t1 -> no_args_worker (Run t1)) /\ (forall c, e = EPut c -> no_args_chunk c) /\
    (forall l, e = ESend l -> the_mode = Collect) /\ (forall a, e = ERun a -> the_mode = Exec) /\
    (forall a, e = EPrint a -> the_mode <> Exec).
  Proof.
    intros H N. apply work_works in H. destruct H; (split; [|split; [|split; [|split]]]); intros ? Eq; try discriminate;
      try (injection Eq as <-); cbn; auto; try (destruct (kids d); exact I); try congruence;
      destruct the_mode; discriminate.
  Qed.
  Lemma start_moded c t : start A c = Ok t -> no_args_chunk c -> no_args_worker (Run t).
  Proof. destruct c as [l|[|x l]|[|x l]]; cbn; intros H N; inversion H; subst; cbn; auto. Qed.
  Lemma forall_replace (P : worker A -> Prop) l r w w' : Forall P (l ++ w :: r) -> P w' -> Forall P (l ++ w' :: r).
  Proof. rewrite !Forall_app. intros [H1 H2] H. inversion H2; subst. auto. Qed.
  Lemma forall_at (P : worker A -> Prop) l r w : Forall P (l ++ w :: r) -> P w.
  Proof. rewrite !Forall_app. intros [H1 H2]. now inversion H2. Qed.
  Lemma inv_moded roots ls s : run (initial roots) ls s -> moded s.
  Proof.
    revert ls s. apply run_ind_inv.
    - unfold moded, initial. simp. repeat split; auto.
      + induction roots; constructor; auto. exact I.
      + induction jobs; constructor; auto. exact I.
    - intros s a s' (M1 & M2 & M3 & M4 & M5). unfold moded. cases; simp; try rewrite E in M2;
        try (repeat split; try assumption; eapply forall_replace; [eassumption|exact I]).
      + rewrite Q in M1. apply Forall_app in M1 as [Q1 Q2]. inversion Q2; subst. repeat split; try assumption.
        * apply Forall_app. auto.
        * eapply forall_replace; [eassumption|]. now eapply start_moded; eauto.
      + destruct (work_moded _ _ _ _ Wk (forall_at _ _ _ _ M2)) as (H1 & H2 & H3 & H4 & H5).
        assert (M2' : Forall no_args_worker (l ++ Run t' :: r)) by (eapply forall_replace; [eassumption|auto]).
        destruct e; cbn [affect set_queue receive queue outq printed ran workers set_workers].
        * repeat split; assumption.
        * repeat split; try assumption. apply Forall_app. split; [assumption|]. constructor; [auto|constructor].
        * repeat split; assumption.
        * repeat split; try assumption. intros C. now elim (H5 _ eq_refl).
        * repeat split; try assumption. intros C. now elim C; apply (H3 _ eq_refl).
        * repeat split; try assumption. intros C. now elim C; apply (H4 _ eq_refl).
      + rewrite Q in M1. apply Forall_app in M1 as [Q1 Q2]. inversion Q2; subst. repeat split; try assumption.
        * apply Forall_app. auto.
        * eapply forall_replace; [eassumption|exact I].
      + repeat split; try assumption; intros C; congruence.
      + repeat split; assumption.
      + repeat split; assumption.
      + repeat split; assumption.
      + repeat split; assumption.
      + repeat split; assumption.
      + repeat split; assumption.
      + repeat split; try assumption. clear. induction (workers s); constructor; auto. exact I.
      + repeat split; assumption.
  Qed.

  (** C38 *)
  Lemma sinks_in l a : In a (sinks l) <-> In a l /\ processable the_mode rendered a.
  Proof.
    unfold WalkProofs.sinks. rewrite in_flat_map. unfold sink, processable. split.
    - intros (x & Hx & H). destruct the_mode; [destruct (rendered x) eqn:R|destruct (rendered x) eqn:R|]; cbn [In] in H; intuition (subst; auto).
    - intros [H1 H2]. exists a. split; [exact H1|]. destruct the_mode; try rewrite H2; now left.
  Qed.
  Lemma sinks_sub l : Sub (sinks l) l.
  Proof.
    induction l as [|x l IH]; [apply sub_refl|]. unfold WalkProofs.sinks in *. cbn [flat_map]. change (x :: l) with ([x] ++ l).
    apply sub_app; [|exact IH]. unfold sink. destruct the_mode; [destruct (rendered x)|destruct (rendered x)|]; try apply sub_refl; apply sub_nil.
  Qed.
  Lemma results_finished s : moded s -> Sub (results the_mode s) (finished s).
  Proof.
    intros (_ & _ & M3 & M4 & M5). unfold results, finished. destruct the_mode.
    - exists (map fst (ran s) ++ concat (outq s)). reflexivity.
    - rewrite M5 by reflexivity. now exists (concat (outq s)).
    - exists (map fst (ran s) ++ concat (outq s)). reflexivity.
  Qed.
  Lemma results_sub roots ls s : run (initial roots) ls s -> Sub (results the_mode s) (sinks (expected roots)).
  Proof.
    intros R. destruct (inv_total _ _ _ R) as (lost & P & _). eapply sub_trans; [apply results_finished; eapply inv_moded; exact R|].
    unfold total in P. exists ((flat_map pend_chunk (queue s) ++ flat_map pend_worker (workers s)) ++ lost). rewrite P. perm.
  Qed.
  Lemma safe roots ls s : run (initial roots) ls s ->
    (forall a, In a (results the_mode s) -> Match A excluded matched roots a /\ processable the_mode rendered a) /\
    (NoDup (tree_all roots) -> NoDup (results the_mode s)).
  Proof.
    intros R. apply results_sub in R. split.
    - intros a H. apply (sub_in _ _ _ R) in H. apply sinks_in in H as [H1 H2]. split; [|exact H2]. now apply expected_in.
    - intros N. apply (sub_nodup _ _ R). apply (sub_nodup _ (expected roots)); [apply sinks_sub|].
      eapply sub_nodup; [apply expected_sub|exact N].
  Qed.

  (** C39 *)
  Definition awake (w : worker A) : Prop := w <> Waiting /\ w <> Passed.
  Definition passing (s : state A) : Prop :=
    (prompt = true -> queue s <> [] -> Exists awake (workers s)) /\
    (main_ s = MPassed -> Forall (eq Passed) (workers s)) /\
    (Exists (eq Passed) (workers s) -> main_ s = MPassed).
  Lemma not_passed l r (w : worker A) : w <> Passed -> ~ Forall (eq Passed) (l ++ w :: r).
  Proof. intros N F. apply forall_at in F. congruence. Qed.
  Lemma inv_passing roots ls s : (0 < jobs)%nat -> run (initial roots) ls s -> passing s.
  Proof.
    intros J. revert ls s. apply run_ind_inv.
    - unfold passing, initial. simp. split; [|split].
      + intros _ _. destruct jobs; [lia|]. left. split; discriminate.
      + discriminate.
      + intros H. apply Exists_exists in H as (w & I & <-). apply repeat_spec in I. discriminate.
    - intros s a s' (P1 & P2 & P3).
      assert (W : forall l r w w', workers s = l ++ w :: r -> w <> Passed -> w' <> Passed ->
        (main_ s = MPassed -> Forall (eq Passed) (l ++ w' :: r)) /\ (Exists (eq Passed) (l ++ w' :: r) -> main_ s = MPassed)).
      { intros l r w w' E N N'. rewrite E in P2, P3. split.
        - intros M. apply P2 in M. now apply not_passed in M.
        - intros H. apply P3. eapply exists_replace; [exact H|auto|congruence]. }
      unfold passing. cases; simp;
        try (split; [intros _ _; apply exists_new; split; discriminate|]; apply (W _ _ _ _ E); congruence || assumption).
      + split; [intros H1 H2; now elim H2; apply Q|]. apply (W _ _ _ _ E); discriminate.
      + destruct (W _ _ _ (Run t') E) as [W1 W2]; try discriminate.
        split; [intros _ _; apply exists_new; split; discriminate|].
        replace (main_ (affect _ _ _ _ _)) with (main_ s) by (destruct e; reflexivity). auto.
      + split; [assumption|]. split; assumption.
      + split; [assumption|]. split; [discriminate|]. rewrite M in P3. intros H. now apply P3 in H.
      + split; [assumption|]. split; [discriminate|]. rewrite M in P3. intros H. now apply P3 in H.
      + split; [assumption|]. split; [discriminate|]. rewrite M in P3. intros H. now apply P3 in H.
      + split; [assumption|]. split; [discriminate|]. rewrite M in P3. intros H. now apply P3 in H.
      + split; [assumption|]. split; [discriminate|]. rewrite M in P3. intros H. now apply P3 in H.
      + split; [assumption|]. split; [discriminate|]. intros H. apply P3 in H. destruct M as [M|[M|[t M]]]; congruence.
      + split; [|split].
        * intros H1 H2. exfalso. apply (waiting_none awake (workers s)); [intros [C _]; congruence|exact F|auto].
        * intros _. clear. induction (workers s); constructor; auto.
        * reflexivity.
      + split; [assumption|]. split; assumption.
  Qed.
  Lemma passed_total roots ls s : (0 < jobs)%nat -> prompt = true -> untroubled -> run (initial roots) ls s ->
    main_ s = MPassed -> Permutation (sinks (expected roots)) (finished s).
  Proof.
    intros J Pr U R M. destruct (inv_passing _ _ _ J R) as (P1 & P2 & _). specialize (P2 M).
    destruct (inv_total _ _ _ R) as (lost & P & C). specialize (C U).
    assert (N : forall P : worker A -> Prop, ~ P Passed -> ~ Exists P (workers s)).
    { intros Q N H. apply Exists_exists in H as (w & I & H). rewrite Forall_forall in P2. apply P2 in I. subst w. auto. }
    destruct C as [->|C]; [|now apply N in C; [|intros [X|X]; discriminate]]. rewrite app_nil_r in P. rewrite P.
    assert (queue s = []) as Q.
    { destruct (queue s) as [|c q] eqn:Eq; [reflexivity|]. exfalso. apply (N awake); [intros [_ X]; congruence|].
      apply P1; [exact Pr|]. discriminate. }
    unfold total. rewrite Q. cbn [flat_map]. assert (flat_map pend_worker (workers s) = []) as ->.
    { clear -P2. induction P2; [reflexivity|]. subst x. exact IHP2. }
    now rewrite !app_nil_r.
  Qed.
  Lemma complete roots ls s : (0 < jobs)%nat -> prompt = true -> untroubled -> run (initial roots) ls s ->
    main_ s = MPassed ->
    forall a, Match A excluded matched roots a -> processable the_mode rendered a ->
      In a (results the_mode s) \/ In a (concat (outq s)).
  Proof.
    intros J Pr U R M a Ha Hr. pose proof (passed_total _ _ _ J Pr U R M) as P.
    assert (I : In a (finished s)). { apply (Permutation_in _ P). apply sinks_in. split; [now apply expected_in|exact Hr]. }
    destruct (inv_moded _ _ _ R) as (_ & _ & M3 & M4 & M5). unfold finished in I. rewrite !in_app_iff in I. unfold results.
    destruct the_mode; try rewrite M4 in I by discriminate; try rewrite M5 in I by reflexivity; cbn in I; tauto.
  Qed.

  (** C41 *)
  Definition late (t n : Z) (w : worker A) : Prop :=
    match w with Waiting => (t + timeout <= n)%Z | Getting g => (t <= g)%Z | Passed => False | _ => True end.
  Definition timely (s : state A) : Prop :=
    (forall t, main_ s = MWait t -> (t <= now s)%Z /\ (outq s <> [] -> Exists (late t (now s)) (workers s))) /\
    (main_ s = MPassed -> outq s = []).
  Lemma inv_timely roots ls s : (0 < jobs)%nat -> prompt = true -> punctual = true -> run (initial roots) ls s -> timely s.
  Proof.
    intros J Pr Pu. revert ls s. apply run_ind_reach.
    - unfold timely, initial. simp. split; [discriminate|discriminate].
    - intros ls s a s' R (T1 & T2) S. pose proof (inv_passing _ _ _ J R) as (_ & P2 & P3). pose proof (inv_moded _ _ _ R) as (_ & _ & M3 & _ & _).
      assert (W : forall l r w w', workers s = l ++ w :: r -> w <> Passed ->
        (forall t, (t <= now s)%Z -> late t (now s) w -> late t (now s) w') ->
        (forall t, main_ s = MWait t -> (t <= now s)%Z /\ (outq s <> [] -> Exists (late t (now s)) (l ++ w' :: r))) /\
        (main_ s = MPassed -> outq s = [])).
      { intros l r w w' E N L. split.
        - intros t M. destruct (T1 t M) as [H1 H2]. split; [exact H1|]. intros O. rewrite E in H2.
          eapply exists_replace; [apply H2, O|auto|auto].
        - intros M. apply P2 in M. rewrite E in M. now apply not_passed in M. }
      unfold timely. revert S. cases; simp;
        try (apply (W _ _ _ _ E); [congruence|intros t0 H0 H1; cbn in *; auto; lia]).
      + destruct (W _ _ _ (Run t') E) as [W1 W2]; [discriminate|cbn; auto|].
        assert (N : main_ s <> MPassed). { intros C. apply P2 in C. rewrite E in C. revert C. now apply not_passed. }
        replace (main_ (affect _ _ _ _ _)) with (main_ s) by (destruct e; reflexivity).
        replace (now (affect _ _ _ _ _)) with (now s) by (destruct e; reflexivity). split; [|intros C; contradiction].
        intros t0 M0. destruct (T1 t0 M0) as [H1 _]. split; [exact H1|]. intros _. apply exists_new. exact I.
      + split; [intros t0 H|intros H]; congruence.
      + split; [|discriminate]. intros t H. injection H as <-. split; [lia|]. intros O'. exfalso. apply O'.
        destruct the_mode eqn:Em; [apply M3; discriminate|apply M3; discriminate|apply O; auto].
      + split; [|discriminate]. intros t0 H. discriminate.
      + split; [|discriminate]. intros t0 H. discriminate.
      + split; [|discriminate]. intros t0 H. discriminate.
      + split; [|discriminate]. intros t0 H. discriminate.
      + split; [|discriminate]. intros t0 H. discriminate.
      + split; [intros t0 H; discriminate|]. intros _. destruct (outq s) as [|c q] eqn:O; [reflexivity|]. exfalso.
        destruct (T1 t M) as [H1 H2]. specialize (H2 ltac:(discriminate)). revert H2. apply waiting_none; [|exact F].
        cbn. specialize (T Pu). lia.
      + split; [|exact T2]. intros t0 M. destruct (T1 t0 M) as [H1 H2]. split; [lia|]. intros O. specialize (H2 O).
        eapply Exists_impl; [|exact H2]. intros [] H; cbn in *; auto; lia.
  Qed.
  Lemma collected roots ls s : (0 < jobs)%nat -> prompt = true -> punctual = true -> run (initial roots) ls s ->
    main_ s = MPassed -> outq s = [].
  Proof. intros J Pr Pu R. apply (inv_timely _ _ _ J Pr Pu R). Qed.

  (** C50 *)
  Definition ended (w : worker A) : Prop := w = Passed \/ w = Stopped \/ w = Failed \/ w = Killed.
  Definition succeeded (p : A * bool) : Prop := snd p = true.
  Definition failed (p : A * bool) : Prop := snd p = false.
  Definition coded (s : state A) : Prop :=
    (code s = EX_OK -> Forall succeeded (ran s) /\ ~ Exists (eq Failed) (workers s) /\ (stopping s = true -> main_ s = MInterrupted)) /\
    (code s = EX_SUBPROCESS -> Exists failed (ran s)) /\
    (code s = EX_PROCESS -> Exists ended (workers s)) /\
    (code s = EX_OK \/ code s = EX_SUBPROCESS \/ code s = EX_PROCESS) /\
    (main_ s = MStopped -> stopping s = true).
  Lemma inv_coded roots ls s : run (initial roots) ls s -> coded s.
  Proof.
    revert ls s. apply run_ind_inv.
    - unfold coded, initial. simp. repeat split; try discriminate; auto.
      intros Hx. apply Exists_exists in Hx as (w & I & <-). apply repeat_spec in I. discriminate.
    - intros s a s' (C1 & C2 & C3 & C4 & C5).
      assert (W : forall l r w w', workers s = l ++ w :: r -> ~ ended w -> w' <> Failed ->
        (code s = EX_OK -> Forall succeeded (ran s) /\ ~ Exists (eq Failed) (l ++ w' :: r) /\ (stopping s = true -> main_ s = MInterrupted)) /\
        (code s = EX_PROCESS -> Exists ended (l ++ w' :: r))).
      { intros l r w w' E N N'. rewrite E in C1, C3. split.
        - intros H. destruct (C1 H) as (H1 & H2 & H3). split; [exact H1|]. split; [|exact H3]. intros X. apply H2.
          eapply exists_replace; [exact X|auto|]. congruence.
        - intros H. eapply exists_replace; [apply C3, H|auto|]. contradiction. }
      assert (NE : ~ ended Idle /\ (forall g, ~ ended (Getting g)) /\ ~ ended Waiting /\ (forall t, ~ ended (Run t)))
        by (unfold ended; intuition discriminate).
      destruct NE as (NE1 & NE2 & NE3 & NE4).
      assert (MI : main_ s = MInterrupted -> ~ (main_ s = MGet \/ main_ s = MCheck \/ exists t, main_ s = MWait t)).
      { intros H [X|[X|[t X]]]; congruence. }
      unfold coded. cases; simp;
        try (assert (N' : ~ ended w) by (intros [?|[?|[?|?]]]; contradiction));
        try (destruct (W _ _ _ Idle E ltac:(auto) ltac:(discriminate)) as [W1 W2]; repeat split; assumption || now apply W1);
        try (destruct (W _ _ _ (Getting (now s)) E ltac:(auto) ltac:(discriminate)) as [W1 W2]; repeat split; assumption || now apply W1);
        try (destruct (W _ _ _ Waiting E ltac:(auto) ltac:(discriminate)) as [W1 W2]; repeat split; assumption || now apply W1);
        try (destruct (W _ _ _ (Run t) E ltac:(auto) ltac:(discriminate)) as [W1 W2]; repeat split; assumption || now apply W1);
        try (destruct (W _ _ _ Killed E ltac:(auto) ltac:(discriminate)) as [W1 W2]; repeat split; assumption || now apply W1);
        try (destruct (W _ _ _ Stopped E ltac:(auto) ltac:(discriminate)) as [W1 W2]; repeat split; assumption || now apply W1).
      + destruct (W _ _ _ (Run t') E ltac:(auto) ltac:(discriminate)) as [W1 W2].
        destruct e; cbn [affect set_queue receive queue outq printed ran workers set_workers main_ stopping code].
        1-5: repeat split; assumption || now apply W1.
        destruct ok; cbn [negb andb orb].
        * rewrite orb_false_r. repeat split; try assumption; try (now apply W1).
          -- intros. apply Forall_app. split; [now apply W1|]. constructor; [reflexivity|constructor].
          -- intros H. apply Exists_app. left. auto.
        * repeat split; try discriminate; auto.
          -- intros _. apply Exists_app. right. now left.
          -- intros H. rewrite (C5 H). reflexivity.
      + repeat split; try discriminate; auto. intros _. apply exists_new. right. right. now left.
      + repeat split; try discriminate; auto. intros _. apply exists_new. right. right. now left.
      + repeat split; try assumption; now apply C1.
      + repeat split; try assumption; try (now apply C1). intros H1. apply C1 in H as (_ & _ & H). specialize (H H1). congruence. discriminate.
      + repeat split; try assumption; try (now apply C1); try discriminate. intros H1. apply C1 in H as (_ & _ & H). specialize (H H1). congruence.
      + repeat split; try assumption; try (now apply C1); try discriminate. intros H1. apply C1 in H as (_ & _ & H). specialize (H H1). congruence. auto.
      + repeat split; try assumption; try (now apply C1); try discriminate. intros H1. apply C1 in H as (_ & _ & H). specialize (H H1). congruence.
      + repeat split; try discriminate; auto. intros _. apply Exists_exists. exists w. split; [exact Iw|]. exact D.
      + repeat split; try assumption; try (now apply C1); try discriminate.
      + assert (NF : forall P : worker A -> Prop, ~ P Waiting -> ~ Exists P (workers s)) by (intros P N; now apply waiting_none).
        repeat split; try assumption; try (now apply C1); try discriminate.
        * intros X. apply Exists_exists in X as (w & I & <-). apply in_map_iff in I as (? & X & _). discriminate.
        * intros H1. apply C1 in H as (_ & _ & H). specialize (H H1). congruence.
        * intros H. apply C3 in H. now apply NF in H.
      + repeat split; try assumption; now apply C1.
  Qed.
  Lemma exit_zero roots ls s fail : run (initial roots) ls s -> main_ s = MPassed \/ main_ s = MStopped ->
    exit_status A the_mode fail s = EX_OK \/ exit_status A the_mode fail s = EX_NORESULT ->
    main_ s = MPassed /\ Forall succeeded (ran s).
  Proof.
    intros R M H. destruct (inv_coded _ _ _ R) as (C1 & C2 & C3 & C4 & C5).
    assert (code s = EX_OK) as Z.
    { unfold exit_status in H. destruct C4 as [C4|[C4|C4]]; [exact C4| |]; rewrite C4 in H; cbn in H; destruct H; discriminate. }
    destruct (C1 Z) as (H1 & H2 & H3). split; [|exact H1]. destruct M as [M|M]; [exact M|]. specialize (H3 (C5 M)). congruence.
  Qed.
  Lemma exit_cases roots ls s fail : run (initial roots) ls s ->
    (exit_status A the_mode fail s = EX_SUBPROCESS -> Exists failed (ran s)) /\
    (exit_status A the_mode fail s = EX_PROCESS -> Exists ended (workers s)) /\
    (Exists failed (ran s) -> exit_status A the_mode fail s = EX_SUBPROCESS \/ exit_status A the_mode fail s = EX_PROCESS) /\
    (Exists (eq Failed) (workers s) -> exit_status A the_mode fail s = EX_SUBPROCESS \/ exit_status A the_mode fail s = EX_PROCESS).
  Proof.
    intros R. destruct (inv_coded _ _ _ R) as (C1 & C2 & C3 & C4 & C5).
    assert (X : (code s = EX_OK /\ (exit_status A the_mode fail s = EX_OK \/ exit_status A the_mode fail s = EX_NORESULT)) \/
                (code s <> EX_OK /\ exit_status A the_mode fail s = code s)).
    { unfold exit_status. destruct C4 as [C4|[C4|C4]]; rewrite C4; cbn [Z.eqb EX_OK EX_SUBPROCESS EX_PROCESS Pos.eqb].
      - left. split; [reflexivity|]. destruct (fail && _); auto.
      - right. split; [discriminate|reflexivity].
      - right. split; [discriminate|reflexivity]. }
    destruct X as [[X [Y|Y]]|[X Y]]; rewrite Y.
    - destruct (C1 X) as (H1 & H2 & _). repeat split; try discriminate; intros H; exfalso; [|auto].
      apply Exists_exists in H as (p & I & F). rewrite Forall_forall in H1. apply H1 in I. unfold failed, succeeded in *. congruence.
    - destruct (C1 X) as (H1 & H2 & _). repeat split; try discriminate; intros H; exfalso; [|auto].
      apply Exists_exists in H as (p & I & F). rewrite Forall_forall in H1. apply H1 in I. unfold failed, succeeded in *. congruence.
    - repeat split; auto; intros _; destruct C4 as [C4|C4]; auto; congruence.
  Qed.
  Lemma all_passed roots ls s : (0 < jobs)%nat -> run (initial roots) ls s -> main_ s = MPassed -> Forall (eq Passed) (workers s).
  Proof. intros J R. apply (inv_passing _ _ _ J R). Qed.

  (** --fail *)
  Definition raw_chunk (c : chunk A) : list A :=
    match c with
    | CEntries l => flat_map (pend_node excluded matched) l
    | CDirs l => flat_map (pend_dir excluded matched) l
    | CArgs l => []
    end.
  Definition raw_task (t : task A) : list A :=
    match t with
    | TDirs ds => flat_map (pend_dir excluded matched) ds
    | TEntries es s p ds => flat_map (pend_node excluded matched) es ++ flat_map (pend_dir excluded matched) s ++
                            map entry p ++ flat_map (pend_dir excluded matched) ds
    | TPut _ s p ds => flat_map (pend_dir excluded matched) s ++ map entry p ++ flat_map (pend_dir excluded matched) ds
    | TEmit p ds => map entry p ++ flat_map (pend_dir excluded matched) ds
    | TSend es p ds => map entry p ++ flat_map (pend_dir excluded matched) ds
    | TArgs l => []
    end.
  Definition raw_effect (e : effect A) : list A := match e with EPut c => raw_chunk c | _ => [] end.
  Definition raw_opt (t : option (task A)) : list A := match t with Some t => raw_task t | None => [] end.
  Definition raw_worker (w : worker A) : list A := match w with Run t => raw_task t | _ => [] end.
  Definition raw (s : state A) : list A := flat_map raw_chunk (queue s) ++ flat_map raw_worker (workers s).
  Lemma raw_work t t' e : works t t' e -> exists rest, Permutation (raw_task t) (raw_opt t' ++ raw_effect e ++ rest) /\
    (the_mode <> Collect -> untroubled -> e <> EFound -> rest = []) /\ (e = EFound -> rest <> []).
  Proof.
    assert (N : forall (a : list A) b e, a = b -> raw_effect e = [] -> e <> EFound -> exists rest, Permutation a (b ++ raw_effect e ++ rest) /\
      (the_mode <> Collect -> untroubled -> e <> EFound -> rest = []) /\ (e = EFound -> rest <> [])).
    { intros a b x -> -> H. exists []. cbn. rewrite app_nil_r. repeat split; auto. }
    destruct 1; try (apply N; [reflexivity|reflexivity|discriminate]).
    - apply N; try discriminate; try reflexivity. cbn [raw_task raw_opt flat_map]. unfold pend_dir at 1. now destruct (kids d).
    - exists (flat_map (pend_node excluded matched) (x :: es)). cbn [raw_task raw_opt raw_effect app]. split; [perm|].
      split; [|discriminate]. intros _ U _. destruct (U (entry x)) as [[b1 U1] [b2 U2]]. destruct H as [H|[_ H]]; congruence.
    - apply N; try discriminate; try reflexivity. cbn [raw_task raw_opt flat_map]. rewrite pend_node_eq, H. reflexivity.
    - pose proof (entry_perm excluded matched x es z p ds b H H0) as P. exists []. cbn [raw_task raw_opt raw_effect app].
      rewrite app_nil_r. repeat split; auto. discriminate.
    - pose proof (entry_perm excluded matched x es z p ds b H H0) as P. exists []. cbn [raw_task raw_opt raw_effect raw_chunk].
      rewrite app_nil_r. repeat split; auto; [|discriminate]. rewrite P.
      rewrite <- (firstn_skipn (split_at (length es)) es) at 1. rewrite flat_map_app. perm.
    - exists []. cbn [raw_task raw_opt raw_effect raw_chunk]. rewrite app_nil_r. repeat split; auto; [|discriminate].
      rewrite <- (firstn_skipn n (x :: z)) at 1. rewrite flat_map_app. perm.
    - exists (map entry (firstn 100 (x :: p))). replace (raw_effect _) with (@nil A) by (destruct the_mode; reflexivity).
      repeat split.
      + cbn [raw_task raw_opt app]. rewrite <- (firstn_skipn 100 (x :: p)) at 1. rewrite map_app. perm.
      + intros M _ X. destruct the_mode; congruence.
      + discriminate.
  Qed.
  Lemma raw_start c t : start A c = Ok t -> raw_task t = raw_chunk c.
  Proof. destruct c as [l|[|x l]|[|x l]]; cbn; intros H; inversion H; try reflexivity. cbn. now rewrite !app_nil_r. Qed.
  Definition seen (roots : list (node A)) (s : state A) : Prop :=
    (exists rest, Permutation (expected roots) (raw s ++ rest) /\
      (the_mode <> Collect -> untroubled -> found s = false -> rest = [] \/ Exists crashed (workers s))) /\
    (found s = true -> expected roots <> []).
  Lemma raw_replace s l r w w' q o : workers s = l ++ w :: r ->
    Permutation (raw_worker w ++ flat_map raw_chunk (queue s)) (raw_worker w' ++ flat_map raw_chunk q ++ o) ->
    Permutation (raw s) ((flat_map raw_chunk q ++ flat_map raw_worker (l ++ w' :: r)) ++ o).
  Proof.
    intros E P. unfold raw. rewrite E, !flat_map_app. cbn [flat_map].
    transitivity ((raw_worker w ++ flat_map raw_chunk (queue s)) ++ flat_map raw_worker l ++ flat_map raw_worker r); [perm|].
    rewrite P. perm.
  Qed.
  Lemma inv_seen roots ls s : run (initial roots) ls s -> seen roots s.
  Proof.
    revert ls s. apply run_ind_inv.
    - unfold seen. split; [|discriminate]. exists []. rewrite app_nil_r. split; [|auto].
      unfold raw, initial. simp. assert (H : forall n, flat_map raw_worker (repeat Idle n) = []) by (induction n; auto). rewrite H, app_nil_r.
      unfold WalkProofs.expected. induction roots as [|d roots IH]; [reflexivity|]. cbn [map flat_map raw_chunk]. rewrite app_nil_r.
      now apply Permutation_app_head.
    - intros s a s' ((rest & P & C) & Fo) S.
      assert (CS : Exists crashed (workers s) -> Exists crashed (workers s')) by (eapply crash_stays; exact S).
      assert (K : forall o, Permutation (raw s) (raw s' ++ o) -> found s' = found s ->
                  (the_mode <> Collect -> untroubled -> o = [] \/ Exists crashed (workers s')) -> seen roots s').
      { intros o PO FO CO. split; [|rewrite FO; exact Fo]. exists (o ++ rest). split; [rewrite P, PO; perm|].
        intros M U Hf. rewrite FO in Hf. destruct (C M U Hf) as [->|X]; [|right; auto]. rewrite app_nil_r. auto. }
      revert S CS K. cases; simp; intros CS K;
        try (apply (K []); [rewrite app_nil_r; reflexivity|reflexivity|auto]);
        try (apply (K []); [unfold raw at 2; simp; eapply raw_replace; [exact E|]; cbn [raw_worker app]; now rewrite app_nil_r|reflexivity|auto]).
      + apply (K []); [|reflexivity|auto]. unfold raw at 2. simp. eapply raw_replace; [exact E|]. cbn [raw_worker app].
        rewrite (raw_start _ _ S), Q, !flat_map_app. cbn [flat_map]. perm.
      + apply work_works in Wk. destruct (raw_work _ _ _ Wk) as (o & PO & CO & NO).
        assert (PR : Permutation (raw s) (raw (affect A halt e ok (set_workers A s (l ++ Run t' :: r))) ++ o)).
        { replace (raw (affect A halt e ok (set_workers A s (l ++ Run t' :: r)))) with
            (flat_map raw_chunk (match e with EPut c => queue s ++ [c] | _ => queue s end) ++ flat_map raw_worker (l ++ Run t' :: r))
            by (destruct e; reflexivity).
          eapply raw_replace; [exact E|]. cbn [raw_worker raw_opt] in *. rewrite PO.
          destruct e; cbn [raw_effect] in *; try perm. rewrite flat_map_app. cbn [flat_map]. perm. }
        assert (FE : e = EFound \/ (e <> EFound /\ found (affect A halt e ok (set_workers A s (l ++ Run t' :: r))) = found s)).
        { destruct e; auto; right; (split; [discriminate|reflexivity]). }
        destruct FE as [FE|[FE FF]].
        * subst e. split; [|].
          -- exists (o ++ rest). split; [rewrite P, PR; perm|]. intros _ _ X. discriminate.
          -- intros _ X. assert (PX : Permutation (expected roots) ((raw (affect A halt EFound ok (set_workers A s (l ++ Run t' :: r))) ++ o) ++ rest)) by (rewrite P, PR; reflexivity). rewrite X in PX. apply Permutation_nil in PX. rename PX into X'. clear X. rename X' into X. apply app_eq_nil in X as [X _]. apply app_eq_nil in X as [_ X].
             now apply NO.
        * apply (K o PR FF). intros M U. left. auto.
      + apply work_works in Wk. destruct (works_end _ _ _ Wk eq_refl) as [-> _].
        destruct (raw_work _ _ _ Wk) as (o & PO & CO & NO). cbn [raw_opt raw_effect app] in PO.
        apply (K o); [|reflexivity|intros M U; left; apply CO; auto; discriminate]. unfold raw at 2. simp. eapply raw_replace; [exact E|].
        cbn [raw_worker app]. rewrite PO. perm.
      + apply (K (raw_task t)); [|reflexivity|intros; right; apply exists_new; now left]. unfold raw at 2. simp.
        eapply raw_replace; [exact E|]. cbn [raw_worker app]. perm.
      + apply (K (raw_chunk c)); [|reflexivity|intros; right; apply exists_new; now left]. unfold raw at 2. simp.
        eapply raw_replace; [exact E|]. cbn [raw_worker app]. rewrite Q, !flat_map_app. cbn [flat_map]. perm.
      + apply (K (raw_worker w)); [|reflexivity|intros; right; apply exists_new; now right]. unfold raw at 2. simp.
        eapply raw_replace; [exact E|]. cbn [raw_worker app]. perm.
      + apply (K []); [|reflexivity|auto]. rewrite app_nil_r. unfold raw. simp. apply Permutation_app_head.
        assert (H2 : flat_map raw_worker (map (fun _ => Passed) (workers s)) = []) by (clear; induction (workers s); auto).
        rewrite H2. clear -F. induction F; [reflexivity|]. subst. exact IHF.
  Qed.
  Lemma found_spec roots ls s : (0 < jobs)%nat -> prompt = true -> untroubled -> the_mode <> Collect -> run (initial roots) ls s ->
    main_ s = MPassed -> (found s = true <-> exists a, Match A excluded matched roots a).
  Proof.
    intros J Pr U Mo R M. destruct (inv_seen _ _ _ R) as ((rest & P & C) & F).
    destruct (inv_passing _ _ _ J R) as (P1 & P2 & _). specialize (P2 M).
    assert (N : forall P : worker A -> Prop, ~ P Passed -> ~ Exists P (workers s)).
    { intros Q N H. apply Exists_exists in H as (w & I & H). rewrite Forall_forall in P2. apply P2 in I. subst w. auto. }
    assert (queue s = []) as Q.
    { destruct (queue s) as [|c q] eqn:Eq; [reflexivity|]. exfalso. apply (N awake); [intros [_ X]; congruence|].
      apply P1; [exact Pr|]. discriminate. }
    split.
    - intros H. apply F in H. destruct (expected roots) as [|a l] eqn:Ex; [congruence|]. exists a. apply (proj1 (expected_in excluded matched rendered roots a)).
      rewrite Ex. now left.
    - intros [a Ha]. destruct (found s) eqn:Fs; [reflexivity|]. exfalso. apply (proj2 (expected_in excluded matched rendered roots a)) in Ha.
      destruct (C Mo U eq_refl) as [->|X]; [|apply N in X; [exact X|intros [Y|Y]; discriminate]].
      apply (Permutation_in _ P) in Ha. rewrite app_nil_r in Ha. unfold raw in Ha. rewrite Q in Ha. cbn [flat_map app] in Ha.
      apply in_flat_map in Ha as (w & I & Ha). rewrite Forall_forall in P2. apply P2 in I. subst w. exact Ha.
  Qed.
End Inv.
