From Coq Require Import List ZArith Bool Lia Permutation Arith.
From Verif Require Import Py PermTac WalkModel WalkSpec WalkProofs WalkInvProofs.
Import ListNotations.

Fixpoint weight {A} (n : node A) : nat :=
  match n with Node _ _ l => 4 + list_sum (map (fun k => 12 + (if is_dir k then 3 + weight k else 0)) l) end.
Definition entry_weight {A} (k : node A) : nat := 12 + (if is_dir k then 3 + weight k else 0).
Definition dirs_weight {A} (l : list (node A)) : nat := list_sum (map weight l).
Definition entries_weight {A} (l : list (node A)) : nat := list_sum (map entry_weight l).
Definition search_weight {A} (l : list (node A)) : nat := list_sum (map (fun d => weight d + 3) l).
Lemma weight_eq {A} (n : node A) : weight n = 4 + entries_weight (kids n).
Proof. destruct n. reflexivity. Qed.
Lemma sum_cons x l : list_sum (x :: l) = x + list_sum l.
Proof. reflexivity. Qed.
Lemma sum_nil : list_sum [] = 0.
Proof. reflexivity. Qed.
Lemma dirs_weight_cons {A} (x : node A) l : dirs_weight (x :: l) = weight x + dirs_weight l.
Proof. reflexivity. Qed.
Lemma entries_weight_cons {A} (x : node A) l : entries_weight (x :: l) = entry_weight x + entries_weight l.
Proof. reflexivity. Qed.
Lemma dirs_weight_app {A} (a b : list (node A)) : dirs_weight (a ++ b) = dirs_weight a + dirs_weight b.
Proof. unfold dirs_weight. now rewrite map_app, list_sum_app. Qed.
Lemma entries_weight_app {A} (a b : list (node A)) : entries_weight (a ++ b) = entries_weight a + entries_weight b.
Proof. unfold entries_weight. now rewrite map_app, list_sum_app. Qed.
Lemma search_weight_app {A} (a b : list (node A)) : search_weight (a ++ b) = search_weight a + search_weight b.
Proof. unfold search_weight. now rewrite map_app, list_sum_app. Qed.
Lemma search_weight_dirs {A} (l : list (node A)) : search_weight l = dirs_weight l + 3 * length l.
Proof. induction l as [|x l IH]; [reflexivity|]. unfold search_weight, dirs_weight in *. cbn [map length] in *. rewrite ?sum_cons, ?sum_nil in *. lia. Qed.

Definition chunk_weight {A} (c : chunk A) : nat :=
  match c with CEntries l => 5 + entries_weight l | CDirs l => 2 + dirs_weight l | CArgs l => 2 + length l end.
Definition task_weight {A} (t : task A) : nat :=
  match t with
  | TDirs ds => 1 + dirs_weight ds
  | TEntries es z p ds => 4 + entries_weight es + search_weight z + 6 * length p + dirs_weight ds
  | TPut _ z p ds => 3 + search_weight z + 6 * length p + dirs_weight ds
  | TEmit p ds => 2 + 6 * length p + dirs_weight ds
  | TSend es p ds => 3 + 4 * length es + 6 * length p + dirs_weight ds
  | TArgs l => 1 + length l
  end.
Definition worker_weight {A} (w : worker A) : nat := match w with Run t => task_weight t | _ => 0 end.
Definition chunks_weight {A} (l : list (chunk A)) : nat := list_sum (map chunk_weight l).
Definition workers_weight {A} (l : list (worker A)) : nat := list_sum (map worker_weight l).
Definition mass {A} (s : state A) : nat := chunks_weight (queue s) + workers_weight (workers s).
Definition effect_weight {A} (e : effect A) : nat := match e with EPut c => chunk_weight c | _ => 0 end.
Definition opt_weight {A} (t : option (task A)) : nat := match t with Some t => task_weight t | None => 0 end.
Lemma chunks_weight_app {A} (a b : list (chunk A)) : chunks_weight (a ++ b) = chunks_weight a + chunks_weight b.
Proof. unfold chunks_weight. now rewrite map_app, list_sum_app. Qed.
Lemma workers_weight_at {A} l r (w : worker A) : workers_weight (l ++ w :: r) = workers_weight l + worker_weight w + workers_weight r.
Proof. unfold workers_weight. rewrite map_app, list_sum_app. cbn [map]. rewrite sum_cons. lia. Qed.

Definition good_chunk {A} (c : chunk A) : Prop := match c with CEntries _ => True | CDirs l => l <> [] | CArgs l => l <> [] end.
Definition good_task {A} (t : task A) : Prop := match t with TPut n _ _ _ => (0 < n)%nat | _ => True end.
Definition good_worker {A} (w : worker A) : Prop := match w with Run t => good_task t | _ => True end.
Definition good {A} (s : state A) : Prop := Forall good_chunk (queue s) /\ Forall good_worker (workers s).
Lemma chunk_size_bounds jobs n : (10 <= chunk_size jobs n <= 100)%nat.
Proof. unfold chunk_size. lia. Qed.

Section End_.
  Context {A : Type}.
  Variable excluded matched : A -> res bool.
  Variable rendered : A -> bool.
  Variable the_mode : mode.
  Variable jobs : nat.
  Variable halt prompt punctual : bool.
  Variable timeout : Z.
  Notation work := (work A excluded matched rendered the_mode jobs).
  Notation works := (works excluded matched rendered the_mode jobs).
  Notation step := (step A excluded matched rendered the_mode jobs halt prompt punctual timeout).
  Notation run := (run A excluded matched rendered the_mode jobs halt prompt punctual timeout).
  Notation initial := (initial A jobs).
  Ltac cases := intros
    [l r E St|l r E St|l r g q1 c q2 t E Q S|l r g E Q T|l r E St|l r E St|l r t sp ok t' e E Wk|l r t sp e E Wk
      |l r t E|l r g q1 c q2 x E Q S|l r w E N1 N2 N3 N4|q1 c q2 M Md O|M O|t M St|t M St|M|w M Iw D|M|t M F T|t T].
  Ltac simp := rewrite ?(affect_workers halt); cbn [set_workers set_queue set_main set_stop receive tick queue outq printed ran workers main_ stopping code found now].

  Lemma works_weight t t' e : works t t' e -> good_task t -> (opt_weight t' + effect_weight e < task_weight t)%nat.
  Proof.
    destruct 1; intros G; cbn [opt_weight effect_weight task_weight chunk_weight]; try lia.
    - rewrite dirs_weight_cons, weight_eq. destruct (kids d) as [|k ks]; cbn [task_weight length]; [|change (search_weight []) with 0]; lia.
    - rewrite entries_weight_cons. unfold entry_weight. lia.
    - rewrite entries_weight_cons. unfold entry_weight.
      destruct (is_dir x), b; rewrite ?search_weight_app, ?app_length; unfold search_weight; cbn [map length]; rewrite ?sum_cons, ?sum_nil; lia.
    - rewrite entries_weight_cons. unfold entry_weight.
      assert (F : entries_weight es = entries_weight (firstn (split_at (length es)) es) + entries_weight (skipn (split_at (length es)) es))
        by now rewrite <- entries_weight_app, firstn_skipn.
      destruct (is_dir x), b; rewrite ?search_weight_app, ?app_length; unfold search_weight; cbn [map length]; rewrite ?sum_cons, ?sum_nil; lia.
    - cbn [good_task] in G. assert (F : search_weight (x :: z) = search_weight (firstn n (x :: z)) + search_weight (skipn n (x :: z)))
        by now rewrite <- search_weight_app, firstn_skipn.
      rewrite (search_weight_dirs (firstn _ _)) in F. rewrite F. clear F.
      destruct n; [lia|]. cbn [firstn length]. lia.
    - pose proof (firstn_skipn 100 (x :: p)) as F. apply (f_equal (@length _)) in F. rewrite app_length in F.
      assert (L : (1 <= length (firstn 100 (x :: p)))%nat) by (cbn [firstn length]; lia).
      destruct the_mode; cbn [effect_weight]; lia.
    - cbn [length]. lia.
    - cbn [length]. lia.
    - cbn [length]. lia.
    - cbn [length]. lia.
  Qed.
  Lemma works_good t t' e : works t t' e -> good_task t ->
    (forall t1, t' = Some t1 -> good_task t1) /\ (forall c, e = EPut c -> good_chunk c).
  Proof.
    destruct 1; intros G; (split; [intros t1 T; try discriminate T; injection T as <-; cbn [good_task]; auto|intros c C; try discriminate C; try (injection C as <-; cbn; auto)]).
    - now destruct (kids d).
    - pose proof (chunk_size_bounds jobs (length z)). lia.
    - pose proof (chunk_size_bounds jobs (length z)). lia.
    - cbn [good_task] in G. destruct n; [lia|]. discriminate.
    - destruct the_mode; discriminate.
    - discriminate.
  Qed.
  Lemma start_good c t : start A c = Ok t -> good_task t.
  Proof. destruct c as [l|[|x l]|[|x l]]; cbn; intros H; inversion H; exact I. Qed.
  Lemma start_weight c t : start A c = Ok t -> (task_weight t < chunk_weight c)%nat.
  Proof. destruct c as [l|[|x l]|[|x l]]; cbn; intros H; inversion H; cbn; change (@search_weight A []) with 0; lia. Qed.
  Lemma good_chunk_start c : good_chunk c -> exists t, start A c = Ok t.
  Proof. destruct c as [l|[|x l]|[|x l]]; cbn; intros H; try congruence; eauto. Qed.

  Lemma step_good s a s' : step s a s' -> good s -> good s'.
  Proof.
    intros S [G1 G2]. revert S. unfold good. cases; simp; try rewrite E in G2;
      try (split; [assumption|eapply forall_replace; [eassumption|exact I]]); try (split; assumption).
    - rewrite Q in G1. apply Forall_app in G1 as [Q1 Q2]. inversion Q2; subst. split; [apply Forall_app; auto|].
      eapply forall_replace; [eassumption|]. cbn. eapply start_good; eassumption.
    - apply work_works in Wk. destruct (works_good _ _ _ Wk) as [H1 H2]; [apply (forall_at _ _ _ _ G2)|].
      split; [|eapply forall_replace; [eassumption|cbn; auto]].
      destruct e; cbn [affect set_workers set_queue receive queue]; try assumption. apply Forall_app. auto.
    - rewrite Q in G1. apply Forall_app in G1 as [Q1 Q2]. inversion Q2; subst. split; [apply Forall_app; auto|].
      eapply forall_replace; [eassumption|]. exact I.
    - split; [assumption|]. clear. induction (workers s); constructor; auto. exact I.
  Qed.
  Lemma initial_good roots : good (initial roots).
  Proof.
    split; unfold WalkModel.initial; simp.
    - induction roots; constructor; auto. discriminate.
    - induction jobs; constructor; auto. exact I.
  Qed.
  Lemma inv_good roots ls s : run (initial roots) ls s -> good s.
  Proof. revert ls s. apply run_ind_inv; [apply initial_good|]. intros. eapply step_good; eassumption. Qed.

  Lemma step_mass s a s' : step s a s' -> good s -> (mass s' + (if is_busy a then 1 else 0) <= mass s)%nat.
  Proof.
    intros S [G1 G2]. revert S. unfold mass. cases; simp; cbn [is_busy]; try lia;
      try (rewrite E, !workers_weight_at; cbn [worker_weight]; lia).
    - pose proof (start_weight _ _ S). rewrite E, Q, !workers_weight_at, !chunks_weight_app. unfold chunks_weight. cbn [map worker_weight]. rewrite ?sum_cons, ?sum_nil.
      lia.
    - apply work_works in Wk. rewrite E in G2. pose proof (works_weight _ _ _ Wk (forall_at _ _ _ _ G2)) as L.
      replace (chunks_weight (queue (affect A halt e ok (set_workers A s (l ++ Run t' :: r)))))
        with (chunks_weight (queue s) + effect_weight e).
      + rewrite E, !workers_weight_at. cbn [worker_weight opt_weight] in *. lia.
      + destruct e; cbn [affect set_workers set_queue receive queue effect_weight]; try lia. rewrite chunks_weight_app. unfold chunks_weight. cbn. lia.
    - apply work_works in Wk. rewrite E in G2. pose proof (works_weight _ _ _ Wk (forall_at _ _ _ _ G2)) as L.
      rewrite E, !workers_weight_at. cbn [worker_weight opt_weight] in *. lia.
    - rewrite E, Q, !workers_weight_at, !chunks_weight_app. unfold chunks_weight. cbn [map worker_weight]. rewrite ?sum_cons, ?sum_nil. lia.
    - assert (workers_weight (map (fun _ => Passed) (workers s)) = 0) as ->; [|lia].
      clear. unfold workers_weight. induction (workers s); auto.
  Qed.
  Lemma busy_app a b : busy (a ++ b) = busy a + busy b.
  Proof. unfold busy. now rewrite filter_app, app_length. Qed.
  Lemma run_mass roots ls s : run (initial roots) ls s -> (busy ls + mass s <= mass (initial roots))%nat.
  Proof.
    induction 1 as [|ls s1 a s2 R IH S]; [cbn; lia|]. pose proof (step_mass _ _ _ S (inv_good _ _ _ R)). rewrite busy_app.
    unfold busy at 2. cbn [filter]. destruct (is_busy a); cbn [length]; lia.
  Qed.
  Lemma below_all_eq a l : below_all (Node a true l) = flat_map (fun k : node A => entry k :: below_all k) l.
  Proof. cbn [below_all]. induction l as [|k l IH]; [reflexivity|]. cbn [flat_map]. now rewrite <- IH. Qed.
  Lemma weight_bound (n : node A) : (weight n <= 4 + 19 * length (flat_map (fun k : node A => entry k :: below_all k) (kids n)))%nat.
  Proof.
    induction n as [a d l IH] using node_ind'. cbn [kids]. rewrite weight_eq. cbn [kids].
    induction IH as [|k l H F IHF]; [reflexivity|]. cbn [flat_map]. rewrite app_length. cbn [length].
    rewrite entries_weight_cons. unfold entry_weight.
    destruct k as [a' d' l']. cbn [is_dir kids] in *. destruct d'; [rewrite below_all_eq; lia|cbn; lia].
  Qed.
  Lemma initial_mass roots : (mass (initial roots) <= 6 * length roots + 19 * length (tree_all roots))%nat.
  Proof.
    unfold mass, WalkModel.initial. simp. assert (workers_weight (repeat (@Idle A) jobs) = 0) as ->.
    { unfold workers_weight. induction jobs; auto. }
    rewrite Nat.add_0_r. induction roots as [|d roots IH]; [reflexivity|]. unfold tree_all in *. cbn [map flat_map length]. rewrite app_length.
    pose proof (weight_bound d). unfold chunks_weight in *. cbn [map ] in *. rewrite ?sum_cons, ?sum_nil in *. unfold chunk_weight at 1, dirs_weight. cbn [map ]. rewrite ?sum_cons, ?sum_nil. lia.
  Qed.
  Lemma bounded roots ls s : run (initial roots) ls s -> (busy ls <= 6 * length roots + 19 * length (tree_all roots))%nat.
  Proof. intros R. pose proof (run_mass _ _ _ R). pose proof (initial_mass roots). lia. Qed.

  (** The end can be reached *)
  Definition reach (s s' : state A) : Prop := exists ls, run s ls s' /\ ~ In LStop ls.
  Lemma run_app s l s1 l' s2 : run s l s1 -> run s1 l' s2 -> run s (l ++ l') s2.
  Proof.
    intros R1 R2. induction R2 as [|l' s2 a s3 R2 IH S]; [now rewrite app_nil_r|]. rewrite app_assoc. econstructor; [exact IH|exact S].
  Qed.
  Lemma reach_refl s : reach s s.
  Proof. exists []. split; [constructor|auto]. Qed.
  Lemma reach_trans s1 s2 s3 : reach s1 s2 -> reach s2 s3 -> reach s1 s3.
  Proof.
    intros (l1 & R1 & N1) (l2 & R2 & N2). exists (l1 ++ l2). split; [eapply run_app; eassumption|]. rewrite in_app_iff. tauto.
  Qed.
  Lemma reach_step s1 a s2 s3 : step s1 a s2 -> a <> LStop -> reach s2 s3 -> reach s1 s3.
  Proof.
    intros S N. apply reach_trans. exists ([] ++ [a]). split; [econstructor; [constructor|exact S]|]. cbn. intros [H|[]]. congruence.
  Qed.
  Definition lively (w : worker A) : Prop := w <> Passed /\ w <> Stopped /\ w <> Failed /\ w <> Killed.
  Definition at_rest (w : worker A) : Prop := match w with Run _ => False | _ => True end.
  Lemma find_run (ws : list (worker A)) : (exists l t r, ws = l ++ Run t :: r) \/ Forall at_rest ws.
  Proof.
    induction ws as [|w ws [(l & t & r & ->)|F]]; [right; constructor| |].
    - left. exists (w :: l), t, r. reflexivity.
    - destruct w as [|g| |t| | | |]; try (right; constructor; [exact I|exact F]). left. exists [], t, ws. reflexivity.
  Qed.
  Lemma calm_work t : calm A excluded matched -> exists t' e, work false t = Ok (t', e).
  Proof.
    intros C. destruct t as [[|d ds]|[|x es] z p ds|size [|x z] p ds|[|x p] ds|[|x es] p ds|[|y l0]]; cbn [WalkModel.work]; eauto.
    - destruct (C (entry x)) as [[b1 ->] [b2 ->]]. destruct b1; cbn [andb]; eauto.
    - destruct the_mode; eauto.
  Qed.
  Lemma reach_wait r : forall s l, healthy s -> queue s = [] -> workers s = l ++ r -> Forall at_rest r -> Forall (eq Waiting) l ->
    exists s', reach s s' /\ Forall (eq Waiting) (workers s') /\ healthy s'.
  Proof.
    induction r as [|w r IH]; intros s l H Q E F L.
    - exists s. rewrite app_nil_r in E. rewrite E. split; [apply reach_refl|auto].
    - inversion F as [|? ? Fw Fr]; subst.
      assert (G : forall s g, healthy s -> queue s = [] -> workers s = l ++ Getting g :: r -> exists s', reach s s' /\ Forall (eq Waiting) (workers s') /\ healthy s').
      { clear s H Q E. intros s g H Q E. set (t := Z.max (now s + 1) (g + timeout)). set (s1 := tick A s t).
        assert (S1 : step s LPoll s1) by (apply STick; lia).
        set (s2 := set_workers A s1 (l ++ Waiting :: r)).
        assert (S2 : step s1 LPoll s2) by (apply (SEmpty _ _ _ _ _ _ _ _ _ _ _ l r g); [exact E|auto|intros _; cbn; lia]).
        destruct (IH s2 (l ++ [Waiting])) as (s' & R & W & H').
        - destruct H as (H1 & H2 & H3). split; [exact H1|]. split; [exact H2|]. cbn. rewrite E in H3. eapply forall_replace; [exact H3|].
          repeat split; discriminate.
        - exact Q.
        - cbn. now rewrite <- app_assoc.
        - exact Fr.
        - apply Forall_app. auto.
        - exists s'. split; [|auto]. eapply reach_step; [exact S1|discriminate|]. eapply reach_step; [exact S2|discriminate|]. exact R. }
      pose proof H as (H1 & H2 & H3). rewrite E in H3. pose proof (forall_at _ _ _ _ H3) as (N1 & N2 & N3 & N4).
      destruct w as [|g| |t| | | |]; try congruence; try contradiction.
      + assert (S1 : step s LPoll (set_workers A s (l ++ Getting (now s) :: r))) by (apply SCheck; assumption).
        destruct (G (set_workers A s (l ++ Getting (now s) :: r)) (now s)) as (s' & R & W & H').
        * split; [exact H1|]. split; [exact H2|]. cbn. eapply forall_replace; [exact H3|]. repeat split; discriminate.
        * exact Q.
        * reflexivity.
        * exists s'. split; [|auto]. eapply reach_step; [exact S1|discriminate|exact R].
      + eapply G; eauto.
      + destruct (IH s (l ++ [Waiting])) as (s' & R & W & H'); auto.
        * rewrite E. now rewrite <- app_assoc.
        * apply Forall_app. auto.
        * eauto.
  Qed.
  Lemma reach_pass_get n : forall s, (0 < timeout)%Z -> length (outq s) = n -> Forall (eq Waiting) (workers s) -> main_ s = MGet ->
    exists s', reach s s' /\ main_ s' = MPassed.
  Proof.
    induction n as [|n IH]; intros s T L W M.
    - eexists. split; [|]. 
      + eapply reach_step; [apply SNothing; [exact M|intros _ _; now destruct (outq s)]|discriminate|].
        eapply reach_step; [eapply (SPass _ _ _ _ _ _ _ _ _ _ _ (now s)); [reflexivity|exact W|intros _; cbn; lia]|discriminate|apply reach_refl].
      + reflexivity.
    - destruct (outq s) as [|c q] eqn:O; [discriminate|].
      assert (D : the_mode = Collect \/ the_mode <> Collect) by (destruct the_mode; auto; right; discriminate).
      destruct D as [D|D]; [|eexists; split; [eapply reach_step; [apply SNothing; [exact M|congruence]|discriminate|];
             eapply reach_step; [eapply (SPass _ _ _ _ _ _ _ _ _ _ _ (now s)); [reflexivity|exact W|intros _; cbn; lia]|discriminate|apply reach_refl]
            |reflexivity]].
      destruct (IH (receive A s q c)) as (s' & R & P); auto.
      exists s'. split; [|exact P]. eapply reach_step; [apply (SReceive _ _ _ _ _ _ _ _ _ _ _ [] c q); auto|discriminate|exact R].
  Qed.
  Lemma reach_pass s : (0 < timeout)%Z -> healthy s -> Forall (eq Waiting) (workers s) -> exists s', reach s s' /\ main_ s' = MPassed.
  Proof.
    intros T (H1 & H2 & H3) W.
    assert (C : forall s, stopping s = false -> Forall (eq Waiting) (workers s) -> main_ s = MCheck -> exists s', reach s s' /\ main_ s' = MPassed).
    { clear s H1 H2 H3 W. intros s H1 W M. destruct (reach_pass_get _ (set_main A s MGet) T eq_refl W eq_refl) as (s' & R & P).
      exists s'. split; [|exact P]. eapply reach_step; [apply SAlive; exact M|discriminate|exact R]. }
    destruct H2 as [M|[M|[t M]]].
    - eapply reach_pass_get; eauto.
    - auto.
    - destruct (C (set_main A s MCheck)) as (s' & R & P); auto. exists s'. split; [|exact P].
      eapply reach_step; [eapply SMainBroken; [exact M|exact H1]|discriminate|exact R].
  Qed.
  Lemma reach_end n : forall s, (mass s <= n)%nat -> (0 < timeout)%Z -> calm A excluded matched -> healthy s -> good s ->
    exists s', reach s s' /\ main_ s' = MPassed.
  Proof.
    induction n as [n IH] using lt_wf_ind. intros s Ms T C H G. pose proof H as (H1 & H2 & H3).
    destruct (find_run (workers s)) as [(l & t & r & E)|F].
    - destruct (calm_work t C) as (t' & e & Wk).
      assert (exists s1, step s LWork s1 /\ healthy s1) as (s1 & S & Hs).
      { destruct t' as [t'|].
        - eexists. split; [eapply (SWork _ _ _ _ _ _ _ _ _ _ _ l r t false true); eassumption|].
          split; [|split].
          + destruct e; cbn; auto. now rewrite H1.
          + replace (main_ _) with (main_ s) by (destruct e; reflexivity). exact H2.
          + rewrite affect_workers. cbn. rewrite E in H3. eapply forall_replace; [exact H3|]. repeat split; discriminate.
        - eexists. split; [eapply SEnd; eassumption|]. split; [exact H1|]. split; [exact H2|]. cbn. rewrite E in H3. eapply forall_replace; [exact H3|].
          repeat split; discriminate. }
      pose proof (step_mass _ _ _ S G) as D. cbn [is_busy] in D. pose proof (step_good _ _ _ S G) as Gs.
      destruct (IH (mass s1)) with (s := s1) as (s' & R & P); auto; try lia.
      exists s'. split; [|exact P]. eapply reach_step; [exact S|discriminate|exact R].
    - destruct (queue s) as [|c q] eqn:Q.
      + destruct (reach_wait (workers s) s []) as (s1 & R1 & W & Hs); auto. destruct (reach_pass s1 T Hs W) as (s' & R & P).
        exists s'. split; [|exact P]. eapply reach_trans; eassumption.
      + destruct (workers s) as [|w r] eqn:E; [apply reach_pass; auto; rewrite E; constructor|].
        assert (K : forall s, healthy s -> good s -> (mass s <= n)%nat -> queue s = c :: q -> forall g, workers s = Getting g :: r -> exists s', reach s s' /\ main_ s' = MPassed).
        { clear s Ms H G H1 H2 H3 F Q E. intros s H G Ms Q g E. destruct G as [G1 G2]. pose proof G1 as G1'. rewrite Q in G1'. inversion G1' as [|? ? Gc _]; subst.
          destruct (good_chunk_start c Gc) as [t St].
          assert (S : step s LTake (set_workers A (set_queue A s ([] ++ q)) ([] ++ Run t :: r))).
          { eapply STake; [exact E|exact Q|exact St]. }
          pose proof (step_mass _ _ _ S (conj G1 G2)) as D. cbn [is_busy] in D. pose proof (step_good _ _ _ S (conj G1 G2)) as Gs.
          destruct (IH (mass (set_workers A (set_queue A s ([] ++ q)) ([] ++ Run t :: r)))) with (s := set_workers A (set_queue A s ([] ++ q)) ([] ++ Run t :: r)) as (s' & R & P); auto; try lia.
          - destruct H as (H1 & H2 & H3). split; [exact H1|]. split; [exact H2|]. cbn. rewrite E in H3. inversion H3; subst. constructor; [|assumption].
            repeat split; discriminate.
          - exists s'. split; [|exact P]. eapply reach_step; [exact S|discriminate|exact R]. }
        assert (I : forall s, healthy s -> good s -> (mass s <= n)%nat -> queue s = c :: q -> workers s = Idle :: r -> exists s', reach s s' /\ main_ s' = MPassed).
        { clear s Ms H G H1 H2 H3 F Q E. intros s H G Ms Q E. pose proof H as (H1 & H2 & H3).
          assert (S : step s LPoll (set_workers A s ([] ++ Getting (now s) :: r))) by (apply SCheck; assumption).
          pose proof (step_mass _ _ _ S G) as D. pose proof (step_good _ _ _ S G) as Gs.
          edestruct (K (set_workers A s ([] ++ Getting (now s) :: r))) as (s' & R & P); [|exact Gs|lia|exact Q|reflexivity|].
          - split; [exact H1|]. split; [exact H2|]. cbn. rewrite E in H3. inversion H3; subst. constructor; [|assumption]. repeat split; discriminate.
          - exists s'. split; [|exact P]. eapply reach_step; [exact S|discriminate|exact R]. }
        inversion H3 as [|? ? (N1 & N2 & N3 & N4) Hr]; subst. inversion F as [|? ? Fw Fr]; subst.
        destruct w as [|g| |t| | | |]; try congruence; try contradiction.
        * apply I; auto.
        * eapply K; eauto.
        * assert (S : step s LPoll (set_workers A s ([] ++ Idle :: r))) by (apply SBroken; assumption).
          pose proof (step_mass _ _ _ S G) as D. pose proof (step_good _ _ _ S G) as Gs.
          destruct (I (set_workers A s ([] ++ Idle :: r))) as (s' & R & P); [|exact Gs|lia|exact Q|reflexivity|].
          -- split; [exact H1|]. split; [exact H2|]. cbn. constructor; [|assumption]. repeat split; discriminate.
          -- exists s'. split; [|exact P]. eapply reach_step; [exact S|discriminate|exact R].
  Qed.
  Lemma ends roots ls s : (0 < timeout)%Z -> calm A excluded matched -> run (initial roots) ls s -> healthy s ->
    exists ls' s', run s ls' s' /\ ~ In LStop ls' /\ main_ s' = MPassed.
  Proof.
    intros T C R H. destruct (reach_end _ s (le_n _) T C H (inv_good _ _ _ R)) as (s' & (ls' & R' & N) & M). eauto.
  Qed.
End End_.
