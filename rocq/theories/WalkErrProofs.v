From Coq Require Import List ZArith Bool Lia Permutation.
From Verif Require Import Py WalkModel WalkSpec WalkProofs WalkInvProofs.
Import ListNotations.

Section Err.
  Context {A : Type}.
  Variable excluded matched : A -> res bool.
  Variable rendered : A -> bool.
  Variable the_mode : mode.
  Variable jobs : nat.
  Variable halt prompt punctual : bool.
  Variable timeout : Z.
  Notation work := (work A excluded matched rendered the_mode jobs).
  Notation works := (works excluded matched rendered the_mode jobs).
  Notation step := (step A excluded matched rendered the_mode jobs halt prompt punctual timeout).
  Notation run := (run A excluded matched rendered the_mode jobs halt prompt punctual timeout).
  Notation initial := (initial A jobs).
  Notation Surely := (Surely A excluded matched).
  Notation fine := (fine A excluded matched).
  Notation proc := (processable the_mode rendered).

  Definition sure_dir (d : node A) (a : A) : Prop := exists n, Surely d n /\ matched (entry n) = Ok true /\ entry n = a.
  Definition sure_node (n : node A) (a : A) : Prop :=
    excluded (entry n) = Ok false /\ ((matched (entry n) = Ok true /\ entry n = a) \/ (is_dir n = true /\ sure_dir n a)).
  Definition in_dirs (l : list (node A)) (a : A) : Prop := exists d, In d l /\ sure_dir d a.
  Definition in_nodes (l : list (node A)) (a : A) : Prop := Forall fine l /\ exists n, In n l /\ sure_node n a.

  Lemma surely_first d n : Surely d n -> Forall fine (kids d) /\ exists k, In k (kids d) /\ excluded (entry k) = Ok false /\
    (n = k \/ (is_dir k = true /\ Surely k n)).
  Proof.
    induction 1 as [n F Hn He|m n Hm (F0 & k & H1 & H2 & H3) Hd F Hn He].
    - split; [exact F|]. exists n. auto.
    - split; [exact F0|]. exists k. split; [assumption|]. split; [assumption|]. right. destruct H3 as [->|[H3 H4]].
      + split; [assumption|]. now apply surely_kid.
      + split; [assumption|]. eapply surely_deep; eauto.
  Qed.
  Lemma sure_kids d a : sure_dir d a -> in_nodes (kids d) a.
  Proof.
    intros (n & B & M & E). destruct (surely_first _ _ B) as (F & k & Hk & He & H). split; [exact F|].
    exists k. split; [exact Hk|]. split; [exact He|]. destruct H as [->|[Hd Bk]]; [now left|right].
    split; [exact Hd|]. exists n. auto.
  Qed.
  Lemma in_dirs_app l m a : in_dirs (l ++ m) a <-> in_dirs l a \/ in_dirs m a.
  Proof.
    unfold in_dirs. split.
    - intros (d & I & H). apply in_app_iff in I as [I|I]; [left|right]; exists d; auto.
    - intros [(d & I & H)|(d & I & H)]; exists d; (split; [|exact H]); apply in_app_iff; auto.
  Qed.
  Lemma in_dirs_cons d l a : in_dirs (d :: l) a <-> sure_dir d a \/ in_dirs l a.
  Proof.
    change (d :: l) with ([d] ++ l). rewrite in_dirs_app. unfold in_dirs at 1. cbn [In]. split.
    - intros [(x & [->|[]] & H)|H]; auto.
    - intros [H|H]; [left; exists d; auto|auto].
  Qed.
  Lemma in_nodes_app l m a : in_nodes (l ++ m) a -> in_nodes l a \/ in_nodes m a.
  Proof.
    intros [F (n & I & H)]. apply Forall_app in F as [F1 F2]. apply in_app_iff in I as [I|I]; [left|right]; (split; [assumption|eauto]).
  Qed.
  Lemma in_nodes_cons x l a : in_nodes (x :: l) a -> fine x /\ (sure_node x a \/ in_nodes l a).
  Proof.
    intros [F (n & I & H)]. inversion F as [|? ? F1 F2]; subst. split; [exact F1|].
    destruct I as [->|I]; [now left|]. right. split; [assumption|eauto].
  Qed.

  Definition sure_chunk (c : chunk A) (a : A) : Prop :=
    match c with CEntries l => proc a /\ in_nodes l a | CDirs l => proc a /\ in_dirs l a | CArgs l => In a l end.
  Definition sure_task (t : task A) (a : A) : Prop :=
    match t with
    | TDirs ds => proc a /\ in_dirs ds a
    | TEntries es s p ds => proc a /\ (in_nodes es a \/ in_dirs s a \/ In a (map entry p) \/ in_dirs ds a)
    | TPut _ s p ds => proc a /\ (in_dirs s a \/ In a (map entry p) \/ in_dirs ds a)
    | TEmit p ds => proc a /\ (In a (map entry p) \/ in_dirs ds a)
    | TSend es p ds => proc a /\ (In a (map entry es) \/ In a (map entry p) \/ in_dirs ds a)
    | TArgs l => In a l
    end.
  Definition sure_opt (t : option (task A)) (a : A) : Prop := match t with Some t => sure_task t a | None => False end.
  Definition sure_effect (e : effect A) (a : A) : Prop :=
    match e with EPut c => sure_chunk c a | EPrint b | ERun b => b = a | ESend l => In a l | _ => False end.
  Definition sure_worker (w : worker A) (a : A) : Prop := match w with Run t => sure_task t a | _ => False end.

  Lemma sure_entry x z p b a : excluded (entry x) = Ok false -> matched (entry x) = Ok b -> sure_node x a ->
    in_dirs (if is_dir x then z ++ [x] else z) a \/ In a (map entry (if b then p ++ [x] else p)).
  Proof.
    intros E M [_ [[M1 <-]|[D S]]].
    - right. rewrite M in M1. injection M1 as ->. rewrite map_app, in_app_iff. right. now left.
    - left. rewrite D. apply in_dirs_app. right. apply in_dirs_cons. now left.
  Qed.
  Lemma keep_dirs (x : node A) z a : in_dirs z a -> in_dirs (if is_dir x then z ++ [x] else z) a.
  Proof. destruct (is_dir x); [|auto]. intros H. apply in_dirs_app. now left. Qed.
  Lemma keep_found (x : node A) (p : list (node A)) (b : bool) a : In a (map entry p) -> In a (map entry (if b then p ++ [x] else p)).
  Proof. destruct b; [|auto]. intros H. rewrite map_app, in_app_iff. now left. Qed.

  Lemma sure_work t t' e a : works t t' e -> sure_task t a -> sure_opt t' a \/ sure_effect e a.
  Proof.
    destruct 1 as [|d ds|z p ds|x es z p ds Er|x es z p ds X|x es z p ds b X M|x es z p ds b X M L|n p ds|n x z p ds|ds|x p ds
      |p ds|x es p ds Md|x es p ds Md Rd|x es p ds Md Rd|x es p ds Md Rd| |y l]; cbn [sure_task sure_opt sure_effect]; intros H.
    - destruct H as [_ (d & [] & _)].
    - destruct H as [Pa H]. left. apply in_dirs_cons in H as [H|H].
      + apply sure_kids in H. destruct (kids d) as [|k l]; [destruct H as [_ (n & [] & _)]|]. cbn [sure_task]. auto.
      + destruct (kids d); cbn [sure_task]; auto.
    - destruct H as [Pa [[_ (n & [] & _)]|H]]. auto.
    - left. destruct H as [Pa [H|H]]; [|auto]. exfalso. apply in_nodes_cons in H as [(b & F1 & F2) _].
      destruct Er as [Er|[Er1 Er]]; [congruence|]. rewrite F1 in Er1. injection Er1 as ->.
      destruct (F2 eq_refl) as [c F3]. congruence.
    - left. destruct H as [Pa [H|H]]; [|auto]. apply in_nodes_cons in H as [_ [[H _]|H]]; [congruence|auto].
    - left. destruct H as [Pa H]. split; [exact Pa|]. destruct H as [H|[H|[H|H]]].
      + apply in_nodes_cons in H as [_ [H|H]]; [|auto]. destruct (sure_entry x z p b a X M H); auto.
      + right. left. now apply keep_dirs.
      + right. right. left. now apply keep_found.
      + auto.
    - destruct H as [Pa H]. destruct H as [H|[H|[H|H]]].
      + apply in_nodes_cons in H as [_ [H|H]].
        * left. split; [exact Pa|]. destruct (sure_entry x z p b a X M H); auto.
        * rewrite <- (firstn_skipn (split_at (length es)) es) in H. apply in_nodes_app in H as [H|H]; [left|right]; cbn; auto.
      + left. split; [exact Pa|]. right. left. now apply keep_dirs.
      + left. split; [exact Pa|]. right. right. left. now apply keep_found.
      + left. auto.
    - left. destruct H as [Pa [(d & [] & _)|H]]. auto.
    - destruct H as [Pa [H|H]]; [|left; auto]. rewrite <- (firstn_skipn n (x :: z)) in H.
      apply in_dirs_app in H as [H|H]; [right|left]; cbn [sure_chunk]; auto.
    - left. destruct H as [Pa [[]|H]]. auto.
    - left. destruct H as [Pa [H|H]]; [|auto]. split; [exact Pa|]. rewrite <- (firstn_skipn 100 (x :: p)), map_app, in_app_iff in H. tauto.
    - left. destruct H as [Pa [[]|H]]. auto.
    - destruct H as [Pa [H|H]]; auto.
    - destruct H as [Pa [[H|H]|H]]; cbn; auto.
    - destruct H as [Pa [[H|H]|H]]; cbn; auto.
    - destruct H as [Pa [[H|H]|H]]; cbn; auto. exfalso. unfold processable in Pa. subst a. destruct the_mode; congruence.
    - destruct H.
    - destruct H as [H|H]; auto.
  Qed.

  Definition sure_state (s : state A) (a : A) : Prop :=
    In a (finished s) \/ Exists (fun c => sure_chunk c a) (queue s) \/ Exists (fun w => sure_worker w a) (workers s).

  Lemma sure_start c t a : start A c = Ok t -> sure_chunk c a -> sure_task t a.
  Proof. destruct c as [l|[|x l]|[|x l]]; cbn; intros H; inversion H; cbn; tauto. Qed.
  Lemma sure_affect e ok s a : sure_state s a \/ sure_effect e a -> sure_state (affect A halt e ok s) a.
  Proof.
    unfold sure_state, finished. intros H.
    destruct e; cbn [affect printed ran outq queue workers set_queue receive sure_effect] in *;
      rewrite ?map_app, ?concat_app; cbn [map concat fst]; rewrite ?app_nil_r, !in_app_iff in *; cbn [In] in *; try tauto.
    rewrite Exists_app. destruct H as [[H|[H|H]]|H]; [left; exact H|right; left; left; exact H|right; right; exact H|right; left; right; left; exact H].
  Qed.
  Lemma exists_worker l r w w' a : Exists (fun w => sure_worker w a) (l ++ w :: r) ->
    sure_worker w a \/ Exists (fun w => sure_worker w a) (l ++ w' :: r).
  Proof.
    intros H. apply Exists_app in H as [H|H].
    - right. apply Exists_app. now left.
    - inversion H; subst; [now left|]. right. apply Exists_app. right. now right.
  Qed.
  Lemma new_worker l r w' a : sure_worker w' a -> Exists (fun w => sure_worker w a) (l ++ w' :: r).
  Proof. intros H. apply Exists_app. right. now left. Qed.

  Lemma sure_step s x s' a : step s x s' -> sure_state s a -> sure_state s' a \/ Exists crashed (workers s').
  Proof.
    unfold sure_state at 1.
    intros [l r E St|l r E St|l r g q1 c q2 t E Q S|l r g E Q T|l r E St|l r E St|l r t sp ok t' e E Wk|l r t sp e E Wk
      |l r t E|l r g q1 c q2 y E Q S|l r w E N1 N2 N3 N4|q1 c q2 M Md O|M O|t M St|t M St|M|w M Iw D|M|t M F T|t T];
      intros H; try rewrite E in H.
    all: try (left; unfold sure_state; cbn [set_workers set_main set_stop tick finished printed ran outq queue workers];
      destruct H as [H|[H|H]]; [left; exact H|right; left; exact H|right; right];
      first [exact H|eapply exists_worker in H as [[]|H]; exact H]; fail).
    - left. unfold sure_state. cbn [set_workers set_queue finished printed ran outq queue workers].
      destruct H as [H|[H|H]]; [left; exact H| |].
      + rewrite Q in H. apply Exists_app in H as [H|H]; [right; left; apply Exists_app; now left|].
        inversion H as [? ? H1|? ? H1]; subst; [right; right; apply new_worker; eapply sure_start; eauto|].
        right. left. apply Exists_app. now right.
      + right. right. eapply exists_worker in H as [[]|H]. exact H.
    - left. apply sure_affect. unfold sure_state. cbn [set_workers finished printed ran outq queue workers].
      destruct H as [H|[H|H]]; auto. eapply exists_worker in H as [H|H]; [|eauto].
      apply work_works in Wk. destruct (sure_work _ _ _ _ Wk H) as [H1|H1]; [|auto]. left. right. right. now apply new_worker.
    - left. unfold sure_state. cbn [set_workers finished printed ran outq queue workers].
      destruct H as [H|[H|H]]; auto. eapply exists_worker in H as [H|H]; [|eauto].
      apply work_works in Wk. destruct (works_end _ _ _ _ _ _ _ _ Wk eq_refl) as [-> _].
      destruct (sure_work _ _ _ _ Wk H) as [[]|[]].
    - right. cbn [set_workers set_stop workers]. apply Exists_app. right. left. now left.
    - right. cbn [set_workers set_stop workers]. apply Exists_app. right. left. now left.
    - right. cbn [set_workers set_stop workers]. apply Exists_app. right. left. now right.
    - left. unfold sure_state. destruct H as [H|[H|H]]; auto. left. revert H. unfold finished. cbn [receive printed ran outq].
      rewrite O, !concat_app, !in_app_iff. cbn [concat]. rewrite in_app_iff. tauto.
    - left. unfold sure_state. destruct H as [H|[H|H]]; auto. exfalso.
      revert H. apply waiting_none; [intros []|exact F].
  Qed.
  Lemma sure_initial roots a : SureMatch A excluded matched roots a -> proc a -> sure_state (initial roots) a.
  Proof.
    intros (d & n & I & H) Pa. right. left. cbn [WalkModel.initial queue]. apply Exists_exists. exists (CDirs [d]). split.
    - apply in_map_iff. exists d. auto.
    - split; [exact Pa|]. apply in_dirs_cons. left. exists n. tauto.
  Qed.
  Lemma sure_run roots ls s a : SureMatch A excluded matched roots a -> proc a -> run (initial roots) ls s ->
    sure_state s a \/ Exists crashed (workers s).
  Proof.
    intros H Pa. revert ls s.
    apply (run_ind_inv excluded matched rendered the_mode jobs halt prompt punctual timeout (fun s => sure_state s a \/ Exists crashed (workers s))).
    - left. now apply sure_initial.
    - intros s1 x s2 [H1|H1] S; [eapply sure_step; eassumption|]. right. eapply crash_stays; eassumption.
  Qed.
  Lemma sure_complete roots ls s : (0 < jobs)%nat -> prompt = true -> run (initial roots) ls s -> main_ s = MPassed ->
    forall a, SureMatch A excluded matched roots a -> proc a -> In a (results the_mode s) \/ In a (concat (outq s)).
  Proof.
    intros J Pr R M a H Pa. destruct (inv_passing _ _ _ _ _ _ _ _ _ _ _ _ J R) as (P1 & P2 & _). specialize (P2 M).
    assert (N : forall P : worker A -> Prop, ~ P Passed -> ~ Exists P (workers s)).
    { intros Q N X. apply Exists_exists in X as (w & I & X). rewrite Forall_forall in P2. apply P2 in I. subst w. auto. }
    destruct (sure_run _ _ _ _ H Pa R) as [S|S]; [|now apply N in S; [|intros [X|X]; discriminate]].
    assert (queue s = []) as Q.
    { destruct (queue s) as [|c q] eqn:Eq; [reflexivity|]. exfalso. apply (N awake); [intros [_ X]; congruence|].
      apply P1; [exact Pr|]. discriminate. }
    unfold sure_state in S. rewrite Q in S. destruct S as [I|[S|S]]; [|inversion S|now apply N in S; [|intros []]].
    destruct (inv_moded _ _ _ _ _ _ _ _ _ _ _ _ R) as (_ & _ & M3 & M4 & M5). unfold finished in I. rewrite !in_app_iff in I. unfold results.
    destruct the_mode; try rewrite M4 in I by discriminate; try rewrite M5 in I by reflexivity; cbn in I; tauto.
  Qed.
  Lemma sure_results roots ls s : (0 < jobs)%nat -> prompt = true -> (the_mode = Collect -> punctual = true) ->
    run (initial roots) ls s -> main_ s = MPassed ->
    forall a, SureMatch A excluded matched roots a -> proc a -> In a (results the_mode s).
  Proof.
    intros J Pr Pu R M a H Pa. destruct (sure_complete _ _ _ J Pr R M a H Pa) as [I|I]; [exact I|].
    destruct (inv_moded _ _ _ _ _ _ _ _ _ _ _ _ R) as (_ & _ & M3 & _).
    assert (outq s = []) as O.
    { destruct the_mode eqn:Em; [apply M3; discriminate|apply M3; discriminate|].
      exact (collected excluded matched rendered Collect jobs halt prompt punctual timeout roots ls s J Pr (Pu eq_refl) R M). }
    rewrite O in I. destruct I.
  Qed.
End Err.
