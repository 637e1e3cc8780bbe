From Coq Require Import List ZArith Bool Lia Permutation.
From Verif Require Import Py PermTac WalkModel WalkSpec.
Import ListNotations.

Lemma node_ind' {A} (P : node A -> Prop) :
  (forall a d l, Forall P l -> P (Node a d l)) -> forall n, P n.
Proof.
  intros H. fix IH 1. intros [a d l]. apply H. induction l as [|k l IHl]; constructor; [apply IH|exact IHl].
Qed.

(** Sub-multisets *)
Definition Sub {A} (l m : list A) : Prop := exists r, Permutation m (l ++ r).
Lemma sub_refl {A} (l : list A) : Sub l l.
Proof. exists []. now rewrite app_nil_r. Qed.
Lemma sub_nil {A} (l : list A) : Sub [] l.
Proof. now exists l. Qed.
Lemma sub_app {A} (a b c d : list A) : Sub a b -> Sub c d -> Sub (a ++ c) (b ++ d).
Proof.
  intros [r R] [q Q]. exists (r ++ q). rewrite R, Q. rewrite <- !app_assoc. apply Permutation_app_head.
  rewrite !app_assoc. apply Permutation_app_tail. apply Permutation_app_comm.
Qed.
Lemma sub_nodup {A} (l m : list A) : Sub l m -> NoDup m -> NoDup l.
Proof. intros [r R] H. apply (Permutation_NoDup R) in H. clear R. induction l as [|x l IH]; [constructor|].
  cbn in H. inversion H as [|? ? H1 H2]; subst. constructor; [|auto]. intros I. apply H1, in_or_app. now left.
Qed.
Lemma sub_trans {A} (l m n : list A) : Sub l m -> Sub m n -> Sub l n.
Proof. intros [r R] [q Q]. exists (r ++ q). rewrite app_assoc. rewrite Q. now apply Permutation_app_tail. Qed.
Lemma sub_in {A} (l m : list A) a : Sub l m -> In a l -> In a m.
Proof. intros [r R] H. apply (Permutation_in _ (Permutation_sym R)). apply in_or_app. now left. Qed.

Section Pending.
  Context {A : Type}.
  Variable excluded matched : A -> res bool.
  Variable rendered : A -> bool.
  Variable the_mode : mode.
  Variable jobs : nat.
  Notation work := (work A excluded matched rendered the_mode jobs).

  Definition is_ok (r : res bool) (b : bool) : bool := match r with Ok x => Bool.eqb x b | Err _ => false end.
  Lemma is_ok_iff r b : is_ok r b = true <-> r = Ok b.
  Proof. destruct r as [x|e]; cbn; [|easy]. rewrite eqb_true_iff. split; [now intros ->|congruence]. Qed.

  (** What is found below a directory, and in an entry of one *)
  Fixpoint pend_node (n : node A) : list A :=
    match n with
    | Node a d l =>
        if is_ok (excluded a) false then
          (if is_ok (matched a) true then [a] else []) ++
          (if d then (fix go l := match l with [] => [] | k :: l => pend_node k ++ go l end) l else [])
        else []
    end.
  Definition pend_dir (n : node A) : list A := flat_map pend_node (kids n).
  Lemma pend_node_eq n : pend_node n =
    if is_ok (excluded (entry n)) false then
      (if is_ok (matched (entry n)) true then [entry n] else []) ++ (if is_dir n then pend_dir n else [])
    else [].
  Proof. destruct n as [a d l]. reflexivity. Qed.
  Definition expected (roots : list (node A)) : list A := flat_map pend_dir roots.

  Lemma below_trans d m n : In m (kids d) -> excluded (entry m) = Ok false -> is_dir m = true ->
    Below A excluded m n -> Below A excluded d n.
  Proof.
    intros H1 H2 H3. induction 1 as [n Hn He|m' n Hm IH Hd Hn He].
    - eapply below_deep; eauto. now apply below_kid.
    - eapply below_deep; eauto.
  Qed.
  Lemma pend_in n a : In a (pend_node n) <-> excluded (entry n) = Ok false /\
    ((matched (entry n) = Ok true /\ a = entry n) \/ (is_dir n = true /\ In a (pend_dir n))).
  Proof.
    rewrite pend_node_eq. destruct (is_ok (excluded (entry n)) false) eqn:E.
    - apply is_ok_iff in E. rewrite in_app_iff. destruct (is_ok (matched (entry n)) true) eqn:M.
      + apply is_ok_iff in M. destruct (is_dir n); cbn [In]; intuition congruence.
      + assert (matched (entry n) <> Ok true) by (intros C; apply is_ok_iff in C; congruence).
        destruct (is_dir n); cbn [In]; intuition congruence.
    - assert (excluded (entry n) <> Ok false) by (intros C; apply is_ok_iff in C; congruence).
      cbn [In]. intuition.
  Qed.
  Lemma below_first d n : Below A excluded d n -> exists k, In k (kids d) /\ excluded (entry k) = Ok false /\
    (n = k \/ (is_dir k = true /\ Below A excluded k n)).
  Proof.
    induction 1 as [n Hn He|m n Hm (k & H1 & H2 & H3) Hd Hn He].
    - exists n. auto.
    - exists k. split; [assumption|]. split; [assumption|]. right. destruct H3 as [->|[H3 H4]].
      + split; [assumption|]. now apply below_kid.
      + split; [assumption|]. eapply below_deep; eauto.
  Qed.
  Lemma pend_dir_in d : forall a, In a (pend_dir d) <->
    exists n, Below A excluded d n /\ matched (entry n) = Ok true /\ entry n = a.
  Proof.
    induction d as [a0 dd l IH] using node_ind'. intros a. unfold pend_dir. rewrite in_flat_map. cbn [kids].
    rewrite Forall_forall in IH. split.
    - intros (k & Hk & Ha). apply pend_in in Ha as [He [[Hm ->]|[Hd Ha]]].
      + exists k. split; [now apply below_kid|auto].
      + apply (IH k Hk) in Ha as (n & B & M & E).
        exists n. split; [|auto]. now apply (below_trans _ k).
    - intros (n & B & M & <-). destruct (below_first _ _ B) as (k & Hk & He & H). exists k. split; [exact Hk|].
      apply pend_in. split; [exact He|]. destruct H as [->|[Hd Bk]]; [now left|right]. split; [exact Hd|].
      apply (IH k Hk). eauto.
  Qed.
  Lemma expected_in roots a : In a (expected roots) <-> Match A excluded matched roots a.
  Proof.
    unfold expected, Match. rewrite in_flat_map. split.
    - intros (d & Hd & Ha). apply pend_dir_in in Ha as (n & H). exists d, n. tauto.
    - intros (d & n & Hd & H). exists d. split; [exact Hd|]. apply pend_dir_in. eauto.
  Qed.
  Lemma below_all_eq n : below_all n = (if is_dir n then flat_map (fun k : node A => entry k :: below_all k) (kids n) else []).
  Proof. destruct n as [a d l]. destruct d; [|reflexivity]. induction l as [|k l IH]; [reflexivity|]. cbn in *. now rewrite IH. Qed.
  Lemma pend_node_sub n : Sub (pend_node n) (entry n :: below_all n).
  Proof.
    induction n as [a d l IH] using node_ind'. rewrite pend_node_eq, below_all_eq. cbn [entry is_dir kids].
    destruct (is_ok (excluded a) false); [|apply sub_nil].
    change (a :: ?x) with ([a] ++ x). apply sub_app.
    - destruct (is_ok (matched a) true); [apply sub_refl|apply sub_nil].
    - destruct d; [|apply sub_nil]. unfold pend_dir. cbn [kids]. induction IH as [|k l Hk _ IHl]; [apply sub_refl|].
      cbn [flat_map]. now apply sub_app.
  Qed.
  Lemma expected_sub roots : Sub (expected roots) (tree_all roots).
  Proof.
    unfold expected, tree_all. induction roots as [|d roots IH]; [apply sub_refl|]. cbn [flat_map]. apply sub_app; [|exact IH].
    unfold pend_dir. induction (kids d) as [|k l IHl]; [apply sub_refl|]. cbn [flat_map]. apply sub_app; [apply pend_node_sub|exact IHl].
  Qed.

  (** What is left to do with results that have been found *)
  Definition sink (a : A) : list A :=
    match the_mode with Collect => [a] | _ => if rendered a then [a] else [] end.
  Definition sinks (l : list A) : list A := flat_map sink l.
  Definition pend_chunk (c : chunk A) : list A :=
    match c with
    | CEntries l => sinks (flat_map pend_node l)
    | CDirs l => sinks (flat_map pend_dir l)
    | CArgs l => l
    end.
  Definition pend_task (t : task A) : list A :=
    match t with
    | TDirs ds => sinks (flat_map pend_dir ds)
    | TEntries es s p ds => sinks (flat_map pend_node es ++ flat_map pend_dir s ++ map entry p ++ flat_map pend_dir ds)
    | TPut _ s p ds => sinks (flat_map pend_dir s ++ map entry p ++ flat_map pend_dir ds)
    | TEmit p ds => sinks (map entry p ++ flat_map pend_dir ds)
    | TSend es p ds => sinks (map entry es ++ map entry p ++ flat_map pend_dir ds)
    | TArgs l => l
    end.
  Definition pend_effect (e : effect A) : list A :=
    match e with EPut c => pend_chunk c | EPrint a => [a] | ESend l => l | ERun a => [a] | _ => [] end.
  Definition pend_opt (t : option (task A)) : list A := match t with Some t => pend_task t | None => [] end.

  Lemma sinks_app a b : sinks (a ++ b) = sinks a ++ sinks b.
  Proof. apply flat_map_app. Qed.
  Lemma sinks_perm a b : Permutation a b -> Permutation (sinks a) (sinks b).
  Proof. apply Permutation_flat_map. Qed.
  Definition untroubled : Prop := calm A excluded matched.

  Lemma entry_perm x es s p ds b : excluded (entry x) = Ok false -> matched (entry x) = Ok b ->
    Permutation (flat_map pend_node (x :: es) ++ flat_map pend_dir s ++ map entry p ++ flat_map pend_dir ds)
      (flat_map pend_node es ++ flat_map pend_dir (if is_dir x then s ++ [x] else s) ++
       map entry (if b then p ++ [x] else p) ++ flat_map pend_dir ds).
  Proof.
    intros E M. cbn [flat_map]. rewrite pend_node_eq, E, M. cbn [is_ok Bool.eqb].
        assert (P1 : Permutation (flat_map pend_dir (if is_dir x then s ++ [x] else s)) ((if is_dir x then pend_dir x else []) ++ flat_map pend_dir s)).
        { destruct (is_dir x); [|reflexivity]. rewrite flat_map_app. cbn [flat_map]. rewrite app_nil_r. apply Permutation_app_comm. }
        assert (P2 : Permutation (map entry (if b then p ++ [x] else p)) ((if b then [entry x] else []) ++ map entry p)).
        { destruct b; [|reflexivity]. rewrite map_app. apply Permutation_app_comm. }
        rewrite P1, P2. replace (eqb b true) with b by (destruct b; reflexivity).
        set (u := if b then [entry x] else []). set (v := if is_dir x then pend_dir x else []).
        set (w := flat_map pend_dir s). set (z := flat_map pend_dir ds). set (y := map entry p). clearbody u v w y z. perm.
  Qed.
  Lemma work_perm split t t' e : work split t = Ok (t', e) ->
    exists lost, Permutation (pend_task t) (pend_opt t' ++ pend_effect e ++ lost) /\ (untroubled -> lost = []).
  Proof.
    assert (N : forall a b : list A, a = b -> exists lost, Permutation a (b ++ [] ++ lost) /\ (untroubled -> lost = [])).
    { intros a b ->. exists []. cbn. now rewrite app_nil_r. }
    destruct t as [ds|es s p ds|size s p ds|p ds|es p ds|l]; cbn [work WalkModel.work].
    - destruct ds as [|d ds]; intros H; injection H as <- <-; cbn [pend_opt pend_effect]; apply N; [reflexivity|].
      cbn [pend_task flat_map]. unfold pend_dir at 1. destruct (kids d) as [|k l]; [reflexivity|]. reflexivity.
    - destruct es as [|x es]; [intros H; injection H as <- <-; now apply N|].
      destruct (excluded (entry x)) as [b|err] eqn:E.
      2: { intros H. assert (t' = Some (after_entries A jobs s p ds) /\ e = ENone) as [-> ->] by (destruct err; now inversion H).
           cbn [pend_opt pend_effect app pend_task after_entries]. rewrite sinks_app.
           exists (sinks (flat_map pend_node (x :: es))). split; [apply Permutation_app_comm|].
           intros C. destruct (C (entry x)) as [[b C1] _]. congruence. }
      destruct b.
      { intros H. injection H as <- <-. apply N. cbn [pend_opt pend_task flat_map]. rewrite pend_node_eq, E. reflexivity. }
      destruct (matched (entry x)) as [b|err] eqn:M.
      2: { intros H. assert (t' = Some (after_entries A jobs s p ds) /\ e = ENone) as [-> ->] by (destruct err; now inversion H).
           cbn [pend_opt pend_effect app pend_task after_entries]. rewrite sinks_app.
           exists (sinks (flat_map pend_node (x :: es))). split; [apply Permutation_app_comm|].
           intros C. destruct (C (entry x)) as [_ [b C1]]. congruence. }
      pose proof (entry_perm x es s p ds b E M) as P.
      set (s' := if is_dir x then s ++ [x] else s) in *. set (p' := if b then p ++ [x] else p) in *. clearbody s' p'.
      apply sinks_perm in P. destruct (split && (10 <? length es)%nat); intros H; injection H as <- <-.
      + exists []. cbn [pend_opt pend_effect pend_task pend_chunk]. rewrite app_nil_r. split; [|reflexivity].
        cbn [pend_task]. rewrite P. rewrite <- sinks_app. apply sinks_perm.
        rewrite <- (firstn_skipn (split_at (length es)) es) at 1. rewrite flat_map_app. perm.
      + exists []. cbn [pend_opt pend_effect pend_task app]. rewrite app_nil_r. auto.
    - destruct s as [|x s]; intros H; injection H as <- <-; [now apply N|].
      exists []. cbn [pend_opt pend_effect pend_task pend_chunk]. rewrite app_nil_r. split; [|reflexivity].
      rewrite <- sinks_app. apply sinks_perm. rewrite <- (firstn_skipn size (x :: s)) at 1. rewrite flat_map_app. perm.
    - destruct p as [|x p]; intros H; injection H as <- <-; [now apply N|].
      exists []. split; [|reflexivity].
      replace (pend_effect _) with (@nil A) by (destruct the_mode; reflexivity).
      cbn [pend_opt pend_task app]. rewrite app_nil_r.
      rewrite <- (firstn_skipn 100 (x :: p)) at 1. rewrite map_app, <- app_assoc. reflexivity.
    - destruct es as [|x es]; [intros H; injection H as <- <-; now apply N|].
      cbn [pend_task]. assert (S1 : sinks (map entry (x :: es) ++ map entry p ++ flat_map pend_dir ds) =
        sink (entry x) ++ sinks (map entry es ++ map entry p ++ flat_map pend_dir ds)) by reflexivity.
      destruct the_mode eqn:Em; intros H; injection H as <- <-; exists []; (split; [|reflexivity]); rewrite app_nil_r.
      + rewrite S1. unfold sink at 1. rewrite Em. destruct (rendered (entry x)); [apply Permutation_app_comm|].
        cbn [pend_effect]. now rewrite app_nil_r.
      + rewrite S1. unfold sink at 1. rewrite Em. destruct (rendered (entry x)); [apply Permutation_app_comm|].
        cbn [pend_effect]. now rewrite app_nil_r.
      + cbn [pend_opt pend_task pend_effect]. rewrite sinks_app.
        replace (sinks (map entry (x :: es))) with (map entry (x :: es)); [apply Permutation_app_comm|].
        generalize (map entry (x :: es)). intros l. induction l as [|y l IH]; [reflexivity|].
        unfold sinks in *. cbn [flat_map]. unfold sink at 1. rewrite Em. cbn. now rewrite <- IH.
    - destruct l as [|a l]; intros H; injection H as <- <-; [now apply N|].
      exists []. split; [|reflexivity]. cbn [pend_opt pend_task pend_effect]. rewrite app_nil_r.
      change (a :: l) with ([a] ++ l). apply Permutation_app_comm.
  Qed.
End Pending.
