From Coq Require Import List Bool Lia Permutation Arith.
From Verif Require Import PermTac PoolModel PoolSpec WalkProofs.
Import ListNotations.

Section Pool.
  Context {A B : Type}.
  Variable render : A -> option B.
  Variable halt : bool.
  Notation pool := (pool A B).
  Notation pstep := (pstep render halt).
  Notation prun := (prun render halt).
  Notation commands := (commands render).
  Ltac cases := intros
    [a0 l T|n T E|l r E St|l r E St|l r b q E Q|l r q E Q|l r E|l r b ok E|].
  Ltac simp := cbn [pqueue todo ends threads pran pstop].
  Lemma prun_ind_inv (P : pool -> Prop) s : P s -> (forall s1 a s2, P s1 -> pstep s1 a s2 -> P s2) ->
    forall l s', prun s l s' -> P s'.
  Proof. intros H0 HS l s' H. induction H; eauto. Qed.

  Definition running (t : thread B) : list B := match t with PRun b => [b] | _ => [] end.
  Definition queued (q : list (option B)) : list B := flat_map (fun o => match o with Some b => [b] | None => [] end) q.
  Definition ptotal (s : pool) : list B := map fst (pran s) ++ flat_map running (threads s) ++ queued (pqueue s) ++ commands (todo s).
  Lemma queued_app a b : queued (a ++ b) = queued a ++ queued b.
  Proof. apply flat_map_app. Qed.
  Lemma commands_cons a l : commands (a :: l) = match render a with Some b => [b] | None => [] end ++ commands l.
  Proof. reflexivity. Qed.
  Lemma pstep_total s a s' : pstep s a s' -> Permutation (ptotal s) (ptotal s').
  Proof.
    assert (W : forall l r t t' q o, threads s = l ++ t :: r ->
      Permutation (running t ++ queued (pqueue s)) (o ++ running t' ++ queued q) ->
      Permutation (ptotal s) ((map fst (pran s) ++ o) ++ flat_map running (l ++ t' :: r) ++ queued q ++ commands (todo s))).
    { intros l r t t' q o E P. unfold ptotal. rewrite E, !flat_map_app. cbn [flat_map].
      transitivity (map fst (pran s) ++ flat_map running l ++ flat_map running r ++ (running t ++ queued (pqueue s)) ++ commands (todo s)); [perm|].
      rewrite P. perm. }
    cases; unfold ptotal at 2; simp.
    - unfold ptotal. rewrite T, commands_cons. destruct (render a0); rewrite ?queued_app; cbn [queued flat_map app]; perm.
    - unfold ptotal. rewrite T, queued_app. cbn [queued flat_map app]. perm.
    - rewrite <- (app_nil_r (map fst _)). eapply W; [exact E|]. reflexivity.
    - rewrite <- (app_nil_r (map fst _)). eapply W; [exact E|]. reflexivity.
    - rewrite <- (app_nil_r (map fst _)). eapply W; [exact E|]. rewrite Q. reflexivity.
    - rewrite <- (app_nil_r (map fst _)). eapply W; [exact E|]. rewrite Q. reflexivity.
    - rewrite <- (app_nil_r (map fst _)). eapply W; [exact E|]. reflexivity.
    - rewrite map_app. cbn [map fst]. eapply W; [exact E|]. reflexivity.
    - reflexivity.
  Qed.
  Lemma flat_none (n : nat) : flat_map running (repeat PIdle n) = [].
  Proof. induction n; auto. Qed.
  Lemma inv_ptotal jobs es ls s : prun (pinitial jobs es) ls s -> Permutation (commands es) (ptotal s).
  Proof.
    revert ls s. apply (prun_ind_inv (fun s => Permutation (commands es) (ptotal s))).
    - unfold ptotal, pinitial. simp. now rewrite flat_none.
    - intros s1 a s2 P S. rewrite P. eapply pstep_total; exact S.
  Qed.

  (** The sentinels come last. *)
  Definition ordered (s : pool) : Prop := exists l k, pqueue s = map Some l ++ repeat None k /\
    (k <> 0 -> todo s = []) /\ (Exists (eq PEnd) (threads s) -> pstop s = true \/ (todo s = [] /\ l = [])).
  Lemma exists_at (P : thread B -> Prop) l r t t' : Exists P (l ++ t' :: r) -> P t' \/ Exists P (l ++ t :: r).
  Proof. rewrite !Exists_app, !Exists_cons. tauto. Qed.
  Lemma inv_ordered jobs es ls s : prun (pinitial jobs es) ls s -> ordered s.
  Proof.
    revert ls s. apply prun_ind_inv.
    - exists [], 0. unfold pinitial. simp. split; [reflexivity|]. split; [congruence|]. intros H. apply Exists_exists in H as (w & I & <-).
      apply repeat_spec in I. discriminate.
    - intros s x s' (ql & k & Q0 & K & X) S. revert S.
      assert (W : forall l r t t', threads s = l ++ t :: r -> t' <> PEnd -> Exists (eq PEnd) (l ++ t' :: r) -> pstop s = true \/ (todo s = [] /\ ql = [])).
      { intros l r t t' E N H. apply (exists_at _ _ _ t) in H as [H|H]; [congruence|]. rewrite E in X. auto. }
      cases; unfold ordered; simp.
      + assert (k = 0) as ->. { destruct k; [reflexivity|]. rewrite K in T by discriminate. discriminate. }
        cbn [repeat] in Q0. rewrite app_nil_r in Q0. rewrite Q0. destruct (render a0) as [b|].
        * exists (ql ++ [b]), 0. rewrite map_app, app_nil_r. split; [reflexivity|]. split; [congruence|].
          intros H. destruct (X H) as [H1|[H1 H2]]; [auto|congruence].
        * exists ql, 0. rewrite app_nil_r. split; [reflexivity|]. split; [congruence|].
          intros H. destruct (X H) as [H1|[H1 H2]]; [auto|congruence].
      + exists ql, (S k). rewrite Q0. split; [|split; [reflexivity|]].
        * rewrite <- app_assoc. f_equal. change [@None B] with (repeat (@None B) 1). rewrite <- repeat_app. f_equal. lia.
        * intros H. destruct (X H) as [H1|[H1 H2]]; auto.
      + exists ql, k. repeat split; auto. eapply W; [exact E|discriminate].
      + exists ql, k. repeat split; auto.
      + destruct ql as [|b' ql].
        * cbn in Q0. rewrite Q in Q0. destruct k; discriminate.
        * cbn in Q0. rewrite Q in Q0. injection Q0 as -> ->. exists ql, k. repeat split; auto.
          intros H. apply (exists_at _ _ _ PGet) in H as [H|H]; [congruence|]. rewrite E in X. destruct (X H) as [H1|[H1 H2]]; [auto|discriminate].
      + destruct ql as [|b' ql].
        * cbn in Q0. rewrite Q in Q0. destruct k as [|k]; [discriminate|]. injection Q0 as ->. exists [], k. repeat split; auto.
        * cbn in Q0. rewrite Q in Q0. discriminate.
      + exists ql, k. repeat split; auto. eapply W; [exact E|discriminate].
      + exists ql, k. repeat split; auto. intros H. apply (W _ _ _ PIdle) in E; [|discriminate|exact H]. destruct E as [->|E]; auto.
      + exists ql, k. repeat split; auto.
  Qed.
  Lemma never_stops jobs es ls s : halt = false -> ~ In PLStop ls -> prun (pinitial jobs es) ls s -> pstop s = false.
  Proof.
    intros Hh N R. induction R as [|ls s1 x s2 R IH S]; [reflexivity|]. rewrite in_app_iff in N.
    assert (IH' : pstop s1 = false) by tauto. clear IH. revert N. revert S. cases; simp; intros N; try assumption.
    - rewrite IH', Hh. now destruct ok.
    - exfalso. apply N. right. now left.
  Qed.
  Lemma threads_length jobs es ls s : prun (pinitial jobs es) ls s -> length (threads s) = jobs.
  Proof.
    revert ls s. apply (prun_ind_inv (fun s => length (threads s) = jobs)).
    - apply repeat_length.
    - intros s a s' H. cases; simp; try assumption; rewrite E in H; rewrite app_length in *; exact H.
  Qed.
  Lemma pool_once jobs es ls s : 0 < jobs -> halt = false -> ~ In PLStop ls -> prun (pinitial jobs es) ls s -> pfinal s ->
    Permutation (map fst (pran s)) (commands es).
  Proof.
    intros J Hh N R (F1 & F2 & F3). destruct (inv_ordered _ _ _ _ R) as (ql & k & Q & K & X).
    pose proof (threads_length _ _ _ _ R) as L.
    destruct X as [X|[X ->]].
    - destruct (threads s) as [|t ts]; [cbn in L; lia|]. inversion F3; subst. now left.
    - rewrite (never_stops _ _ _ _ Hh N R) in X. discriminate.
    - rewrite (inv_ptotal _ _ _ _ R). unfold ptotal. rewrite F1, Q.
      assert (flat_map running (threads s) = []) as ->. { clear -F3. induction F3; [reflexivity|]. subst. exact IHF3. }
      assert (queued (map Some [] ++ repeat None k) = []) as ->. { cbn [map app]. clear. induction k; auto. }
      cbn. now rewrite !app_nil_r.
  Qed.
  Lemma pool_safe jobs es ls s : prun (pinitial jobs es) ls s -> Sub (map fst (pran s) ++ flat_map running (threads s)) (commands es).
  Proof.
    intros R. exists (queued (pqueue s) ++ commands (todo s)). rewrite (inv_ptotal _ _ _ _ R). unfold ptotal. perm.
  Qed.

  Lemma pool_subset jobs es ls s : prun (pinitial jobs es) ls s -> exists others, Permutation (commands es) (map fst (pran s) ++ others).
  Proof. intros R. destruct (pool_safe _ _ _ _ R) as [o P]. exists (flat_map running (threads s) ++ o). rewrite P. perm. Qed.

  (** Halting *)
  Definition started (s : pool) : nat := length (pran s) + length (flat_map running (threads s)).
  Lemma started_eq s : PoolSpec.started s = started s.
  Proof.
    unfold started, PoolSpec.started. f_equal. induction (threads s) as [|t ts IH]; [reflexivity|]. cbn [filter flat_map]. destruct t; cbn [running app length]; auto.
  Qed.
  Lemma waiting_at l r (t : thread B) : waiting (l ++ t :: r) = waiting l + (match t with PGet => 1 | _ => 0 end) + waiting r.
  Proof. unfold waiting. rewrite filter_app, app_length. cbn [filter]. destruct t; cbn [length]; lia. Qed.
  Lemma pstep_halted s a s' : pstep s a s' -> pstop s = true ->
    pstop s' = true /\ started s' + waiting (threads s') <= started s + waiting (threads s).
  Proof.
    intros S H. revert S. unfold started. cases; simp; try congruence; (split; [now rewrite ?H|]);
      try (rewrite E, !waiting_at, !flat_map_app, !app_length; cbn [flat_map running app length]; rewrite ?app_length; cbn [length]; lia); lia.
  Qed.
  Lemma pool_halted s1 l2 s2 : pstop s1 = true -> prun s1 l2 s2 -> PoolSpec.started s2 <= PoolSpec.started s1 + waiting (threads s1).
  Proof.
    rewrite !started_eq. intros H R. enough (pstop s2 = true /\ started s2 + waiting (threads s2) <= started s1 + waiting (threads s1)) by lia.
    induction R as [|l s2 a s3 R [H2 L] S]; [auto|]. destruct (pstep_halted _ _ _ S H2) as [H3 L3]. split; [exact H3|lia].
  Qed.
  Lemma waiting_le (ts : list (thread B)) : waiting ts <= length ts.
  Proof. unfold waiting. induction ts as [|w ws IH]; [auto|]. cbn [filter length]. destruct w; cbn [length]; lia. Qed.

  (** The end can be reached *)
  Definition nones (q : list (option B)) : nat := length (filter (fun o => match o with None => true | _ => false end) q).
  Definition alive (ts : list (thread B)) : nat := length (filter (fun t => match t with PEnd => false | _ => true end) ts).
  Lemma alive_at l r (t : thread B) : alive (l ++ t :: r) = alive l + (match t with PEnd => 0 | _ => 1 end) + alive r.
  Proof. unfold alive. rewrite filter_app, app_length. cbn [filter]. destruct t; cbn [length]; lia. Qed.
  Lemma nones_app a b : nones (a ++ b) = nones a + nones b.
  Proof. unfold nones. now rewrite filter_app, app_length. Qed.
  Lemma inv_sentinels jobs es ls s : prun (pinitial jobs es) ls s -> alive (threads s) <= nones (pqueue s) + ends s.
  Proof.
    revert ls s. apply (prun_ind_inv (fun s => alive (threads s) <= nones (pqueue s) + ends s)).
    - unfold pinitial. simp. cbn [nones filter length]. unfold alive. induction jobs; cbn in *; lia.
    - intros s a s' H. cases; simp; try rewrite E in H; rewrite ?alive_at in *; try lia.
      + destruct (render a0); [rewrite nones_app; cbn|]; lia.
      + rewrite nones_app. cbn. lia.
      + rewrite Q in H. unfold nones in *. cbn [filter length] in *. lia.
      + rewrite Q in H. unfold nones in *. cbn [filter length] in *. lia.
  Qed.
  Definition tweight (t : thread B) : nat := match t with PIdle => 1 | PRun _ => 2 | _ => 0 end.
  Definition psize (s : pool) : nat := 4 * length (todo s) + 4 * ends s + 3 * length (pqueue s) + list_sum (map tweight (threads s)).
  Lemma tweight_at l r t : list_sum (map tweight (l ++ t :: r)) = list_sum (map tweight l) + tweight t + list_sum (map tweight r).
  Proof. rewrite map_app, list_sum_app. cbn [map]. change (list_sum (tweight t :: map tweight r)) with (tweight t + list_sum (map tweight r)). lia. Qed.
  Lemma pstep_size s a s' : pstep s a s' -> a = PLWork -> psize s' < psize s.
  Proof.
    unfold psize. cases; simp; intros L; try discriminate; try (rewrite E, !tweight_at; cbn [tweight]; try (rewrite Q; cbn [length]); lia).
    - rewrite T. cbn [length]. destruct (render a0); rewrite ?app_length; cbn [length]; lia.
    - rewrite T, E, app_length. cbn [length]. lia.
  Qed.
  Lemma find_live (ts : list (thread B)) : (exists l t r, ts = l ++ t :: r /\ t <> PEnd) \/ Forall (eq PEnd) ts.
  Proof.
    induction ts as [|w ts [(l & t & r & -> & N)|F]]; [right; constructor| |].
    - left. exists (w :: l), t, r. auto.
    - destruct w; try (left; exists [], w, ts; split; [reflexivity|discriminate]).
      + left. exists [], PIdle, ts. split; [reflexivity|discriminate].
      + left. exists [], PGet, ts. split; [reflexivity|discriminate].
      + left. exists [], (PRun b), ts. split; [reflexivity|discriminate].
      + right. constructor; auto.
  Qed.
  Lemma progress jobs es ls s : prun (pinitial jobs es) ls s -> pfinal s \/ exists s', pstep s PLWork s'.
  Proof.
    intros R. pose proof (inv_sentinels _ _ _ _ R) as I.
    destruct (todo s) as [|a l] eqn:T; [|right; eexists; eapply PAdd; exact T].
    destruct (ends s) as [|n] eqn:E; [|right; eexists; eapply PClose; eassumption].
    destruct (find_live (threads s)) as [(l & t & r & Et & N)|F]; [|left; repeat split; assumption].
    right. destruct t; try congruence.
    - destruct (pstop s) eqn:P; eexists; [eapply PQuit|eapply PCheck]; eassumption.
    - destruct (pqueue s) as [|[b|] q] eqn:Q.
      + rewrite Et, alive_at in I. cbn in I. lia.
      + eexists. eapply PTake; eassumption.
      + eexists. eapply PTakeEnd; eassumption.
    - eexists. eapply (PDone _ _ _ _ _ _ true). exact Et.
  Qed.
  Lemma prun_app s l s1 l' s2 : prun s l s1 -> prun s1 l' s2 -> prun s (l ++ l') s2.
  Proof.
    intros R1 R2. induction R2 as [|l' s2 a s3 R2 IH S]; [now rewrite app_nil_r|]. rewrite app_assoc. econstructor; [exact IH|exact S].
  Qed.
  Lemma pool_bounded jobs es ls s : prun (pinitial jobs es) ls s -> ~ In PLPoll ls -> ~ In PLStop ls -> length ls <= 4 * length es + 5 * jobs.
  Proof.
    intros R N1 N2. enough (length ls + psize s <= 4 * length es + 5 * jobs) by lia.
    induction R as [|l s1 a s2 R IH S].
    - unfold psize, pinitial. simp. cbn [length]. assert (list_sum (map tweight (repeat PIdle jobs)) = jobs) as ->; [|lia].
      induction jobs as [|n IHn]; [reflexivity|]. cbn [repeat map]. change (list_sum (tweight PIdle :: map tweight (repeat PIdle n))) with (1 + list_sum (map tweight (repeat PIdle n))). lia.
    - rewrite in_app_iff in *. assert (a = PLWork) as ->. { destruct a; [reflexivity| |]; exfalso; [apply N1|apply N2]; right; now left. }
      specialize (IH (fun h => N1 (or_introl h)) (fun h => N2 (or_introl h))).
      pose proof (pstep_size _ _ _ S eq_refl). rewrite app_length. cbn [length]. lia.
  Qed.
  Lemma pool_ends jobs es ls s : prun (pinitial jobs es) ls s -> exists ls' s', prun s ls' s' /\ Forall (eq PLWork) ls' /\ pfinal s'.
  Proof.
    remember (psize s) as n eqn:Hn. revert ls s Hn. induction n as [n IH] using lt_wf_ind. intros ls s -> R.
    destruct (progress _ _ _ _ R) as [F|[s1 S]]; [exists [], s; repeat split; [constructor|constructor|apply F|apply F|apply F]|].
    destruct (IH _ (pstep_size _ _ _ S eq_refl) (ls ++ [PLWork]) s1 eq_refl) as (l' & s' & R' & W & F); [econstructor; eassumption|].
    exists (([] ++ [PLWork]) ++ l'), s'. split; [|split; [|exact F]].
    - eapply prun_app; [econstructor; [constructor|exact S]|exact R'].
    - constructor; auto.
  Qed.
End Pool.
Ltac pnorm := match goal with |- PoolModel.prun _ _ ?s _ _ => let s' := eval vm_compute in s in change s with s' end.
