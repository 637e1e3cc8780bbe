(** Proofs about outputs that end early. *)
From Coq Require Import List NArith ZArith Bool Arith Lia Permutation.
From Verif Require Import Py PipeModel PipeSpec.
Import ListNotations.
Local Open Scope nat_scope.

(** * Merging *)
Lemma merged_perm ls ls' out : Permutation ls ls' -> merged ls out -> merged ls' out.
Proof.
  intros P M. revert ls' P. induction M as [ls F|ls l t ls1 out Q M IH]; intros ls' P.
  - constructor. rewrite Forall_forall in *. intros x H. apply F. eapply Permutation_in; [apply Permutation_sym, P|exact H].
  - apply (merged_next _ l t ls1); [|exact M]. now rewrite <- P.
Qed.
Lemma merged_nil ls out : merged ls out -> merged ([] :: ls) out.
Proof.
  induction 1 as [ls F|ls l t ls1 out Q M IH]; [constructor; now constructor|].
  apply (merged_next _ l t ([] :: ls1)); [rewrite Q; apply perm_swap|]. eapply merged_perm; [apply perm_swap|exact IH].
Qed.
Lemma merged_drop ls ls0 out : merged ls out -> Permutation ls ([] :: ls0) -> merged ls0 out.
Proof.
  intros M. revert ls0. induction M as [ls F|ls l t ls1 out Q M IH]; intros ls0 P.
  - constructor. rewrite Forall_forall in *. intros x H. apply F. eapply Permutation_in; [apply Permutation_sym, P|]. now right.
  - rewrite P in Q. assert (I : In [] ls1).
    { assert (I : In [] ((l :: t) :: ls1)) by (eapply Permutation_in; [exact Q|now left]). destruct I as [I|I]; [discriminate|exact I]. }
    apply in_split in I as (a & b & ->).
    apply (merged_next _ l t (a ++ b)).
    + apply (Permutation_cons_inv (a := [])). rewrite Q. rewrite <- Permutation_middle. apply perm_swap.
    + apply IH. rewrite <- Permutation_middle. apply perm_swap.
Qed.
Lemma merged_repeat n ls out : merged (repeat [] n ++ ls) out -> merged ls out.
Proof. induction n as [|n IH]; intros M; [exact M|]. apply IH. eapply merged_drop; [exact M|reflexivity]. Qed.

(** * The processes *)
Definition pending (st : state) : list (list line) := map lines_of (workers st) ++ queue st.
Lemma nth_update i w l x : nth_error l i = Some x -> exists a b, l = a ++ x :: b /\ update i w l = a ++ w :: b.
Proof.
  revert i. induction l as [|y l IH]; intros [|i] H; try discriminate.
  - injection H as ->. exists [], l. now split.
  - apply IH in H as (a & b & -> & E). exists (y :: a), b. cbn [update app]. now rewrite E.
Qed.

Section Proofs.
  Variable medium : nat -> option failure.
  Variable size : nat.
  Local Notation step := (step medium size).
  Local Notation run := (run medium size).

  Lemma step_stopping st ev st' : step st ev = Some st' -> stopping st = true -> stopping st' = true.
  Proof.
    destruct ev as [i|i]; cbn [PipeModel.step]; intros H B.
    - destruct (nth_error _ _) as [[[|]|]|]; try discriminate. rewrite B in H. destruct (queue st); discriminate.
    - destruct (nth_error _ _) as [[[|l t]|]|]; try discriminate. destruct (medium (calls st)); injection H as <-; auto.
  Qed.
  Lemma run_stopping evs : forall st st', run st evs = Some st' -> stopping st = true -> stopping st' = true.
  Proof.
    induction evs as [|ev evs IH]; cbn [PipeModel.run]; intros st st' H B; [now injection H as <-|].
    destruct (step st ev) as [s|] eqn:E; [|discriminate]. eapply IH; [exact H|]. eapply step_stopping; eauto.
  Qed.
  (** As long as nobody has failed *)
  Lemma run_merged evs : forall st st', run st evs = Some st' -> stopping st' = false -> may_end st' = true ->
    exists out, got st' = got st ++ out /\ merged (pending st) out.
  Proof.
    induction evs as [|ev evs IH]; cbn [PipeModel.run]; intros st st' H B M.
    - injection H as <-. exists []. rewrite app_nil_r. split; [reflexivity|]. unfold may_end in M. rewrite B in M. cbn [orb] in M.
      apply andb_true_iff in M as [Q F]. unfold pending. destruct (queue st); [|discriminate]. rewrite app_nil_r.
      constructor. rewrite forallb_forall in F. apply Forall_forall. intros x Hx. apply in_map_iff in Hx as (w & <- & Hw).
      apply F in Hw. destruct w as [[|]|]; try discriminate. reflexivity.
    - destruct (step st ev) as [s|] eqn:E; [|discriminate]. destruct (IH s st' H B M) as (out & G & MG).
      destruct ev as [i|i]; cbn [PipeModel.step] in E.
      + destruct (nth_error (workers st) i) as [[[|]|]|] eqn:N; try discriminate.
        destruct (queue st) as [|c q] eqn:Q; [discriminate|]. destruct (stopping st); [discriminate|]. injection E as <-.
        cbn [got] in G. exists out. split; [exact G|]. unfold pending in *. cbn [workers queue] in MG.
        destruct (nth_update i (Prints c) _ _ N) as (a & b & W & U). rewrite U in MG. rewrite W, Q.
        rewrite map_app in *. cbn [map lines_of] in *. eapply merged_perm; [|apply merged_nil, MG].
        rewrite <- !app_assoc. cbn [app]. etransitivity; [|apply Permutation_middle]. apply perm_skip.
        apply Permutation_app_head. apply Permutation_middle.
      + destruct (nth_error (workers st) i) as [[[|l t]|]|] eqn:N; try discriminate.
        destruct (medium (calls st)) eqn:D.
        * injection E as <-. apply run_stopping in H; [congruence|reflexivity].
        * injection E as <-. cbn [got] in G. exists (l :: out). split; [rewrite G, <- app_assoc; reflexivity|].
          unfold pending in *. cbn [workers queue] in MG. destruct (nth_update i (Prints t) _ _ N) as (a & b & W & U). rewrite U in MG. rewrite W.
          rewrite map_app in *. cbn [map lines_of] in *. rewrite <- !app_assoc in *. cbn [app] in *.
          apply (merged_next _ l t (map lines_of a ++ map lines_of b ++ queue st)); [symmetry; apply Permutation_middle|].
          eapply merged_perm; [|exact MG]. symmetry. apply Permutation_middle.
  Qed.
  (** The exit code is 4 if and only if somebody has failed. *)
  Definition told (st : state) : Prop :=
    (stopping st = true -> exitcode st = 4%Z /\ tracebacks st <> 0) /\ (stopping st = false -> exitcode st = 0%Z /\ tracebacks st = 0).
  Lemma step_told st ev st' : step st ev = Some st' -> told st -> told st'.
  Proof.
    destruct ev as [i|i]; cbn [PipeModel.step]; intros H [T1 T2].
    - destruct (nth_error _ _) as [[[|]|]|]; try discriminate. destruct (queue st); [discriminate|]. destruct (stopping st) eqn:B; [discriminate|].
      injection H as <-. split; cbn [stopping exitcode tracebacks]; intros X; try discriminate X; auto.
    - destruct (nth_error _ _) as [[[|l t]|]|]; try discriminate. destruct (medium (calls st)); injection H as <-; split; cbn [stopping exitcode tracebacks]; intros X; try discriminate X; auto.
  Qed.
  Lemma run_told evs : forall st st', run st evs = Some st' -> told st -> told st'.
  Proof.
    induction evs as [|ev evs IH]; cbn [PipeModel.run]; intros st st' H T; [now injection H as <-|].
    destruct (step st ev) as [s|] eqn:E; [|discriminate]. eapply IH; [exact H|]. eapply step_told; eauto.
  Qed.
  Lemma start_told jobs chunks : told (start jobs chunks).
  Proof. split; [discriminate|]. now split. Qed.
  Lemma pending_start jobs chunks : pending (start jobs chunks) = repeat [] jobs ++ chunks.
  Proof. unfold pending, start. cbn [workers queue]. f_equal. induction jobs; cbn; [reflexivity|now f_equal]. Qed.

  Lemma not_stopping jobs chunks evs st fail : run (start jobs chunks) evs = Some st ->
    complaints (immediate fail st) = 0 \/ status (immediate fail st) <> 4%Z -> stopping st = false.
  Proof.
    intros R H. destruct (run_told _ _ _ R (start_told jobs chunks)) as [T1 _]. destruct (stopping st); [|reflexivity].
    destruct (T1 eq_refl) as [C _]. unfold immediate in H. rewrite C in H. cbn in H. destruct H; congruence.
  Qed.
  Lemma immediate_told fail jobs chunks evs st : run (start jobs chunks) evs = Some st -> may_end st = true ->
    status (immediate fail st) <> 4%Z -> merged chunks (written (immediate fail st)) /\ complaints (immediate fail st) = 0.
  Proof.
    intros R M H. assert (B := not_stopping _ _ _ _ fail R (or_intror H)).
    destruct (run_told _ _ _ R (start_told jobs chunks)) as [_ T2]. destruct (T2 B) as [C T].
    destruct (run_merged _ _ _ R B M) as (out & G & MG). cbn [start got app] in G. rewrite pending_start in MG. apply merged_repeat in MG.
    unfold immediate. rewrite C, T. cbn [Z.eqb]. destruct (fail && _); cbn [written complaints]; rewrite G; now split.
  Qed.

  (** Nothing is printed twice. *)
  Lemma run_part evs : forall st st', run st evs = Some st' ->
    exists out lost, got st' = got st ++ out /\ Permutation (concat (pending st)) (out ++ lost).
  Proof.
    induction evs as [|ev evs IH]; cbn [PipeModel.run]; intros st st' H.
    - injection H as <-. exists [], (concat (pending st)). now rewrite app_nil_r.
    - destruct (step st ev) as [s|] eqn:E; [|discriminate]. destruct (IH s st' H) as (out & lost & G & P).
      destruct ev as [i|i]; cbn [PipeModel.step] in E.
      + destruct (nth_error (workers st) i) as [[[|]|]|] eqn:N; try discriminate.
        destruct (queue st) as [|c q] eqn:Q; [discriminate|]. destruct (stopping st); [discriminate|]. injection E as <-.
        cbn [got] in G. exists out, lost. split; [exact G|]. rewrite <- P. unfold pending. cbn [workers queue].
        destruct (nth_update i (Prints c) _ _ N) as (a & b & W & U). rewrite U, W, Q.
        rewrite !map_app. cbn [map lines_of]. rewrite !concat_app. cbn [concat app]. rewrite <- !app_assoc.
        apply Permutation_app_head. apply Permutation_app_swap_app.
      + destruct (nth_error (workers st) i) as [[[|l t]|]|] eqn:N; try discriminate.
        assert (X : forall w, Permutation (concat (pending st)) (l :: t ++ concat (map lines_of (update i Failed (workers st)) ++ queue st)) /\
                     (w = Prints t -> Permutation (concat (pending st)) (l :: concat (map lines_of (update i w (workers st)) ++ queue st)))).
        { intros w. unfold pending. destruct (nth_update i Failed _ _ N) as (a & b & W & U). split.
          - rewrite U, W. rewrite !map_app. cbn [map lines_of]. rewrite !concat_app. cbn [concat app]. rewrite <- !app_assoc. cbn [app].
            etransitivity; [symmetry; apply Permutation_middle|]. apply perm_skip. rewrite !app_assoc; do 2 apply Permutation_app_tail; apply Permutation_app_comm.
          - intros ->. clear U W. destruct (nth_update i (Prints t) _ _ N) as (a' & b' & W & U). rewrite U, W.
            rewrite !map_app. cbn [map lines_of]. rewrite !concat_app. cbn [concat app]. rewrite <- !app_assoc. cbn [app]. rewrite <- ?app_assoc.
            symmetry. apply Permutation_middle. }
        destruct (medium (calls st)) eqn:D; injection E as <-; cbn [got] in G.
        * destruct (X Failed) as [Y _]. unfold pending in P. cbn [workers queue] in P.
          match type of G with _ = (got st ++ ?x) ++ _ => set (again := x) in G end.
          assert (A : again = [] \/ again = [l]) by (unfold again, kept; destruct (_ <=? _); [destruct (medium (S _))|]; auto).
          destruct A as [A|A]; rewrite A in G.
          -- rewrite app_nil_r in G. exists out, (l :: t ++ lost). split; [exact G|]. rewrite Y, P.
             etransitivity; [|apply Permutation_middle]. apply perm_skip. apply Permutation_app_swap_app.
          -- exists (l :: out), (t ++ lost). split; [rewrite G, <- app_assoc; reflexivity|]. rewrite Y, P. cbn [app]. apply perm_skip. apply Permutation_app_swap_app.
        * exists (l :: out), lost. split; [rewrite G, <- app_assoc; reflexivity|]. destruct (X (Prints t)) as [_ Y]. rewrite (Y eq_refl). cbn [app]. apply perm_skip. exact P.
  Qed.
  Lemma concat_repeat {A} n : concat (repeat (@nil A) n) = [].
  Proof. induction n; cbn; auto. Qed.
  Lemma immediate_part fail jobs chunks evs st : run (start jobs chunks) evs = Some st ->
    exists lost, Permutation (concat chunks) (written (immediate fail st) ++ lost).
  Proof.
    intros R. destruct (run_part _ _ _ R) as (out & lost & G & P). rewrite pending_start, concat_app, concat_repeat in P. cbn [app start got] in *.
    exists lost. unfold immediate. destruct (_ =? _)%Z; [|destruct (fail && _)]; cbn [written]; now rewrite G.
  Qed.

  (** Nobody takes more work after a failure. *)
  Lemma run_stops evs : forall st st', stopping st = true -> run st evs = Some st' -> length evs <= held st.
  Proof.
    induction evs as [|ev evs IH]; cbn [PipeModel.run length]; intros st st' B H; [lia|].
    destruct (step st ev) as [s|] eqn:E; [|discriminate]. assert (B' := step_stopping _ _ _ E B). specialize (IH s st' B' H).
    destruct ev as [i|i]; cbn [PipeModel.step] in E.
    - destruct (nth_error _ _) as [[[|]|]|]; try discriminate. rewrite B in E. destruct (queue st); discriminate.
    - destruct (nth_error (workers st) i) as [[[|l t]|]|] eqn:N; try discriminate.
      assert (K : forall w, (w = Failed \/ w = Prints t) -> length (concat (map lines_of (update i w (workers st)))) < held st).
      { intros w Hw. unfold held. destruct (nth_update i w _ _ N) as (a & b & W & U). rewrite U, W, !map_app, !concat_app, !app_length. cbn [map concat lines_of].
        rewrite !app_length. cbn [length]. destruct Hw as [-> | ->]; cbn [lines_of length]; lia. }
      unfold held in IH at 1. destruct (medium (calls st)); injection E as <-; cbn [workers] in IH.
      + specialize (K Failed (or_introl eq_refl)). lia.
      + specialize (K (Prints t) (or_intror eq_refl)). lia.
  Qed.
  (** All runs end *)
  Definition todo (st : state) : nat := length (queue st) + length (concat (pending st)).
  Lemma run_short evs : forall st st', run st evs = Some st' -> length evs <= todo st.
  Proof.
    induction evs as [|ev evs IH]; cbn [PipeModel.run length]; intros st st' H; [lia|].
    destruct (step st ev) as [s|] eqn:E; [|discriminate]. specialize (IH s st' H). enough (todo s < todo st) by lia. clear IH H.
    unfold todo, pending. destruct ev as [i|i]; cbn [PipeModel.step] in E.
    - destruct (nth_error (workers st) i) as [[[|]|]|] eqn:N; try discriminate.
      destruct (queue st) as [|c q] eqn:Q; [discriminate|]. destruct (stopping st); [discriminate|]. injection E as <-. cbn [queue workers].
      destruct (nth_update i (Prints c) _ _ N) as (a & b & W & U). rewrite U, W, !map_app, !concat_app, !app_length. cbn [map concat lines_of]. rewrite ?app_length. cbn [length app]. lia.
    - destruct (nth_error (workers st) i) as [[[|l t]|]|] eqn:N; try discriminate.
      destruct (nth_update i Failed _ _ N) as (a & b & W & U). destruct (nth_update i (Prints t) _ _ N) as (a' & b' & W' & U').
      destruct (medium (calls st)); injection E as <-; cbn [queue workers].
      + rewrite U, W, !map_app, !concat_app, !app_length. cbn [map concat lines_of]. rewrite ?app_length. cbn [length app]. lia.
      + rewrite U', W', !map_app, !concat_app, !app_length. cbn [map concat lines_of]. rewrite ?app_length. cbn [length app]. lia.
  Qed.
  Lemma run_short_start jobs chunks evs st : run (start jobs chunks) evs = Some st -> length evs <= length chunks + length (concat chunks).
  Proof. intros R. apply run_short in R. unfold todo in R. rewrite pending_start, concat_app, concat_repeat in R. exact R. Qed.
  Definition sane (st : state) : Prop := workers st <> [] /\ (In Failed (workers st) -> stopping st = true).
  Lemma step_sane st ev st' : step st ev = Some st' -> sane st -> sane st'.
  Proof.
    destruct ev as [i|i]; cbn [PipeModel.step]; intros H [S1 S2].
    - destruct (nth_error (workers st) i) as [[[|]|]|] eqn:N; try discriminate. destruct (queue st) as [|c q]; [discriminate|]. destruct (stopping st) eqn:B; [discriminate|].
      injection H as <-. destruct (nth_update i (Prints c) _ _ N) as (a & b & W & U). split; cbn [workers stopping]; rewrite U.
      + destruct a; discriminate.
      + intros I. apply S2. rewrite W. apply in_app_iff in I as [I|[I|I]]; [apply in_app_iff; now left|discriminate|apply in_app_iff; right; now right].
    - destruct (nth_error (workers st) i) as [[[|l t]|]|] eqn:N; try discriminate.
      destruct (nth_update i Failed _ _ N) as (a & b & W & U). destruct (nth_update i (Prints t) _ _ N) as (a' & b' & W' & U').
      destruct (medium (calls st)); injection H as <-; split; cbn [workers stopping]; rewrite ?U, ?U'.
      + destruct a; discriminate.
      + reflexivity.
      + destruct a'; discriminate.
      + intros I. apply S2. rewrite W'. apply in_app_iff in I as [I|[I|I]]; [apply in_app_iff; now left|discriminate|apply in_app_iff; right; now right].
  Qed.
  Lemma run_sane evs : forall st st', run st evs = Some st' -> sane st -> sane st'.
  Proof.
    induction evs as [|ev evs IH]; cbn [PipeModel.run]; intros st st' H T; [now injection H as <-|].
    destruct (step st ev) as [s|] eqn:E; [|discriminate]. eapply IH; [exact H|]. eapply step_sane; eauto.
  Qed.
  Lemma run_goes_on jobs chunks evs st : jobs <> 0 -> run (start jobs chunks) evs = Some st ->
    may_end st = true \/ exists ev st', step st ev = Some st'.
  Proof.
    intros J R. assert (S : sane st).
    { eapply run_sane; [exact R|]. split; cbn [start workers stopping]; [destruct jobs; [easy|discriminate]|]. intros I. apply repeat_spec in I. discriminate. }
    destruct S as [S1 S2]. unfold may_end. destruct (stopping st) eqn:B; [now left|]. cbn [orb].
    destruct (forallb idle (workers st)) eqn:F.
    - destruct (queue st) as [|c q] eqn:Q; [now left|]. right. exists (Take 0). cbn [PipeModel.step].
      destruct (workers st) as [|w ws] eqn:W; [easy|]. cbn [forallb] in F. apply andb_true_iff in F as [F _]. cbn [nth_error].
      destruct w as [[|]|]; try discriminate. rewrite Q, B. eauto.
    - right. assert (X : exists w, In w (workers st) /\ idle w = false).
      { clear - F. induction (workers st) as [|w l IH]; [discriminate|]. cbn [forallb] in F. destruct (idle w) eqn:D; [destruct (IH F) as (x & I & E); exists x; split; [now right|exact E]|exists w; split; [now left|exact D]]. }
      destruct X as (w & I & D). destruct w as [[|l t]|]; [discriminate| |specialize (S2 I); discriminate].
      apply In_nth_error in I as (i & N). exists (Print i). cbn [PipeModel.step]. rewrite N. destruct (medium (calls st)); eauto.
  Qed.
  Lemma run_fine (A : all_read medium) evs : forall st st', run st evs = Some st' -> stopping st = false -> stopping st' = false.
  Proof.
    induction evs as [|ev evs IH]; cbn [PipeModel.run]; intros st st' H B; [now injection H as <-|].
    destruct (step st ev) as [s|] eqn:E; [|discriminate]. eapply IH; [exact H|]. destruct ev as [i|i]; cbn [PipeModel.step] in E.
    - destruct (nth_error _ _) as [[[|]|]|]; try discriminate. destruct (queue st); [discriminate|]. destruct (stopping st); [discriminate|]. now injection E as <-.
    - destruct (nth_error _ _) as [[[|l t]|]|]; try discriminate. rewrite A in E. injection E as <-. exact B.
  Qed.
  (** has_result *)
  Definition results (st : state) : Prop := has_result st = true <-> exists l, In l (got st ++ concat (map lines_of (workers st))).
  Lemma step_results (A : all_read medium) st ev st' : step st ev = Some st' -> results st -> results st'.
  Proof.
    unfold results. destruct ev as [i|i]; cbn [PipeModel.step]; intros E R.
    - destruct (nth_error (workers st) i) as [[[|]|]|] eqn:N; try discriminate. destruct (queue st) as [|c q]; [discriminate|]. destruct (stopping st); [discriminate|].
      injection E as <-. cbn [has_result got workers]. destruct (nth_update i (Prints c) _ _ N) as (a & b & W & U). rewrite U. rewrite W in R.
      rewrite map_app, concat_app in *. cbn [map concat lines_of app] in *. destruct c as [|l c]; [exact R|]. split; [|reflexivity].
      intros _. exists l. rewrite !in_app_iff. right. right. left. now left.
    - destruct (nth_error (workers st) i) as [[[|l t]|]|] eqn:N; try discriminate. rewrite A in E. injection E as <-. cbn [has_result got workers].
      destruct (nth_update i (Prints t) _ _ N) as (a & b & W & U). rewrite U. rewrite W in R. rewrite R, !map_app, !concat_app. cbn [map concat lines_of].
      split; intros (x & H); exists x; rewrite !in_app_iff in *; cbn [In] in *; tauto.
  Qed.
  Lemma run_results (A : all_read medium) evs : forall st st', run st evs = Some st' -> results st -> results st'.
  Proof.
    induction evs as [|ev evs IH]; cbn [PipeModel.run]; intros st st' H T; [now injection H as <-|].
    destruct (step st ev) as [s|] eqn:E; [|discriminate]. eapply IH; [exact H|]. eapply step_results; eauto.
  Qed.
  Lemma immediate_fine fail jobs chunks evs st : all_read medium -> run (start jobs chunks) evs = Some st -> may_end st = true ->
    merged chunks (written (immediate fail st)) /\ complaints (immediate fail st) = 0 /\
    status (immediate fail st) = (if fail then match written (immediate fail st) with [] => 1 | _ => 0 end else 0)%Z.
  Proof.
    intros A R M. assert (B := run_fine A _ _ _ R eq_refl). destruct (run_told _ _ _ R (start_told jobs chunks)) as [_ T2]. destruct (T2 B) as [C T].
    assert (S4 : status (immediate fail st) <> 4%Z) by (unfold immediate; rewrite C; cbn [Z.eqb]; destruct (fail && _); discriminate).
    destruct (immediate_told fail _ _ _ _ R M S4) as [H1 H2]. split; [exact H1|]. split; [exact H2|].
    assert (RS : results st).
    { eapply run_results; [exact A|exact R|]. unfold results. cbn [start has_result got workers app]. split; [discriminate|]. intros (l & H). exfalso.
      apply in_concat in H as (x & H & I). apply in_map_iff in H as (w & <- & H). apply repeat_spec in H. subst w. exact I. }
    unfold may_end in M. rewrite B in M. cbn [orb] in M. apply andb_true_iff in M as [_ F].
    assert (Z : concat (map lines_of (workers st)) = []).
    { clear - F. induction (workers st) as [|w l IH]; [reflexivity|]. cbn [forallb map concat] in *. apply andb_true_iff in F as [D F]. rewrite (IH F). destruct w as [[|]|]; try discriminate. reflexivity. }
    unfold results in RS. rewrite Z, app_nil_r in RS. unfold immediate. rewrite C. cbn [Z.eqb].
    destruct fail; cbn [andb written status]; [|reflexivity].
    destruct (has_result st); cbn [negb status written].
    - destruct RS as [RS _]. destruct (RS eq_refl) as (l & I). destruct (got st); [easy|reflexivity].
    - destruct (got st) as [|l g]; [reflexivity|]. destruct RS as [_ RS]. assert (false = true) by (apply RS; exists l; now left). discriminate.
  Qed.

  (** * The main process *)
  Lemma print_all_spec lines : forall n,
    match print_all medium size n lines with
    | (_, g, None) => g = lines
    | (m, g, Some (e, b)) => exists l t, lines = g ++ l :: t /\ b = kept size l /\ exists k, m = S k /\ medium k = Some e
    end.
  Proof.
    induction lines as [|l t IH]; intros n; cbn [print_all]; [reflexivity|]. destruct (medium n) as [e|] eqn:D.
    - exists l, t. split; [reflexivity|]. split; [reflexivity|]. exists n. now split.
    - specialize (IH (S n)). destruct (print_all medium size (S n) t) as [[m g] [[e b]|]].
      + destruct IH as (l' & t' & -> & -> & K). exists l', t'. split; [reflexivity|]. now split.
      + now subst.
  Qed.
  Lemma collective_part fail lines : exists lost, lines = written (collective medium size fail lines) ++ lost.
  Proof.
    unfold collective. assert (P := print_all_spec lines 0). destruct (print_all medium size 0 lines) as [[m g] [[e b]|]].
    - destruct P as (l & t & E & -> & _).
      assert (X : forall z c, exists lost, lines = written (interpreter_ends medium m (kept size l) (Outcome g z c)) ++ lost).
      { intros z c. unfold interpreter_ends, kept. destruct (_ <=? _); cbn [written]; [|eauto]. destruct (medium m); cbn [written]; [eauto|].
        exists t. now rewrite <- app_assoc. }
      destruct e; apply X.
    - subst g. exists []. cbn [interpreter_ends written]. now rewrite app_nil_r.
  Qed.
  Lemma collective_told fail lines : stays_broken medium -> Forall (fun l => length l <= size) lines ->
    status (collective medium size fail lines) = 0%Z -> written (collective medium size fail lines) = lines /\ complaints (collective medium size fail lines) = 0.
  Proof.
    intros SB F. unfold collective. assert (P := print_all_spec lines 0). destruct (print_all medium size 0 lines) as [[m g] [[e b]|]].
    - destruct P as (l & t & -> & -> & k & -> & D). apply Forall_app in F as [_ F]. assert (L : length l <= size) by now inversion F. clear F.
      unfold kept. apply Nat.leb_le in L. rewrite L. destruct e; cbn [interpreter_ends].
      + rewrite (SB k D). discriminate.
      + destruct (medium (S k)); discriminate.
    - subst g. now split.
  Qed.
  Lemma ends_zero n b o : b <> [] -> status (interpreter_ends medium n b o) = 0%Z ->
    medium n = None /\ written (interpreter_ends medium n b o) = written o ++ b /\ complaints (interpreter_ends medium n b o) = complaints o.
  Proof. intros N. unfold interpreter_ends. destruct b; [easy|]. destruct (medium n); [discriminate|]. now repeat split. Qed.
  Lemma ends_one n b g c : status (interpreter_ends medium n b (Outcome g 1 c)) <> 0%Z.
  Proof. unfold interpreter_ends. destruct b; [discriminate|]. destruct (medium n); discriminate. Qed.
  Lemma json_told fail results calls last left : stays_broken medium -> status (json_array medium size fail results calls last left) = 0%Z ->
    written (json_array medium size fail results calls last left) = calls ++ [last] /\ complaints (json_array medium size fail results calls last left) = 0.
  Proof.
    intros SB. unfold json_array. assert (P := print_all_spec calls 0). destruct (print_all medium size 0 calls) as [[m g] [[e b]|]].
    - destruct P as (l & t & _ & _ & k & -> & D). destruct e; intros H.
      + apply ends_zero in H as [H _]; [|discriminate]. rewrite (SB k D) in H. discriminate.
      + now apply ends_one in H.
    - subst g. intros H. apply ends_zero in H as (_ & -> & ->); [now split|discriminate].
  Qed.
  Lemma counts_told fail results calls last left : status (counts medium size fail results calls last left) = 0%Z ->
    written (counts medium size fail results calls last left) = calls ++ [last] /\ complaints (counts medium size fail results calls last left) = 0.
  Proof.
    unfold counts. assert (P := print_all_spec calls 0). destruct (print_all medium size 0 calls) as [[m g] [[e b]|]]; intros H.
    - now apply ends_one in H.
    - subst g. apply ends_zero in H as (_ & -> & ->); [now split|discriminate].
  Qed.
  Lemma array_fine fail results calls last left : all_read medium ->
    json_array medium size fail results calls last left = Outcome (calls ++ [last]) (if fail then match results with [] => 1 | _ => 0 end else 0)%Z 0 /\
    counts medium size fail results calls last left = Outcome (calls ++ [last]) (if fail then match results with [] => 1 | _ => 0 end else 0)%Z 0.
  Proof.
    intros A. unfold json_array, counts. assert (P := print_all_spec calls 0). destruct (print_all medium size 0 calls) as [[m g] [[e b]|]].
    - destruct P as (l & t & _ & _ & k & _ & D). rewrite A in D. discriminate.
    - subst g. unfold interpreter_ends. rewrite A. unfold walk_status. destruct fail, results; now split.
  Qed.
  Lemma collective_fine fail lines : all_read medium ->
    collective medium size fail lines = Outcome lines (if fail then match lines with [] => 1 | _ => 0 end else 0)%Z 0.
  Proof.
    intros A. unfold collective. assert (P := print_all_spec lines 0). destruct (print_all medium size 0 lines) as [[m g] [[e b]|]].
    - destruct P as (l & t & _ & _ & k & _ & D). rewrite A in D. discriminate.
    - subst g. cbn [interpreter_ends]. unfold walk_status. now destruct fail, lines.
  Qed.
End Proofs.
