(** Proofs about the tree that a search sees. *)
From Coq Require Import List NArith ZArith Bool Lia Permutation.
From Verif Require Import Py PathSpec EntryModel SearchModel SearchSpec SearchTreeProofs FollowModel FollowSpec.
Import ListNotations.
Local Open Scope nat_scope.

Lemma lookup_in n kids i : NoDup (map fst kids) -> (lookup n kids = Some i <-> In (n, i) kids).
Proof.
  induction kids as [|[k j] kids IH]; cbn [lookup map fst]; intros N; [split; [discriminate|intros []]|].
  inversion N as [|? ? H D]; subst. destruct (str_eqb n k) eqn:E.
  - apply str_eqb_eq in E. subst k. split.
    + intros X. injection X as ->. now left.
    + intros [X|X]; [congruence|]. exfalso. apply H. apply in_map_iff. exists (n, i). auto.
  - rewrite IH by exact D. split; [now right|]. intros [X|X]; [|exact X]. injection X as -> ->.
    rewrite (proj2 (str_eqb_eq n n) eq_refl) in E. discriminate.
Qed.

Section Follow.
  Variable fs : nat -> object.
  Variable limit root used0 : nat.
  Hypothesis Sane : sane fs.
  Notation resolve := (resolve fs limit).
  Notation behind := (behind fs limit).

  Lemma resolve_snoc follow n : forall names used i, resolve follow used i (names ++ [n]) =
    then_sys (resolve true used i names) (fun p => resolve follow (fst p) (snd p) [n]).
  Proof.
    induction names as [|m names IH]; intros used i; [reflexivity|].
    change ((m :: names) ++ [n]) with (m :: (names ++ [n])). cbn [FollowModel.resolve].
    destruct (fs i) as [st r x kids|st|st l]; try reflexivity. destruct x; [|reflexivity].
    destruct (lookup m kids) as [j|]; [|reflexivity].
    replace (match names ++ [n] with [] => follow | _ => true end) with true by (destruct names; reflexivity).
    replace (match names with [] => true | _ => true end) with true by (destruct names; reflexivity).
    destruct (behind true used j) as [p|e]; [|reflexivity]. cbn [then_sys]. apply IH.
  Qed.
  Lemma behind_spec follow used i used' j : behind follow used i = Got (used', j) <-> Behind fs limit follow used i used' j.
  Proof.
    unfold FollowModel.behind. split.
    - destruct (fs i) as [st r x kids|st|st l] eqn:E; intros H.
      + injection H as <- <-. constructor. intros ? ? K. congruence.
      + injection H as <- <-. constructor. intros ? ? K. congruence.
      + destruct follow; [|injection H as <- <-; constructor; reflexivity].
        destruct l as [e|[k j']]; [discriminate|]. destruct (Nat.leb_spec (used + k) limit); [|discriminate].
        injection H as <- <-. econstructor; eauto.
    - intros [K|st k j' E F L].
      + destruct (fs i) as [st r x kids|st|st l] eqn:E; try reflexivity. now rewrite (K _ _ eq_refl).
      + rewrite E, F. destruct (Nat.leb_spec (used + k) limit); [reflexivity|lia].
  Qed.
  (** What is a directory need not be followed. *)
  Lemma behind_dir follow used i used' j : Behind fs limit follow used i used' j -> is_dir (fs j) -> Behind fs limit true used i used' j.
  Proof.
    intros [K|st k j' E F L] D; [|econstructor; eauto]. constructor. intros st l E. rewrite E in D. destruct D.
  Qed.

  Variable follow : bool.
  Notation Reach := (Reach fs limit root used0 follow).
  Notation Behind := (Behind fs limit follow).
  Notation stat := (stat fs limit root used0 follow).
  Notation scandir := (scandir fs limit root used0).
  Notation scan_entries := (scan_entries fs limit root used0 follow).
  Notation scan_directory := (scan_directory fs limit root used0 follow).
  Notation view := (view fs limit root used0 follow).

  Lemma stat_snoc names u d n st : resolve true used0 root names = Got (u, d) ->
    (stat (names ++ [n]) = Got st <->
     exists sd r kids i u' j, fs d = ODir sd r true kids /\ In (n, i) kids /\ Behind u i u' j /\ st = status_of (fs j)).
  Proof.
    intros H. unfold FollowModel.stat. rewrite resolve_snoc, H. cbn [then_sys fst snd FollowModel.resolve].
    destruct (fs d) as [sd r x kids|sd|sd l] eqn:E.
    - destruct x.
      + destruct (names_ok fs Sane _ _ _ _ _ E) as [N _]. destruct (lookup n kids) as [i|] eqn:El.
        * apply (lookup_in n kids i N) in El. destruct (behind follow u i) as [[u' j]|e] eqn:B.
          -- apply behind_spec in B. cbn. split.
             ++ intros X. injection X as <-. exists sd, r, kids, i, u', j. auto.
             ++ intros (sd' & r' & kids' & i' & u'' & j' & E' & I & B' & ->). injection E' as <- <- <-.
                apply (lookup_in n kids i' N) in I. apply (lookup_in n kids i N) in El. rewrite El in I. injection I as <-.
                apply behind_spec in B, B'. rewrite B in B'. now injection B' as <- <-.
          -- cbn. split; [discriminate|]. intros (sd' & r' & kids' & i' & u'' & j' & E' & I & B' & ->). injection E' as <- <- <-.
             apply (lookup_in n kids i' N) in I. apply (lookup_in n kids i N) in El. rewrite El in I. injection I as <-.
             apply behind_spec in B'. rewrite B in B'. discriminate.
        * cbn. split; [discriminate|]. intros (sd' & r' & kids' & i' & u'' & j' & E' & I & B' & ->). injection E' as <- <- <-.
          apply (lookup_in n kids i' N) in I. congruence.
      + cbn. split; [discriminate|]. intros (sd' & r' & kids' & i' & u'' & j' & E' & _). discriminate.
    - cbn. split; [discriminate|]. intros (sd' & r' & kids' & i' & u'' & j' & E' & _). discriminate.
    - cbn. split; [discriminate|]. intros (sd' & r' & kids' & i' & u'' & j' & E' & _). discriminate.
  Qed.
  Lemma entries_in names l n st : In (n, st) (fst (scan_entries names l)) <-> In n l /\ stat (names ++ [n]) = Got st.
  Proof.
    induction l as [|m l IH]; [cbn; tauto|]. cbn [FollowModel.scan_entries]. destruct (scan_entries names l) as [es ws].
    cbn [fst] in IH. destruct (stat (names ++ [m])) as [st'|e] eqn:E; cbn [fst In]; rewrite IH.
    - split.
      + intros [X|[X Y]]; [injection X as -> ->; auto|auto].
      + intros [[->|X] Y]; [left; congruence|auto].
    - split; [tauto|]. intros [[->|X] Y]; [congruence|auto].
  Qed.
  Lemma entries_names names l : exists f, map fst (fst (scan_entries names l)) = filter f l.
  Proof.
    exists (fun n => match stat (names ++ [n]) with Got _ => true | Failed _ => false end).
    induction l as [|m l IH]; [reflexivity|]. cbn [FollowModel.scan_entries filter]. destruct (scan_entries names l) as [es ws].
    cbn [fst] in IH. destruct (stat (names ++ [m])); cbn [fst map]; now rewrite IH.
  Qed.
  Lemma entries_warnings names l e : In e (snd (scan_entries names l)) <->
    exists n, In n l /\ stat (names ++ [n]) = Failed e /\ e <> ENOENT /\ e <> EACCES.
  Proof.
    induction l as [|m l IH].
    - cbn. split; [intros []|intros (n & [] & _)].
    - cbn [FollowModel.scan_entries]. destruct (scan_entries names l) as [es ws]. cbn [snd] in IH.
      destruct (stat (names ++ [m])) as [st|e'] eqn:E; cbn [snd].
      + rewrite IH. split; [intros (n & H & K); exists n; split; [now right|exact K]|].
        intros (n & [->|H] & K & L); [congruence|eauto].
      + rewrite in_app_iff, IH. split.
        * intros [H|(n & H & K)]; [|exists n; split; [now right|exact K]].
          exists m. split; [now left|]. destruct e'; cbn in H; try tauto; destruct H as [<-|[]]; (split; [exact E|split; discriminate]).
        * intros (n & [->|H] & K & L1 & L2); [left|right; eauto]. rewrite E in K. injection K as ->. destruct e; cbn; auto.
  Qed.
  Lemma scan_in names n st : In (n, st) (fst (scan_directory names)) <->
    exists u d sd kids i u' j, resolve true used0 root names = Got (u, d) /\ fs d = ODir sd true true kids /\ In (n, i) kids /\
      Behind u i u' j /\ st = status_of (fs j).
  Proof.
    unfold FollowModel.scan_directory, FollowModel.scandir. destruct (resolve true used0 root names) as [[u d]|e] eqn:E; cbn [then_sys snd].
    - destruct (fs d) as [sd r x kids|sd|sd l] eqn:Ed.
      + destruct r.
        * rewrite entries_in, (stat_snoc _ _ _ _ _ E). split.
          -- intros [H (sd' & r' & kids' & i & u' & j & E' & I & B & ->)]. rewrite Ed in E'. injection E' as <- <- -> <-.
             exists u, d, sd, kids, i, u', j. auto.
          -- intros (u1 & d1 & sd' & kids' & i & u' & j & X & E' & I & B & ->). injection X as <- <-. rewrite Ed in E'. injection E' as <- -> <-.
             split; [apply in_map_iff; exists (n, i); auto|]. exists sd, true, kids, i, u', j. auto.
        * cbn. split; [intros []|]. intros (u1 & d1 & sd' & kids' & i & u' & j & X & E' & _). injection X as <- <-. congruence.
      + cbn. split; [intros []|]. intros (u1 & d1 & sd' & kids' & i & u' & j & X & E' & _). injection X as <- <-. congruence.
      + cbn. split; [intros []|]. intros (u1 & d1 & sd' & kids' & i & u' & j & X & E' & _). injection X as <- <-. congruence.
    - cbn. split; [intros []|]. intros (u1 & d1 & sd' & kids' & i & u' & j & X & _). discriminate.
  Qed.
  Lemma scan_names names : NoDup (map fst (fst (scan_directory names))) /\ Forall name_ok (map fst (fst (scan_directory names))).
  Proof.
    unfold FollowModel.scan_directory, FollowModel.scandir. destruct (resolve true used0 root names) as [[u d]|e] eqn:E; cbn [then_sys snd];
      [|split; constructor].
    destruct (fs d) as [sd r x kids|sd|sd l] eqn:Ed; try (split; constructor). destruct r; [|split; constructor].
    destruct (names_ok fs Sane _ _ _ _ _ Ed) as [N F]. destruct (entries_names names (map fst kids)) as [f ->]. split.
    - apply NoDup_filter, N.
    - rewrite Forall_forall in *. intros n Hn. apply filter_In in Hn as [Hn _]. apply in_map_iff in Hn as (k & <- & Hk). now apply F.
  Qed.

  (** *** The tree *)
  Notation dirs st := (str_eqb (type_of_mode (st_mode st)) ($"directory")).
  Lemma dirs_iff st : dirs st = true <-> directory st.
  Proof. exact (dir_status_iff st). Qed.
  Definition grown (names : list str) (f : file) : Prop :=
    directory (f_status f) -> exists fuel, view fuel (names ++ [f_name f]) = Some (f_kids f).
  Lemma view_kids fuel names l : view fuel names = Some l ->
    map (fun f => (f_name f, f_status f)) l = fst (scan_directory names) /\ Forall (grown names) l.
  Proof.
    destruct fuel as [|fuel]; [discriminate|]. cbn [FollowModel.view]. generalize (fst (scan_directory names)). intros es. revert l.
    induction es as [|[n st] es IH]; intros l H; cbn [grow] in H.
    - injection H as <-. split; constructor.
    - destruct (if dirs st then _ else _) as [kids|] eqn:E; [|discriminate].
      destruct (grow (view fuel) names es) as [r|] eqn:Er; [|discriminate].
      injection H as <-. destruct (IH r eq_refl) as [M G]. split; [cbn [map f_name f_status]; now rewrite M|].
      constructor; [|exact G]. intros D. cbn [f_status f_name f_kids] in *. apply dirs_iff in D. rewrite D in E. eauto.
  Qed.
  Lemma view_valid fuel : forall names l, view fuel names = Some l -> valid l.
  Proof.
    induction fuel as [|fuel IH]; intros names l H; [discriminate|]. destruct (view_kids _ _ _ H) as [M _].
    destruct (scan_names names) as [N F]. rewrite <- M, map_map in N, F. cbn [fst] in N, F. constructor.
    - exact N.
    - rewrite Forall_forall in *. intros f Hf. apply F. now apply in_map.
    - clear N F M. cbn [FollowModel.view] in H. revert H. generalize (fst (scan_directory names)). intros es. revert l.
      induction es as [|[n st] es IHe]; intros l H f Hf; cbn [grow] in H.
      + injection H as <-. destruct Hf.
      + destruct (if dirs st then _ else _) as [kids|] eqn:E; [|discriminate].
        destruct (grow (view fuel) names es) as [r|] eqn:Er; [|discriminate].
        injection H as <-. destruct Hf as [<-|Hf]; [|eapply IHe; eauto]. cbn [f_kids].
        destruct (dirs st); [eapply IH, E|]. injection E as <-. constructor; [constructor|constructor|intros ? []].
  Qed.
  Lemma reach_resolve used j names : Reach used j names -> is_dir (fs j) -> resolve true used0 root names = Got (used, j).
  Proof.
    induction 1 as [|used d names st kids n i used' j H IH E I B]; intros D; [reflexivity|].
    rewrite resolve_snoc, IH by (rewrite E; exact Logic.I). cbn [then_sys fst snd FollowModel.resolve]. rewrite E.
    destruct (names_ok fs Sane _ _ _ _ _ E) as [N _]. rewrite (proj2 (lookup_in n kids i N) I).
    rewrite (proj2 (behind_spec true used i used' j) (behind_dir _ _ _ _ _ B D)). reflexivity.
  Qed.
  Lemma dir_iff st j : st = status_of (fs j) -> directory st <-> is_dir (fs j).
  Proof. intros ->. symmetry. apply (mode_dir fs Sane). Qed.
  Lemma reach_in used d names n st l fuel : Reach used d names -> is_dir (fs d) -> view fuel names = Some l ->
    (exists f, In f l /\ f_name f = n /\ f_status f = st) <->
    exists used' j, Reach used' j (names ++ [n]) /\ st = status_of (fs j) /\
      exists sd kids i, fs d = ODir sd true true kids /\ In (n, i) kids /\ Behind used i used' j.
  Proof.
    intros R D V. destruct (view_kids _ _ _ V) as [M _]. pose proof (reach_resolve _ _ _ R D) as E.
    assert (X : (exists f, In f l /\ f_name f = n /\ f_status f = st) <-> In (n, st) (fst (scan_directory names))).
    { rewrite <- M, in_map_iff. split; [intros (f & H & <- & <-); eauto|]. intros (f & H & K). injection H as <- <-. eauto. }
    rewrite X, scan_in. split.
    - intros (u & d' & sd & kids & i & u' & j & E' & Ed & I & B & ->). rewrite E in E'. injection E' as <- <-.
      exists u', j. split; [eapply reach_step; eauto|]. split; [reflexivity|]. exists sd, kids, i. auto.
    - intros (u' & j & _ & -> & sd & kids & i & Ed & I & B). exists used, d, sd, kids, i, u', j. auto 10.
  Qed.

  Lemma place_reach fuel l names f : is_dir (fs root) -> view fuel [] = Some l -> Place l names f ->
    exists used j, Reach used j names /\ f_status f = status_of (fs j) /\
      (directory (f_status f) -> exists fuel, view fuel names = Some (f_kids f)).
  Proof.
    intros D V P. assert (R0 : Reach used0 root []) by constructor. induction P as [f H|names d f P IH Dd H].
    - destruct (proj1 (reach_in _ _ _ (f_name f) (f_status f) l fuel R0 D V)) as (u & j & R & E & _); [eauto|].
      exists u, j. split; [exact R|]. split; [exact E|].
      destruct (view_kids _ _ _ V) as [_ G]. rewrite Forall_forall in G. exact (G f H).
    - destruct IH as (u & j & R & E & K). destruct (K Dd) as [fuel' V'].
      assert (Dj : is_dir (fs j)) by (apply (dir_iff (f_status d)); assumption).
      destruct (proj1 (reach_in _ _ _ (f_name f) (f_status f) _ fuel' R Dj V')) as (u' & j' & R' & E' & _); [eauto|].
      exists u', j'. split; [exact R'|]. split; [exact E'|].
      destruct (view_kids _ _ _ V') as [_ G]. rewrite Forall_forall in G. exact (G f H).
  Qed.
  Lemma reach_place fuel l used j names : is_dir (fs root) -> view fuel [] = Some l -> Reach used j names -> names <> [] ->
    exists f, Place l names f /\ f_status f = status_of (fs j) /\
      (directory (f_status f) -> exists fuel, view fuel names = Some (f_kids f)).
  Proof.
    intros D V R. induction R as [|used d names st kids n i used' j R IH E I B]; intros N; [now destruct N|].
    assert (Dd : is_dir (fs d)) by (rewrite E; exact Logic.I).
    assert (R' : Reach used' j (names ++ [n])) by (eapply reach_step; eauto).
    destruct names as [|m names].
    - assert (X : d = root /\ used = used0). { clear -R. inversion R as [|? ? names' ? ? ? ? ? ? ? ? ? ? X]; subst; auto. now destruct names'. }
      destruct X as [-> ->].
      destruct (proj2 (reach_in _ _ _ n (status_of (fs j)) l fuel R Dd V)) as (f & H & <- & Es).
      { exists used', j. split; [exact R'|]. split; [reflexivity|]. exists st, kids, i. auto. }
      exists f. split; [now constructor|]. split; [exact Es|].
      destruct (view_kids _ _ _ V) as [_ G]. rewrite Forall_forall in G. exact (G f H).
    - destruct IH as (g & P & Eg & K); [discriminate|]. assert (Dg : directory (f_status g)) by (apply (dir_iff _ _ Eg); exact Dd).
      destruct (K Dg) as [fuel' V'].
      destruct (proj2 (reach_in _ _ _ n (status_of (fs j)) _ fuel' R Dd V')) as (f & H & <- & Es).
      { exists used', j. split; [exact R'|]. split; [reflexivity|]. exists st, kids, i. auto. }
      exists f. split; [eapply place_below; eauto|]. split; [exact Es|].
      destruct (view_kids _ _ _ V') as [_ G]. rewrite Forall_forall in G. exact (G f H).
  Qed.
  Lemma seen fuel l : is_dir (fs root) -> view fuel [] = Some l -> forall names st, names <> [] ->
    (exists f, Place l names f /\ f_status f = st) <-> (exists used j, Reach used j names /\ st = status_of (fs j)).
  Proof.
    intros D V names st N. split.
    - intros (f & P & <-). destruct (place_reach _ _ _ _ D V P) as (u & j & R & E & _). eauto.
    - intros (u & j & R & ->). destruct (reach_place _ _ _ _ _ D V R N) as (f & P & E & _). eauto.
  Qed.

  (** *** It ends *)
  Lemma grow_some below names es : (forall n st, In (n, st) es -> directory st -> below (names ++ [n]) <> None) ->
    exists l, grow below names es = Some l.
  Proof.
    induction es as [|[n st] es IH]; intros H; [exists []; reflexivity|]. cbn [grow].
    destruct IH as [r ->]; [intros; eapply H; eauto; now right|].
    specialize (H n st (or_introl eq_refl)). destruct (dirs st) eqn:E; [|eauto].
    apply dirs_iff in E. destruct (below (names ++ [n])); [eauto|now destruct (H E)].
  Qed.
  Lemma ends_from rank top : (forall i, rank i <= top) ->
    (forall i st r x kids n j, fs i = ODir st r x kids -> In (n, j) kids -> is_dir (fs j) -> rank j < rank i) ->
    forall fuel names u d, resolve true used0 root names = Got (u, d) -> (limit - u) * S top + rank d < fuel ->
    exists l, view fuel names = Some l.
  Proof.
    intros T Rk. induction fuel as [|fuel IH]; intros names u d E L; [now apply Nat.nlt_0_r in L|]. cbn [FollowModel.view].
    apply grow_some. intros n st H Ds.
    apply scan_in in H as (u1 & d1 & sd & kids & i & u' & j & E' & Ed & I & B & Es). rewrite E in E'. injection E' as <- <-.
    assert (Dj : is_dir (fs j)) by (now apply (dir_iff st j Es)).
    destruct (IH (names ++ [n]) u' j) as [l ->]; [| |discriminate].
    - rewrite resolve_snoc, E. cbn [then_sys fst snd FollowModel.resolve]. rewrite Ed.
      destruct (names_ok fs Sane _ _ _ _ _ Ed) as [N _]. rewrite (proj2 (lookup_in n kids i N) I).
      rewrite (proj2 (behind_spec true u i u' j) (behind_dir _ _ _ _ _ B Dj)). reflexivity.
    - destruct B as [K|stl k j El F Lm].
      + pose proof (Rk _ _ _ _ _ _ _ Ed I Dj). generalize dependent ((limit - u) * S top). intros. lia.
      + pose proof (links_count fs Sane _ _ _ _ El). pose proof (T j).
        assert (M : (limit - (u + k) + 1) * S top <= (limit - u) * S top) by (apply Nat.mul_le_mono_r; lia).
        rewrite Nat.mul_add_distr_r, Nat.mul_1_l in M. clear Lm.
        generalize dependent ((limit - u) * S top). generalize dependent ((limit - (u + k)) * S top). intros. lia.
  Qed.
  Lemma ends : exists fuel l, view fuel [] = Some l.
  Proof.
    destruct (nested fs Sane) as (rank & top & T & Rk).
    exists (S ((limit - used0) * S top + rank root)). eapply (ends_from rank top T Rk); [reflexivity|apply Nat.lt_succ_diag_r].
  Qed.
End Follow.

(** ** Once *)
Lemma once fs limit root used0 i : sane fs -> one_place fs root -> is_dir (fs i) -> forall names u names' u',
  Reach fs limit root used0 false u i names -> Reach fs limit root used0 false u' i names' -> names = names'.
Proof.
  intros Sa [Hr Hp] D names u names' u' H. revert D names' u'.
  induction H as [|u d names st kids n k u1 j H IH E I B]; intros D names' u' H'.
  - inversion H' as [|u2 d2 names2 st2 kids2 n2 k2 u3 j2 H2 E2 I2 B2]; subst; [reflexivity|].
    inversion B2 as [K|? ? ? ? F]; subst; [|discriminate]. now destruct (Hr _ _ _ _ _ _ E2 I2).
  - inversion B as [K|? ? ? ? F]; subst; [|discriminate].
    inversion H' as [|u2 d2 names2 st2 kids2 n2 k2 u3 j2 H2 E2 I2 B2]; subst; [now destruct (Hr _ _ _ _ _ _ E I)|].
    inversion B2 as [K2|? ? ? ? F]; subst; [|discriminate].
    destruct (Hp _ _ _ _ _ _ _ _ _ _ _ _ _ E I E2 I2 D) as [-> ->]. f_equal. eapply IH; [|exact H2]. now rewrite E.
Qed.

Lemma scan_warnings fs limit root used0 follow names e :
  In e (snd (scan_directory fs limit root used0 follow names)) <->
  e <> ENOENT /\ e <> EACCES /\
  (scandir fs limit root used0 names = Failed e \/
   exists l n, scandir fs limit root used0 names = Got l /\ In n l /\ stat fs limit root used0 follow (names ++ [n]) = Failed e).
Proof.
  unfold scan_directory. destruct (scandir fs limit root used0 names) as [l|e'] eqn:E.
  - rewrite entries_warnings. split.
    + intros (n & H & K & N1 & N2). split; [exact N1|]. split; [exact N2|]. right. eauto.
    + intros (N1 & N2 & [K|(l' & n & K & H & F)]); [discriminate|]. injection K as <-. eauto.
  - cbn [snd]. split.
    + destruct e'; cbn; intros H; try destruct H as [<-|[]]; try destruct H; (split; [discriminate|split; [discriminate|now left]]).
    + intros (N1 & N2 & [K|(l' & n & K & _)]); [|discriminate]. injection K as ->. destruct e; cbn; auto.
Qed.
