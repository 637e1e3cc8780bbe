(** Which ignore files apply. *)
From Coq Require Import List NArith ZArith Bool Lia Permutation.
From Verif Require Import Py Re ReJoin PathModel PathSpec PathProofs EntryProofs OsPath GlobModel
  IgnoreModel IgnoreSpec IgnoreProofs.
Import ListNotations.

(** * The plugin *)
Lemma split_absolute p : absolute p -> fst (split p) <> [].
Proof.
  intros (t & ->). 
  assert (H : exists a b, SLASH :: t = a ++ SLASH :: b /\ ~ In SLASH b).
  { clear. induction t as [|c t (a & b & E & H)] using rev_ind.
    - exists [], []. split; [reflexivity|easy].
    - destruct (N.eq_dec c SLASH) as [->|Hc].
      + exists (SLASH :: t), []. split; [reflexivity|easy].
      + exists a, (b ++ [c]). split.
        * rewrite app_comm_cons, E, <- app_assoc. reflexivity.
        * rewrite in_app_iff. intros [G|[G|[]]]; [easy|congruence]. }
  destruct H as (a & b & -> & Hb). rewrite split_slash by exact Hb. cbn [fst].
  destruct a; [easy|]. easy.
Qed.
Lemma get_ignores_fold read path name is_dir paths : Forall absolute paths ->
  Forall rule_valid (flat_map (path_rules read) paths) ->
  exists igs, get_ignores read paths = COk igs /\
    forall st, fold_left (match_file path name is_dir) igs st =
      rules_fold path name is_dir (flat_map (path_rules read) paths) st.
Proof.
  induction paths as [|p paths IH]; intros Ha Hv.
  - exists []. split; reflexivity.
  - apply Forall_cons_iff in Ha as [Hp Ha]. cbn [flat_map] in *. apply Forall_app in Hv as [Hv1 Hv2].
    destruct (IH Ha Hv2) as (igs & E & Hf). cbn [get_ignores]. unfold path_rules at 1 in Hv1. unfold path_rules at 1.
    destruct (read p) as [lines|]; [|exists igs; split; [exact E|exact Hf]].
    pose proof (split_absolute p Hp) as Hd. destruct (split p) as [d n]. cbn [fst snd] in *.
    destruct (gitignore_fold path name is_dir d n lines Hd Hv1) as (ig & Eg & Hg).
    rewrite Eg. cbn [cbind]. rewrite E. cbn [cbind]. exists (ig :: igs). split; [reflexivity|].
    intros st. cbn [fold_left]. unfold rules_fold. rewrite fold_left_app, Hf, Hg. reflexivity.
Qed.
Lemma is_ignored_decides read paths path name is_dir : Forall absolute paths ->
  Forall rule_valid (flat_map (path_rules read) paths) ->
  exists v, Decided (rule_applies path name is_dir) None (flat_map (path_rules read) paths) v /\
    is_ignored read paths path name is_dir = COk (answer v).
Proof.
  intros Ha Hv. destruct (get_ignores_fold read path name is_dir paths Ha Hv) as (igs & E & Hf).
  destruct (rules_decide path name is_dir (flat_map (path_rules read) paths)) as (v & D & Ev).
  exists v. split; [exact D|]. unfold is_ignored. destruct paths as [|p paths].
  - rewrite <- Ev. reflexivity.
  - rewrite E. cbn [cbind]. unfold git_match. now rewrite Hf, Ev.
Qed.

(** * Listing order *)
Lemma filter_perm {A} (f : A -> bool) l l' : Permutation l l' -> Permutation (filter f l) (filter f l').
Proof.
  induction 1; cbn; try (destruct (f x); now auto); try (destruct (f y), (f x); auto using perm_swap); eauto using perm_trans.
Qed.
Lemma scan_single ignore_files parents absdir names names' : Permutation names names' ->
  (length (filter (fun n => existsb (str_eqb n) ignore_files) names) <= 1)%nat ->
  scan_ignore_paths ignore_files parents absdir names = scan_ignore_paths ignore_files parents absdir names'.
Proof.
  intros H L. unfold scan_ignore_paths. f_equal. f_equal.
  pose proof (filter_perm (fun n => existsb (str_eqb n) ignore_files) _ _ H) as P.
  destruct (filter _ names) as [|x [|y l]]; cbn in L; try lia.
  - apply Permutation_nil in P. now rewrite P.
  - apply Permutation_length_1_inv in P. now rewrite P.
Qed.
(** Without negated patterns in the files of the directory. *)
Lemma decided_app {A} (P : A -> Prop) l1 l2 v : Decided P None (l1 ++ l2) v ->
  (exists a, In a l2 /\ P a /\ v = Some a) \/ (Forall (fun a => ~ P a) l2 /\ Decided P None l1 v).
Proof.
  intros H. remember (l1 ++ l2) as l eqn:E. destruct H as [l H|l a l' Ha H].
  - subst l. apply Forall_app in H as [H1 H2]. right. split; [exact H2|now constructor].
  - revert l1 E. induction l as [|x l IH]; intros l1 E.
    + destruct l1 as [|y l1]; cbn in E.
      * subst l2. left. exists a. split; [now left|auto].
      * injection E as <- ->. apply Forall_app in H as [H1 H2]. right. split; [exact H2|].
        apply (dec_last P None [] a l1); assumption.
    + destruct l1 as [|y l1]; cbn in E.
      * subst l2. left. exists a. split; [|auto]. right. apply in_or_app. right. now left.
      * injection E as <- E. destruct (IH l1 E) as [G|[G1 G2]]; [now left|]. right. split; [exact G1|].
        clear - G2. remember (Some a) as w. destruct G2 as [l1 G|l0 b l' Hb G]; [discriminate|].
        injection Heqw as ->. apply (dec_last P None (x :: l0)); assumption.
Qed.
Lemma scan_positive read ignore_files parents absdir names names' path name is_dir :
  let dir_paths := map (fun n => join absdir n) (filter (fun n => existsb (str_eqb n) ignore_files) names) in
  Permutation names names' ->
  Forall absolute (parents ++ dir_paths) ->
  Forall rule_valid (flat_map (path_rules read) (parents ++ dir_paths)) ->
  Forall (fun r => g_include (translate (snd r) true) = true) (flat_map (path_rules read) dir_paths) ->
  exists b p p',
    is_ignored read (scan_ignore_paths ignore_files parents absdir names) path name is_dir = COk (b, p) /\
    is_ignored read (scan_ignore_paths ignore_files parents absdir names') path name is_dir = COk (b, p').
Proof.
  intros dir_paths HP Ha Hv Hi.
  set (dir' := map (fun n => join absdir n) (filter (fun n => existsb (str_eqb n) ignore_files) names')).
  assert (PP : Permutation dir_paths dir') by (apply Permutation_map, filter_perm, HP).
  assert (Ha' : Forall absolute (parents ++ dir')).
  { eapply Permutation_Forall; [|exact Ha]. now apply Permutation_app_head. }
  assert (PR : Permutation (flat_map (path_rules read) dir_paths) (flat_map (path_rules read) dir')).
  { now apply Permutation_flat_map. }
  assert (Hv' : Forall rule_valid (flat_map (path_rules read) (parents ++ dir'))).
  { rewrite flat_map_app in *. eapply Permutation_Forall; [|exact Hv]. now apply Permutation_app_head. }
  destruct (is_ignored_decides read _ path name is_dir Ha Hv) as (v & D & E).
  destruct (is_ignored_decides read _ path name is_dir Ha' Hv') as (v' & D' & E').
  unfold scan_ignore_paths. fold dir_paths dir'. rewrite E, E'.
  assert (G : fst (answer v) = fst (answer v')).
  { rewrite flat_map_app in D, D'. apply decided_app in D, D'.
    assert (Pos : forall a l, In a l -> Forall (fun r => g_include (translate (snd r) true) = true) l ->
      fst (answer (Some a)) = true).
    { intros [[d f] p] l Hin Hl. rewrite Forall_forall in Hl. specialize (Hl _ Hin). cbn in *. now rewrite Hl. }
    assert (Hi' : Forall (fun r => g_include (translate (snd r) true) = true) (flat_map (path_rules read) dir'))
      by (eapply Permutation_Forall; [exact PR|exact Hi]).
    destruct D as [(a & Hin & Happ & ->)|[F D]], D' as [(a' & Hin' & Happ' & ->)|[F' D']].
    - transitivity true; [apply (Pos _ _ Hin Hi)|symmetry; apply (Pos _ _ Hin' Hi')].
    - exfalso. rewrite Forall_forall in F'. apply (F' a); [|exact Happ]. eapply Permutation_in; eauto.
    - exfalso. rewrite Forall_forall in F. apply (F a'); [|exact Happ']. eapply Permutation_in; [|exact Hin'].
      now apply Permutation_sym.
    - now rewrite (decided_unique _ _ _ _ _ D D'). }
  destruct (answer v) as [b p], (answer v') as [b' p']. cbn in G. subst b'. eauto.
Qed.

(** * Parent directories *)
Lemma plain_noslash l x : Forall plain_name l -> In x l -> ~ In SLASH x.
Proof. intros H Hin. rewrite Forall_forall in H. destruct (H x Hin) as ((_ & G) & _). exact G. Qed.
Lemma split_abs comps : comps <> [] -> Forall plain_name comps -> split_on SLASH (abs_dir comps) = [] :: comps.
Proof.
  intros Hn H. unfold abs_dir. change (($"/") ++ join_with ($"/") comps) with ([] ++ SLASH :: join_with [SLASH] comps).
  rewrite split_on_app by easy. f_equal. apply split_join; [exact Hn|]. intros x. now apply plain_noslash.
Qed.
Lemma norm_plain comps acc : Forall plain_name comps -> forall b,
  fold_left (norm_step b) comps acc = rev comps ++ acc.
Proof.
  intros H b. revert acc. induction H as [|n l ((Hn & _) & H1 & H2) _ IH]; intros acc; [reflexivity|].
  cbn [fold_left rev]. rewrite IH, <- app_assoc. cbn [app]. f_equal. unfold norm_step.
  assert (E : forall w, n <> w -> str_eqb n w = false).
  { intros w Hw. destruct (str_eqb n w) eqn:E; [|reflexivity]. apply str_eqb_eq in E. contradiction. }
  now rewrite !E.
Qed.
Lemma abs_dir_slashes comps : Forall plain_name comps ->
  starts_with ($"//") (abs_dir comps) = false.
Proof.
  intros H. destruct comps as [|n l]; [reflexivity|]. apply Forall_inv in H as ((Hn & Hs) & _).
  destruct n as [|c n]; [easy|]. unfold abs_dir.
  assert (E : exists t, join_with ($"/") ((c :: n) :: l) = c :: t).
  { destruct l; cbn; eauto. }
  destruct E as (t & E). unfold str, char in *. rewrite E. change ($"//") with [SLASH; SLASH]. change (($"/") ++ c :: t) with (SLASH :: c :: t).
  cbn [starts_with]. destruct (N.eqb_spec SLASH c) as [<-|]; [|now rewrite andb_false_r].
  destruct Hs. now left.
Qed.
Lemma normpath_abs comps : Forall plain_name comps -> normpath (abs_dir comps) = abs_dir comps.
Proof.
  intros H. unfold normpath. destruct (abs_dir comps) eqn:E; [discriminate|]. rewrite <- E.
  rewrite abs_dir_slashes by exact H.
  replace (starts_with ($"/") (abs_dir comps)) with true by (unfold abs_dir; reflexivity).
  cbn [andb]. unfold norm_comps.
  assert (Es : rev (fold_left (norm_step true) (split_on SLASH (abs_dir comps)) []) = comps).
  { destruct comps as [|n l]; [reflexivity|]. rewrite split_abs; [|easy|exact H].
    change (fold_left (norm_step true) ([] :: n :: l) []) with (fold_left (norm_step true) (n :: l) []).
    rewrite norm_plain by exact H. now rewrite app_nil_r, rev_involutive. }
  rewrite Es. reflexivity.
Qed.
Lemma normpath_abs_slash comps : Forall plain_name comps -> comps <> [] ->
  normpath (abs_dir comps ++ ($"/")) = abs_dir comps.
Proof.
  intros H Hn. unfold normpath. destruct (abs_dir comps ++ ($"/")) eqn:E; [discriminate|]. rewrite <- E.
  assert (E1 : starts_with ($"//") (abs_dir comps ++ ($"/")) = false).
  { destruct comps as [|n0 l0]; [easy|]. pose proof (abs_dir_slashes _ H) as G.
    apply Forall_inv in H as ((H0 & _) & _). destruct n0 as [|c0 n0]; [easy|].
    unfold abs_dir in *. assert (Ex : exists t, join_with ($"/") ((c0 :: n0) :: l0) = c0 :: t) by (destruct l0; cbn; eauto).
    destruct Ex as (t & Ex). unfold str, char in *. rewrite Ex in *. exact G. }
  rewrite E1.
  replace (starts_with ($"/") (abs_dir comps ++ ($"/"))) with true by (unfold abs_dir; reflexivity).
  cbn [andb]. unfold norm_comps.
  assert (Es : rev (fold_left (norm_step true) (split_on SLASH (abs_dir comps ++ ($"/"))) []) = comps).
  { change (abs_dir comps ++ ($"/")) with (abs_dir comps ++ SLASH :: []).
    rewrite split_on_app_gen, split_abs by assumption. rewrite fold_left_app.
    change (fold_left (norm_step true) ([] :: comps) []) with (fold_left (norm_step true) comps []).
    rewrite (norm_plain comps []) by exact H. cbn [fold_left split_on].
    rewrite app_nil_r. unfold norm_step at 1. cbn [str_eqb orb]. apply rev_involutive. }
  rewrite Es. reflexivity.
Qed.

Lemma abs_dir_snoc l x : l <> [] -> abs_dir (l ++ [x]) = abs_dir l ++ SLASH :: x.
Proof. intros H. unfold abs_dir. change ($"/") with [SLASH]. now rewrite join_with_snoc, app_assoc. Qed.
Lemma abs_dir_nonroot l : l <> [] -> Forall plain_name l -> abs_dir l <> [SLASH].
Proof.
  intros H F E. destruct l as [|n l]; [easy|]. apply Forall_inv in F as ((Hn & _) & _).
  destruct n as [|c n]; [easy|]. destruct l; discriminate.
Qed.
Lemma join_abs d name : Forall plain_name d -> name_ok name -> join (abs_dir d) name = file_in d name.
Proof.
  intros Hd Hn. unfold file_in. destruct d as [|x d].
  - destruct Hn as [Hn _]. destruct name; [easy|reflexivity].
  - rewrite abs_dir_snoc by easy. rewrite join_names; [reflexivity|discriminate| |exact Hn].
    apply abs_dir_nonroot; [easy|exact Hd].
Qed.
Lemma plain_ok n : plain_name n -> name_ok n.
Proof. now intros [H _]. Qed.
Lemma parents_in exists_ files : Forall name_ok files -> forall parts acc, Forall plain_name (acc ++ parts) ->
  forall p, In p (parents_loop exists_ files (abs_dir acc) parts) <->
    exists k name, (1 <= k <= length parts)%nat /\ In name files /\ p = file_in (acc ++ firstn k parts) name /\
      exists_ p = true.
Proof.
  intros Hf. induction parts as [|x parts IH]; intros acc Ha p.
  - cbn [parents_loop length]. split; [easy|]. intros (k & name & Hk & _). lia.
  - cbn [parents_loop].
    assert (Hx : plain_name x) by (apply Forall_app in Ha as [_ Ha]; now apply Forall_inv in Ha).
    assert (Hacc : Forall plain_name acc) by now apply Forall_app in Ha as [Ha _].
    assert (Ha' : Forall plain_name ((acc ++ [x]) ++ parts)) by now rewrite <- app_assoc.
    rewrite join_abs by (auto using plain_ok). unfold file_in at 1 2.
    rewrite in_app_iff, (IH _ Ha'), filter_In, in_map_iff. split.
    + intros [((name & <- & Hn) & He)|(k & name & Hk & Hn & -> & He)].
      * exists 1%nat, name. cbn [length firstn]. split; [lia|]. split; [exact Hn|].
        assert (E : join (abs_dir (acc ++ [x])) name = file_in (acc ++ [x]) name).
        { apply join_abs; [apply Forall_app; auto|]. rewrite Forall_forall in Hf. now apply Hf. }
        rewrite <- E. auto.
      * exists (S k), name. cbn [length firstn]. rewrite <- app_assoc in *. cbn [app] in *.
        split; [lia|]. auto.
    + intros (k & name & Hk & Hn & -> & He). destruct k as [|[|k]]; [lia| |].
      * left. cbn [firstn] in *. split; [|exact He]. exists name. split; [|exact Hn].
        apply join_abs; [apply Forall_app; auto|]. rewrite Forall_forall in Hf. now apply Hf.
      * right. exists (S k), name. cbn [length] in Hk. rewrite <- app_assoc. cbn [app firstn] in *.
        split; [lia|]. auto.
Qed.
Lemma in_inits {A} (l d : list A) : In d (inits l) <-> exists k, (k < length l)%nat /\ d = firstn k l.
Proof.
  revert d. induction l as [|x l IH]; intros d; cbn [inits length In].
  - split; [easy|]. intros (k & H & _). lia.
  - rewrite in_map_iff. split.
    + intros [<-|(d' & <- & H)]; [exists 0%nat; split; [lia|reflexivity]|].
      apply IH in H as (k & Hk & ->). exists (S k). split; [lia|reflexivity].
    + intros ([|k] & Hk & ->); [now left|]. right. exists (firstn k l). split; [reflexivity|].
      apply IH. exists k. split; [lia|reflexivity].
Qed.
Lemma firstn_len_app {A} (a b : list A) : firstn (length a) (a ++ b) = a.
Proof. rewrite firstn_app, Nat.sub_diag, firstn_all. cbn [firstn]. apply app_nil_r. Qed.
Lemma dirname_last a b : ~ In SLASH b -> a <> [] -> last a 0%N <> SLASH -> dirname (a ++ SLASH :: b) = a.
Proof.
  intros Hb Ha Hl. unfold dirname. rewrite rfind_last by exact Hb. cbv zeta. unfold str, char in *.
  assert (Eh : firstn (Z.to_nat (Z.of_nat (length a) + 1)) (a ++ SLASH :: b) = a ++ [SLASH]).
  { replace (Z.to_nat (Z.of_nat (length a) + 1)) with (length (a ++ [SLASH])) by (rewrite app_length; cbn [length]; lia).
    replace (a ++ SLASH :: b) with ((a ++ [SLASH]) ++ b) by now rewrite <- app_assoc. apply firstn_len_app. }
  unfold str, char in *. rewrite Eh.
  destruct (exists_last Ha) as (a' & c & ->). rewrite last_last in Hl.
  assert (Ec : N.eqb SLASH c = false) by (apply N.eqb_neq; congruence).
  assert (Ef : forallb (N.eqb SLASH) ((a' ++ [c]) ++ [SLASH]) = false).
  { rewrite !forallb_app. cbn [forallb]. rewrite Ec. now rewrite andb_false_r. }
  unfold str, char in *. rewrite Ef.
  unfold rstrip_p. unfold str, char in *. rewrite !rev_app_distr. cbn [rev app lstrip_p].
  rewrite N.eqb_refl, Ec. cbn [rev]. now rewrite rev_involutive.
Qed.
Lemma name_last n d : name_ok n -> last n d <> SLASH.
Proof.
  intros [H1 H2] E. destruct (exists_last H1) as (a & c & ->). rewrite last_last in E. subst c.
  apply H2, in_or_app. right. now left.
Qed.
Lemma last_app_ne {A} (a b : list A) d : b <> [] -> last (a ++ b) d = last b d.
Proof. intros H. destruct (exists_last H) as (b' & c & ->). rewrite app_assoc, !last_last. reflexivity. Qed.
Lemma abs_last l : l <> [] -> Forall plain_name l -> last (abs_dir l) 0%N <> SLASH.
Proof.
  intros H F. destruct (exists_last H) as (l' & x & ->). apply Forall_app in F as [F1 F2].
  apply Forall_inv in F2. assert (Hx : x <> []) by apply F2.
  destruct l' as [|y l'].
  - unfold abs_dir. cbn [app join_with]. rewrite last_app_ne by exact Hx. now apply name_last, plain_ok.
  - rewrite abs_dir_snoc by easy. change (SLASH :: x) with ([SLASH] ++ x). rewrite !last_app_ne by (easy || exact Hx).
    now apply name_last, plain_ok.
Qed.
Lemma dirname_abs l x : Forall plain_name l -> ~ In SLASH x -> dirname (abs_dir (l ++ [x])) = abs_dir l.
Proof.
  intros Hl Hx. destruct l as [|y l].
  - unfold abs_dir. cbn [app join_with]. unfold dirname.
    change (($"/") ++ x) with ([] ++ SLASH :: x). rewrite rfind_last by exact Hx. reflexivity.
  - rewrite abs_dir_snoc by easy. apply dirname_last; [exact Hx|discriminate|]. now apply abs_last.
Qed.
Lemma parents_abs exists_ files comps c : Forall name_ok files -> Forall plain_name comps -> forall p,
  In p (parents_loop exists_ files ($"/") (split_on SLASH (abs_dir comps))) <->
  ancestor_file exists_ files (comps ++ [c]) p.
Proof.
  intros Hf Hc p. unfold ancestor_file.
  assert (E : In p (parents_loop exists_ files ($"/") (split_on SLASH (abs_dir comps))) <->
    (exists name, In name files /\ p = file_in [] name /\ exists_ p = true) \/
    In p (parents_loop exists_ files (abs_dir []) comps)).
  { assert (E0 : forall parts, parents_loop exists_ files ($"/") ([] :: parts) =
      filter exists_ (map (fun name => join ($"/") name) files) ++ parents_loop exists_ files ($"/") parts) by reflexivity.
    assert (E1 : forall q, In q (filter exists_ (map (fun name => join ($"/") name) files)) <->
      exists name, In name files /\ q = file_in [] name /\ exists_ q = true).
    { intros q. rewrite filter_In, in_map_iff.
      assert (Ej : forall name, In name files -> join ($"/") name = file_in [] name).
      { intros name Hn. apply (join_abs []); [constructor|]. rewrite Forall_forall in Hf. now apply Hf. }
      split.
      - intros ((name & <- & Hn) & He). exists name. now rewrite <- Ej by exact Hn.
      - intros (name & Hn & -> & He). split; [|exact He]. exists name. split; [now apply Ej|exact Hn]. }
    destruct comps as [|y comps].
    - change (split_on SLASH (abs_dir [])) with [@nil N; []]. rewrite !E0, !in_app_iff, E1. cbn [parents_loop In].
      tauto.
    - rewrite split_abs by (easy || exact Hc). rewrite E0, in_app_iff, E1. reflexivity. }
  rewrite E, (parents_in exists_ files Hf comps []) by exact Hc. split.
  - intros [(name & Hn & Hp & He)|(k & name & Hk & Hn & Hp & He)].
    + exists [], name. split; [destruct comps; now left|auto].
    + exists (firstn k comps), name. split; [|auto]. apply in_inits. exists k. rewrite app_length. cbn [length].
      split; [lia|]. rewrite firstn_app. replace (k - length comps)%nat with 0%nat by lia. cbn [firstn]. now rewrite app_nil_r.
  - intros (d & name & Hd & Hn & Hp & He). apply in_inits in Hd as (k & Hk & ->).
    rewrite app_length in Hk. cbn [length] in Hk. rewrite firstn_app in Hp.
    replace (k - length comps)%nat with 0%nat in Hp by lia. cbn [firstn] in Hp. rewrite app_nil_r in Hp.
    destruct k as [|k]; [left; exists name; auto|]. right. exists (S k), name. split; [lia|]. auto.
Qed.
Lemma os_join_empty a : a <> [] -> last a 0%N <> SLASH -> os_join a [] = a ++ [SLASH].
Proof.
  intros Ha Hl. unfold os_join. cbn [starts_with]. change (starts_with ($"/") []) with false. cbn iota.
  destruct (exists_last Ha) as (a' & c & ->). rewrite last_last in Hl.
  destruct (a' ++ [c]) eqn:E; [now destruct a'|]. rewrite <- E.
  unfold ends_with. rewrite rev_app_distr. cbn [rev app]. change (rev ($"/")) with [SLASH]. cbn [starts_with].
  destruct (N.eqb_spec SLASH c) as [<-|]; [easy|]. reflexivity.
Qed.
Lemma abspath_cwd comps : comps <> [] -> Forall plain_name comps -> abspath (abs_dir comps) [] = abs_dir comps.
Proof.
  intros Hn H. unfold abspath. change (starts_with ($"/") []) with false. cbn iota.
  rewrite os_join_empty; [|discriminate|now apply abs_last]. now apply normpath_abs_slash.
Qed.
(** Start directory "." *)
Lemma start_dot exists_ files comps : Forall name_ok files -> comps <> [] -> Forall plain_name comps -> forall p,
  In p (start_ignores exists_ (abs_dir comps) files true false false ($".")) <-> ancestor_file exists_ files comps p.
Proof.
  intros Hf Hn Hc p. unfold start_ignores, from_parent_directories. change (dirname ($".")) with (@nil N).
  rewrite abspath_cwd by assumption. destruct (exists_last Hn) as (l & c & ->).
  apply Forall_app in Hc as [Hl Hx]. apply Forall_inv in Hx.
  rewrite dirname_abs; [|exact Hl|apply Hx]. now apply parents_abs.
Qed.
(** An absolute start directory with a trailing slash *)
Lemma start_slash exists_ cwd files comps : Forall name_ok files -> comps <> [] -> Forall plain_name comps -> forall p,
  In p (start_ignores exists_ cwd files true false false (abs_dir comps ++ ($"/"))) <-> ancestor_file exists_ files comps p.
Proof.
  intros Hf Hn Hc p. unfold start_ignores, from_parent_directories.
  assert (E : dirname (abs_dir comps ++ ($"/")) = abs_dir comps).
  { change (abs_dir comps ++ ($"/")) with (abs_dir comps ++ SLASH :: []). apply dirname_last; [easy|discriminate|].
    now apply abs_last. }
  rewrite E. unfold abspath. change (starts_with ($"/") (abs_dir comps)) with true. cbn iota.
  rewrite normpath_abs by exact Hc.
  destruct (exists_last Hn) as (l & c & ->). apply Forall_app in Hc as [Hl Hx]. apply Forall_inv in Hx.
  rewrite dirname_abs; [|exact Hl|apply Hx]. now apply parents_abs.
Qed.
(** An absolute start directory without trailing slash: its parent is missed *)
Lemma start_abs exists_ cwd files comps c : Forall name_ok files -> comps <> [] -> Forall plain_name (comps ++ [c]) ->
  forall absolute p,
  In p (start_ignores exists_ cwd files true false absolute (abs_dir (comps ++ [c]))) <-> ancestor_file exists_ files comps p.
Proof.
  intros Hf Hn Hc absolute p. unfold start_ignores, from_parent_directories.
  assert (Ea : (if absolute then abspath cwd (abs_dir (comps ++ [c])) else abs_dir (comps ++ [c])) = abs_dir (comps ++ [c])).
  { destruct absolute; [|reflexivity]. unfold abspath. change (starts_with ($"/") (abs_dir (comps ++ [c]))) with true.
    cbn iota. now apply normpath_abs. }
  rewrite Ea. apply Forall_app in Hc as [Hl Hx]. apply Forall_inv in Hx.
  rewrite dirname_abs; [|exact Hl|apply Hx].
  unfold abspath. change (starts_with ($"/") (abs_dir comps)) with true. cbn iota.
  rewrite normpath_abs by exact Hl. destruct (exists_last Hn) as (l & d & ->).
  apply Forall_app in Hl as [Hl Hd]. apply Forall_inv in Hd.
  rewrite dirname_abs; [|exact Hl|apply Hd]. now apply parents_abs.
Qed.
(** A relative start directory: the current directory is missed *)
Lemma start_rel exists_ files comps n : Forall name_ok files -> comps <> [] ->
  Forall plain_name comps -> plain_name n -> forall p,
  In p (start_ignores exists_ (abs_dir comps) files true false false n) <-> ancestor_file exists_ files comps p.
Proof.
  intros Hf Hn Hc Hx p. unfold start_ignores, from_parent_directories.
  assert (E : dirname n = []). { unfold dirname. rewrite rfind_absent by apply Hx. reflexivity. }
  rewrite E, abspath_cwd by assumption. destruct (exists_last Hn) as (l & c & ->).
  apply Forall_app in Hc as [Hl Hy]. apply Forall_inv in Hy.
  rewrite dirname_abs; [|exact Hl|apply Hy]. now apply parents_abs.
Qed.
Lemma start_disabled exists_ cwd files absolute path : 
  start_ignores exists_ cwd files true true absolute path = [].
Proof. reflexivity. Qed.

(** The order: outermost directory first. *)
Definition level (exists_ : str -> bool) (files d : list str) : list str := filter exists_ (map (file_in d) files).
Lemma parents_levels exists_ files : Forall name_ok files -> forall parts acc, Forall plain_name (acc ++ parts) ->
  level exists_ files acc ++ parents_loop exists_ files (abs_dir acc) parts =
  flat_map (level exists_ files) (map (app acc) (inits parts) ++ [acc ++ parts]).
Proof.
  intros Hf. induction parts as [|x parts IH]; intros acc Ha.
  - cbn [parents_loop inits map app flat_map]. now rewrite !app_nil_r.
  - cbn [parents_loop inits map flat_map app].
    assert (Hx : plain_name x) by (apply Forall_app in Ha as [_ Ha]; now apply Forall_inv in Ha).
    assert (Hacc : Forall plain_name acc) by now apply Forall_app in Ha as [Ha _].
    assert (Ha' : Forall plain_name ((acc ++ [x]) ++ parts)) by now rewrite <- app_assoc.
    rewrite (join_abs acc x Hacc (plain_ok _ Hx)). rewrite app_nil_r. f_equal.
    change (file_in acc x) with (abs_dir (acc ++ [x])).
    assert (El : filter exists_ (map (fun name => join (abs_dir (acc ++ [x])) name) files) = level exists_ files (acc ++ [x])).
    { unfold level. f_equal. apply map_ext_in. intros name Hn. apply join_abs; [apply Forall_app; auto|].
      rewrite Forall_forall in Hf. now apply Hf. }
    rewrite El, IH by exact Ha'. f_equal. rewrite map_map, <- app_assoc. cbn [app]. f_equal.
    apply map_ext. intros a. now rewrite <- app_assoc.
Qed.
Lemma inits_snoc {A} (l : list A) x : inits (l ++ [x]) = inits l ++ [l].
Proof. induction l as [|y l IH]; [reflexivity|]. cbn [app inits]. rewrite IH, map_app. reflexivity. Qed.
Lemma parents_order exists_ files comps c : Forall name_ok files -> comps <> [] -> Forall plain_name comps ->
  parents_loop exists_ files ($"/") (split_on SLASH (abs_dir comps)) = flat_map (level exists_ files) (inits (comps ++ [c])).
Proof.
  intros Hf Hn Hc. rewrite split_abs by assumption. rewrite inits_snoc.
  assert (Em : forall l : list (list str), map (app []) l = l) by (intros l; rewrite <- (map_id l) at 2; reflexivity).
  rewrite <- (Em (inits comps)). change comps with ([] ++ comps) at 3.
  rewrite <- (parents_levels exists_ files Hf comps [] Hc).
  cbn [parents_loop]. f_equal. unfold level. f_equal. apply map_ext_in. intros name Hin.
  apply (join_abs []); [constructor|]. rewrite Forall_forall in Hf. now apply Hf.
Qed.
Lemma start_order exists_ files comps : Forall name_ok files -> 2 <= Z.of_nat (length comps) -> Forall plain_name comps ->
  start_ignores exists_ (abs_dir comps) files true false false ($".") = flat_map (level exists_ files) (inits comps).
Proof.
  intros Hf Hl Hc. unfold start_ignores, from_parent_directories. change (dirname ($".")) with (@nil N).
  assert (Hn : comps <> []) by (intros ->; cbn in Hl; lia).
  rewrite abspath_cwd by assumption. destruct (exists_last Hn) as (l & c & ->).
  apply Forall_app in Hc as [Hc Hx]. apply Forall_inv in Hx. rewrite app_length in Hl. cbn [length] in Hl.
  rewrite dirname_abs; [|exact Hc|apply Hx]. apply parents_order; [exact Hf| |exact Hc].
  intros ->. cbn in Hl. lia.
Qed.
