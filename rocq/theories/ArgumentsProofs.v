(** Properties of the processed arguments. *)
From Coq Require Import List NArith ZArith Bool Lia.
From Verif Require Import Py GrammarSpec ParserModel ParserProofs TypeModel TypeSpec
  RegistryModel TestModel TestProofs ArgumentsModel ArgumentsSpec DepthProofs DirectoryProofs.
Import ListNotations.
Local Open Scope Z_scope.

Definition same (a b : pargs) : Prop :=
  a_limit b = a_limit a /\ a_exec b = a_exec a /\ a_exec_batch b = a_exec_batch a /\ a_sort b = a_sort a /\
  a_output b = a_output a /\ a_profile b = a_profile a /\ a_directories b = a_directories a.
(** After the options but --depth and --count *)
Definition kept (a b : pargs) (ex : list str) : Prop :=
  same a b /\ a_tests b = a_tests a /\ a_depth b = a_depth a /\ a_count b = a_count a /\ a_exclude b = a_exclude a ++ ex /\
  a_ignore b = a_ignore a /\ a_one_file_system b = a_one_file_system a /\ a_hide b = a_hide a.
Lemma kept_exclude a b ex (c : bool) t : kept a b ex ->
  kept a (if c then set_exclude b (a_exclude b ++ [t]) else b) (ex ++ if c then [t] else []).
Proof.
  intros (S & H1 & H2 & H3 & H4 & H5 & H6 & H7). destruct c.
  - unfold kept, same in *. cbn. rewrite H4, app_assoc. intuition.
  - rewrite app_nil_r. unfold kept. intuition.
Qed.
Lemma process_steps a : exists b, kept a b (flag_tests a) /\
  process_arguments a =
    let c := match a_depth b with Some (r :: l) => process_depth_argument b (r :: l) | _ => b end in
    match a_count c with
    | Some [[]] => set_count c (Some (match a_json c with Some _ => [$"file.size"; $"file.type"]
                                      | None => [$"file.size:h"; $"file.type"] end))
    | _ => c
    end.
Proof.
  unfold process_arguments.
  set (a1 := match a_json a with Some (_ :: _) => set_json_output a | _ => a end).
  assert (S1 : kept a a1 []).
  { unfold kept, same. rewrite app_nil_r. unfold a1. destruct (a_json a) as [[|c0 j0]|]; cbn; intuition. }
  clearbody a1. set (a2 := if a_ignore a1 then _ else _).
  pose proof (kept_exclude _ _ _ (a_ignore a1) ($"ignored=yes") S1) as S2. fold a2 in S2.
  replace (a_ignore a1) with (a_ignore a) in S2 by (unfold kept in S1; intuition congruence).
  clearbody a2. set (a3 := if a_one_file_system a2 then _ else _).
  pose proof (kept_exclude _ _ _ (a_one_file_system a2) ($"samedev=no") S2) as S3. fold a3 in S3.
  replace (a_one_file_system a2) with (a_one_file_system a) in S3 by (unfold kept in S2; intuition congruence).
  clearbody a3. set (a4 := if a_hide a3 then _ else _).
  pose proof (kept_exclude _ _ _ (a_hide a3) ($"hide=yes") S3) as S4. fold a4 in S4.
  replace (a_hide a3) with (a_hide a) in S4 by (unfold kept in S3; intuition congruence).
  clearbody a4. exists a4. split; [|reflexivity].
  cbn [app] in S4. unfold flag_tests. rewrite app_assoc. exact S4.
Qed.
Lemma count_step c (f : pargs -> list str) : let c' := match a_count c with
    | Some [[]] => set_count c (Some (f c)) | _ => c end in
  same c c' /\ a_tests c' = a_tests c /\ a_exclude c' = a_exclude c.
Proof.
  cbv zeta. destruct (a_count c) as [[|[|c1 j1] [|c2 j2]]|]; unfold same; cbn; intuition.
Qed.
Lemma process_tests a : a_tests (process_arguments a) =
  match a_depth a with Some (r :: l) => depth_expression (r :: l) (a_tests a) | _ => a_tests a end.
Proof.
  destruct (process_steps a) as (b & (_ & H1 & H2 & _) & ->). cbv zeta.
  rewrite (proj1 (proj2 (count_step _ (fun c => match a_json c with Some _ => _ | None => _ end)))).
  rewrite H2. destruct (a_depth a) as [[|r l]|]; [exact H1| |exact H1].
  unfold process_depth_argument, depth_expression. destruct (all_stops (r :: l)); cbn [set_exclude set_tests a_tests];
    rewrite H1; cbn [app]; rewrite <- app_assoc; cbn [app]; destruct (a_tests a); reflexivity.
Qed.
Lemma process_exclude a : a_exclude (process_arguments a) =
  a_exclude a ++ flag_tests a ++
  match a_depth a with
  | Some (r :: l) => match all_stops (r :: l) with Some stops => [depth_test ($"+") (max_list stops)] | None => [] end
  | _ => []
  end.
Proof.
  destruct (process_steps a) as (b & (_ & H1 & H2 & _ & H4 & _) & ->). cbv zeta.
  rewrite (proj2 (proj2 (count_step _ (fun c => match a_json c with Some _ => _ | None => _ end)))).
  rewrite H2. destruct (a_depth a) as [[|r l]|]; rewrite ?app_nil_r; try exact H4.
  unfold process_depth_argument. destruct (all_stops (r :: l)); cbn [set_exclude set_tests a_exclude];
    rewrite H4; [now rewrite <- app_assoc|now rewrite app_nil_r].
Qed.

Lemma fold_max l x m : fold_left Z.max l x = m -> x <= m /\ (forall y, In y l -> y <= m) /\ (m = x \/ In m l).
Proof.
  revert x m; induction l as [|y l IH]; intros x m; cbn [fold_left].
  - intros <-. repeat split; [lia|intros y []|now left].
  - intros H. destruct (IH _ _ H) as (H1 & H2 & H3). repeat split; [lia| |].
    + intros z [<-|Hz]; [lia|now apply H2].
    + destruct H3 as [H3|H3]; [|right; now right]. destruct (Z.max_spec x y) as [[_ E]|[_ E]]; rewrite E in H3.
      * right. left. now symmetry.
      * now left.
Qed.
Lemma all_stops_some l stops : all_stops l = Some stops ->
  bounded l /\ forall s, In s stops <-> exists r, In r l /\ snd r = Some s.
Proof.
  revert stops; induction l as [|[a [b|]] l IH]; intros stops; cbn [all_stops]; try discriminate.
  - intros H. injection H as <-. split; [intros r []|]. intros s. split; [intros []|intros (r & [] & _)].
  - destruct (all_stops l) as [k|]; [|discriminate]. cbn [option_map]. intros H. injection H as <-.
    destruct (IH k eq_refl) as [B S]. split.
    + intros r [<-|Hr]; [discriminate|now apply B].
    + intros s. cbn [In]. rewrite S. split.
      * intros [->|(r & Hr & E)]; [exists (a, Some s); auto|exists r; auto].
      * intros (r & [<-|Hr] & E); [left; cbn in E; congruence|right; exists r; auto].
Qed.
Lemma all_stops_none l : all_stops l = None -> ~ bounded l.
Proof.
  induction l as [|[a [b|]] l IH]; cbn [all_stops]; [discriminate| |].
  - destruct (all_stops l); [discriminate|]. intros _ B. apply IH; [reflexivity|]. intros r Hr. apply B. now right.
  - intros _ B. apply (B (a, None)); [now left|reflexivity].
Qed.
Lemma max_beyond l stops d : l <> [] -> all_stops l = Some stops -> max_list stops < d <-> beyond l d.
Proof.
  intros N E. pose proof (all_stops_some _ _ E) as [B S]. unfold beyond. destruct stops as [|x stops].
  - exfalso. destruct l as [|[a [b|]] l]; [easy| |discriminate]. cbn in E. destruct (all_stops l); discriminate.
  - cbn [max_list]. destruct (fold_max stops x _ eq_refl) as (H1 & H2 & H3). set (m := fold_left Z.max stops x) in *.
    split.
    + intros H r s Hr Es. assert (In s (x :: stops)) as [<-|Hs] by (apply S; eauto); [lia|]. apply H2 in Hs. lia.
    + intros H. assert (Hm : In m (x :: stops)) by (destruct H3 as [-> |H3]; [now left|now right]).
      apply S in Hm as (r & Hr & Er). eapply H; eauto.
Qed.
Lemma max_natural l stops : l <> [] -> Forall natural_range l -> all_stops l = Some stops -> 0 <= max_list stops.
Proof.
  intros N F E. pose proof (all_stops_some _ _ E) as [B S]. destruct stops as [|x stops]; [cbn; lia|].
  cbn [max_list]. destruct (fold_max stops x _ eq_refl) as (H1 & _).
  assert (Hx : In x (x :: stops)) by now left. apply S in Hx as (r & Hr & Er).
  rewrite Forall_forall in F. destruct (F r Hr) as [_ Hs]. rewrite Er in Hs. lia.
Qed.

Section Env.
  Variable R : Type.
  Variable rcompile : str -> res R.
  Variable rsearch : R -> str -> bool.
  Variable parse_time : str -> res Z.
  Variable debug : bool.
  Variable case : case_mode.
  Variable registered : list plugin.
  Variable init_plugin : str -> res unit.
  Variable reference_value : str * str -> str -> res value.
  Variable score : test R -> Z.
  Notation parse := (parse_test R rcompile parse_time debug case registered init_plugin reference_value).
  Notation resolves := (resolves registered init_plugin).
  Notation run_test := (run_entry rsearch).

  Lemma depth_selected a ranges at_ name is_dir attribute d ess v :
    a_depth a = Some ranges -> ranges <> [] -> Forall natural_range ranges ->
    resolves ($"depth") at_ TNumber -> attribute at_ = Some (VInt d) ->
    Expression (a_tests a) ess -> a_tests a = [] \/ no_empty ess ->
    (forall t, In t (a_tests a) -> is_test t ->
       exists x, parse t = Ok x /\ truth (run_test name is_dir attribute x) (v t)) ->
    exists b, matcher parse score (run_test name is_dir attribute) (a_tests (process_arguments a)) = Ok b /\
      (b = true <-> in_ranges ranges d /\ denote_alts v ess = true).
  Proof.
    intros E N F Hat Hd X Ne Ht. rewrite process_tests, E. destruct ranges as [|r l]; [easy|].
    eapply depth_matches; eauto.
  Qed.
  Lemma depth_excluded a ranges at_ name is_dir attribute d xs :
    a_depth a = Some ranges -> ranges <> [] -> Forall natural_range ranges ->
    resolves ($"depth") at_ TNumber -> attribute at_ = Some (VInt d) ->
    Forall is_test (a_exclude a) -> Forall2 (fun t x => parse t = Ok x) (a_exclude a ++ flag_tests a) xs ->
    (forall x, In x xs -> forall e, run_test name is_dir attribute x <> Raise e) ->
    exists b, excluder parse score (run_test name is_dir attribute) (a_exclude (process_arguments a)) = Ok b /\
      (b = true <-> (exists x, In x xs /\ run_test name is_dir attribute x = Val true) \/
                    (bounded ranges /\ beyond ranges d)).
  Proof.
    intros E N F Hat Hd T P X. rewrite process_exclude, E. destruct ranges as [|r l]; [easy|].
    assert (T' : Forall is_test (a_exclude a ++ flag_tests a)).
    { apply Forall_app. split; [exact T|]. unfold flag_tests.
      assert (K : forall s, classify s = TTest -> is_test s)
        by (intros s H; pose proof (classify_spec s) as K; now rewrite H in K).
      destruct (a_ignore a), (a_one_file_system a), (a_hide a); cbn [app]; repeat constructor; now apply K. }
    destruct (all_stops (r :: l)) as [stops|] eqn:Es.
    - pose proof (max_natural _ _ N F Es) as M.
      destruct (depth_parse R rcompile rsearch parse_time debug case registered init_plugin reference_value at_ Hat
                  name is_dir attribute d Hd ($"+") (max_list stops) M) as (x & b & Ex & Er & B); [cbn; tauto|].
      destruct (excluder_spec _ parse score (run_test name is_dir attribute)
                  ((a_exclude a ++ flag_tests a) ++ [depth_test ($"+") (max_list stops)]) (xs ++ [x])) as (b' & Eb & Hb).
      + apply Forall_app. split; [exact T'|]. constructor; [apply depth_is_test; cbn; lia|constructor].
      + apply Forall2_app; [exact P|]. constructor; [exact Ex|constructor].
      + intros y Hy e. apply in_app_iff in Hy as [Hy|[<-|[]]]; [now apply X|congruence].
      + exists b'. rewrite app_assoc. split; [exact Eb|]. rewrite Hb.
        assert (Bd := proj1 (all_stops_some _ _ Es)). split.
        * intros (y & Hy & Ev). apply in_app_iff in Hy as [Hy|[<-|[]]]; [left; eauto|right].
          split; [exact Bd|]. rewrite Er in Ev. injection Ev as ->. apply (max_beyond _ stops); auto.
          pose proof (proj1 B eq_refl) as C; inversion C; subst; lia.
        * intros [(y & Hy & Ev)|[_ Hy]]; [exists y; split; [apply in_or_app; now left|exact Ev]|].
          exists x. split; [apply in_or_app; right; now left|]. rewrite Er. f_equal. apply B.
          apply (max_beyond _ stops) in Hy; auto. now constructor.
    - rewrite app_nil_r. destruct (excluder_spec _ parse score (run_test name is_dir attribute) _ _ T' P X) as (b & Eb & Hb).
      exists b. split; [exact Eb|]. rewrite Hb. split; [now left|]. intros [H|[H _]]; [exact H|].
      now apply all_stops_none in Es.
  Qed.
End Env.

(** * Conflicts *)
Lemma truthy_iff {A} (x : option (list A)) : truthy x = true <-> given x.
Proof. destruct x as [[|y l]|]; cbn; split; try easy; try (intros (z & k & E); discriminate). intros _. now exists y, l. Qed.
Lemma same_trans a b c : same a b -> same b c -> same a c.
Proof. unfold same. intuition congruence. Qed.
Lemma same_depth a l : same a (process_depth_argument a l) /\ a_count (process_depth_argument a l) = a_count a.
Proof. unfold process_depth_argument, same. destruct (all_stops l); cbn; intuition. Qed.
Lemma process_same a : same a (process_arguments a) /\ (given (a_count (process_arguments a)) <-> given (a_count a)).
Proof.
  destruct (process_steps a) as (b & (S & _ & H2 & H3 & _) & ->). cbv zeta.
  set (c := match a_depth b with Some (r :: l) => process_depth_argument b (r :: l) | _ => b end).
  assert (C : same a c /\ a_count c = a_count a).
  { unfold c. destruct (a_depth b) as [[|r l]|]; try (split; assumption).
    destruct (same_depth b (r :: l)) as [D1 D2]. split; [eapply same_trans; eassumption|congruence]. }
  clearbody c. destruct C as [C1 C2].
  split; [eapply same_trans; [exact C1|]; apply (proj1 (count_step c (fun c => match a_json c with Some _ => _ | None => _ end)))|].
  rewrite <- C2. destruct (a_count c) as [[|[|c1 j1] [|c2 j2]]|] eqn:E; try (rewrite E; tauto).
  cbn [set_count a_count]. unfold given. split; intros _; [eauto|]. destruct (a_json c); eauto.
Qed.
Lemma detect_same isdir a : a_limit (detect isdir a) = a_limit a /\ a_exec (detect isdir a) = a_exec a /\
  a_exec_batch (detect isdir a) = a_exec_batch a /\ a_sort (detect isdir a) = a_sort a /\
  a_output (detect isdir a) = a_output a /\ a_profile (detect isdir a) = a_profile a /\ a_count (detect isdir a) = a_count a.
Proof.
  unfold detect. destruct (a_directories a) eqn:E; [|rewrite E; intuition].
  cbv zeta. destruct (front_loop _ _ _ _) as [t1 d1]. destruct (back_loop _ _ _ _) as [t2 d2].
  cbn [a_directories set_directories]. destruct d2; cbn; intuition.
Qed.
Lemma check_iff debug a : (exists u, check_for_errors debug a = Ok u) <-> ~ conflict debug a.
Proof.
  unfold check_for_errors, conflict. rewrite <- !truthy_iff.
  destruct debug, (a_profile a), (truthy (a_exec a)), (truthy (a_exec_batch a)), (truthy (a_count a)), (a_limit a); cbn;
    split; intros H; try (now exists tt); try (destruct H as [u H]; discriminate H); try (exfalso; apply H; intuition congruence);
    try (intros K; intuition congruence).
Qed.
Lemma check_err debug a e : check_for_errors debug a = Err e -> e = UsageError.
Proof.
  unfold check_for_errors. destruct (debug && _); [intros H; now injection H|].
  destruct (truthy (a_count a) && _); [intros H; now injection H|].
  destruct (truthy (a_count a) && _); [intros H; now injection H|discriminate].
Qed.
Lemma conflict_same debug a b : same a b -> (given (a_count b) <-> given (a_count a)) -> conflict debug b <-> conflict debug a.
Proof.
  intros (H1 & H2 & H3 & H4 & H5 & H6 & H7) C. unfold conflict. rewrite H1, H2, H3, H6, C. tauto.
Qed.
Lemma process_ok_iff isdir cwd debug a : (exists r, process isdir cwd debug a = Ok r) <->
  (exists b, process_directories isdir cwd a = Ok b) /\ ~ conflict debug a.
Proof.
  unfold process. destruct (process_directories isdir cwd a) as [b|e] eqn:E; cbn [bindr].
  - assert (C : conflict debug (process_arguments b) <-> conflict debug a).
    { destruct (process_same b) as [S1 S2]. rewrite conflict_same by eassumption.
      apply process_detect in E. subst b. destruct (detect_same isdir a) as (D1 & D2 & D3 & D4 & D5 & D6 & D7).
      unfold conflict. now rewrite D1, D2, D3, D6, D7. }
    pose proof (check_iff debug (process_arguments b)) as K.
    destruct (check_for_errors debug (process_arguments b)) as [u|e] eqn:Ec; cbn [bindr].
    + split; [|eauto]. intros _. split; [eauto|]. rewrite <- C. apply K. eauto.
    + split; [intros [r H]; discriminate|]. intros [_ H]. rewrite <- C in H. apply K in H as [u H]. discriminate.
  - split; [intros [r H]; discriminate|intros [[b H] _]; discriminate].
Qed.
Lemma process_err isdir cwd debug a e : process isdir cwd debug a = Err e -> e = UsageError.
Proof.
  unfold process. destruct (process_directories isdir cwd a) as [b|e'] eqn:E; cbn [bindr].
  - destruct (check_for_errors debug (process_arguments b)) as [u|e'] eqn:Ec; cbn [bindr]; [discriminate|].
    intros H. injection H as <-. now apply check_err in Ec.
  - intros H. injection H as <-. now apply directories_err in E.
Qed.
Lemma strs_eqb_spec a b : strs_eqb a b = true <-> a = b.
Proof.
  unfold strs_eqb. rewrite andb_true_iff, Nat.eqb_eq. split.
  - intros [L F]. revert b L F; induction a as [|x a IH]; intros [|y b] L F; try discriminate; [reflexivity|].
    cbn in F. apply andb_true_iff in F as [F1 F2]. apply str_eqb_eq in F1. subst. f_equal. apply IH; [now injection L|exact F2].
  - intros <-. split; [reflexivity|]. induction a as [|x a IH]; [reflexivity|]. cbn [combine forallb fst snd].
    now rewrite str_eqb_refl.
Qed.
Ltac iffs := match goal with
  | |- _ /\ _ => split
  | |- NoDup _ => repeat (apply NoDup_cons; [cbn; intuition discriminate|]); apply NoDup_nil
  | |- _ <-> _ => cbn; intuition (congruence || discriminate || auto)
  | |- _ -> _ => cbn; intuition (congruence || discriminate || auto)
  | |- _ = _ => cbn; congruence
  end.
Lemma warnings_spec c b w : ~ conflict false c -> collect_warnings c = (b, w) -> warned c b w.
Proof.
  intros NC H. unfold warned, conflict in *. unfold collect_warnings in H. rewrite <- !truthy_iff in *.
  assert (Eo : strs_eqb (a_output c) default_output = true <-> a_output c = [$"path"]) by apply strs_eqb_spec.
  destruct (strs_eqb (a_output c) default_output) eqn:Es; cbn [negb andb] in H;
    destruct (truthy (a_exec c)) eqn:E1, (truthy (a_exec_batch c)) eqn:E2, (truthy (a_count c)) eqn:E3; cbn [orb] in H;
    try (exfalso; apply NC; intuition congruence); cbn [a_count set_output] in H; rewrite ?E3, ?Es in H;
    change (strs_eqb default_output default_output) with true in H; cbn [negb] in H;
    cbn [a_sort set_output a_limit] in H.
  all: try (destruct (truthy (a_sort c)) eqn:E4); cbn [a_sort a_output a_limit set_sort set_output app] in H; rewrite ?Es in H; cbn [negb] in H.
  all: cbn [a_sort a_output a_limit set_sort set_output app truthy] in H; destruct (a_limit c) eqn:E5; rewrite ?E4 in H; cbn [negb] in H.
  all: try (exfalso; apply NC; intuition congruence).
  all: injection H as <- <-.
  all: cbn [a_sort a_output set_sort set_output truthy]; rewrite ?E4.
  all: unfold default_output; repeat iffs.
Qed.
Lemma process_warnings isdir cwd debug a b w : process isdir cwd debug a = Ok (b, w) -> warned a b w.
Proof.
  intros H. assert (NC : ~ conflict debug a) by (apply (process_ok_iff isdir cwd debug a); eauto).
  unfold process in H. destruct (process_directories isdir cwd a) as [a1|e] eqn:E; cbn [bindr] in H; [|discriminate].
  destruct (check_for_errors debug (process_arguments a1)); cbn [bindr] in H; [|discriminate].
  injection H as H. apply process_detect in E. subst a1.
  destruct (detect_same isdir a) as (D1 & D2 & D3 & D4 & D5 & D6 & D7).
  destruct (process_same (detect isdir a)) as [(P1 & P2 & P3 & P4 & P5 & P6 & P7) C].
  apply warnings_spec in H.
  - unfold warned in *. rewrite P1, P2, P3, P4, P5, C, D1, D2, D3, D4, D5, D7 in H. exact H.
  - intros K. apply NC. unfold conflict in *. rewrite P1, P2, P3, C, D1, D2, D3, D7 in K. destruct K as [K|[K _]]; [now left|discriminate].
Qed.
