(** --depth: the tests made of the ranges. *)
From Coq Require Import List NArith ZArith Bool Lia.
From Verif Require Import Py GrammarSpec ParserModel ParserProofs ExprSpec ExprProofs TypeModel TypeSpec TypeProofs
  RegistryModel TestModel TestProofs ArgumentsModel ArgumentsSpec.
Import ListNotations.
Local Open Scope Z_scope.

(** * Expressions *)
Lemma denote_ext v w e : (forall t, In t (tests_of e) -> v t = w t) -> denote v e = denote w e.
Proof.
  revert e. fix IH 1. intros [t|n alts] H; cbn [denote tests_of] in *; [apply H; now left|]. f_equal.
  induction alts as [|es alts IHa]; [reflexivity|]. cbn [existsb flat_map] in *. f_equal.
  - assert (G : forall t, In t (flat_map tests_of es) -> v t = w t) by (intros; apply H, in_or_app; now left).
    clear -IH G. induction es as [|e es IHe]; [reflexivity|]. cbn [forallb flat_map] in *. f_equal.
    + apply IH. intros; apply G, in_or_app; now left.
    + apply IHe. intros; apply G, in_or_app; now right.
  - apply IHa. intros; apply H, in_or_app; now right.
Qed.
Lemma denote_alts_ext v w ess : (forall t, In t (flat_map (flat_map tests_of) ess) -> v t = w t) ->
  denote_alts v ess = denote_alts w ess.
Proof.
  intros H. pose proof (denote_ext v w (BGroup false ess) H) as E. cbn [denote] in E. rewrite !xorb_false_l in E.
  exact E.
Qed.
Lemma grammar_tests ok :
  (forall ts e, Operand ok ts e -> forall t, In t (tests_of e) -> In t ts /\ is_test t) /\
  (forall ts es, Run ok ts es -> forall t, In t (flat_map tests_of es) -> In t ts /\ is_test t) /\
  (forall ts ess, Alts ok ts ess -> forall t, In t (flat_map (flat_map tests_of) ess) -> In t ts /\ is_test t).
Proof.
  apply grammar_mutind.
  - intros t Ht t' [<-|[]]. split; [now left|assumption].
  - intros n t Hn Ht t' H. cbn in H. destruct H as [<-|[]]. split; [right; now left|assumption].
  - intros o ts ess c Ho Hc Ha IH Hok t H. cbn [tests_of] in H. apply IH in H as [H H']. split; [|assumption].
    right. apply in_or_app. now left.
  - intros n o ts ess c Hn Ho Hc Ha IH Hok t H. cbn [tests_of] in H. apply IH in H as [H H']. split; [|assumption].
    right. right. apply in_or_app. now left.
  - intros t [].
  - intros a ts es Ha Hr IH t H. apply IH in H as [H H']. split; [now right|assumption].
  - intros us e ts es Ho IHo Hr IHr t H. cbn [flat_map] in H. apply in_app_iff in H as [H|H].
    + apply IHo in H as [H H']. split; [apply in_or_app; now left|assumption].
    + apply IHr in H as [H H']. split; [apply in_or_app; now right|assumption].
  - intros ts es Hr IH t H. cbn [flat_map] in H. rewrite app_nil_r in H. now apply IH.
  - intros ts1 es o ts2 ess Hr IHr Ho Ha IHa t H. cbn [flat_map] in H. apply in_app_iff in H as [H|H].
    + apply IHr in H as [H H']. split; [apply in_or_app; now left|assumption].
    + apply IHa in H as [H H']. split; [apply in_or_app; right; now right|assumption].
Qed.

(** * The tests of a range *)
Definition depth_test (o : str) (n : Z) : str := $"depth" ++ o ++ str_of_Z n.
Lemma depth_is_test o n : (1 <= length o)%nat -> is_test (depth_test o n).
Proof.
  intros H. assert (L : (6 <= length (depth_test o n))%nat)
    by (unfold depth_test; rewrite !app_length; cbn [length]; change (length ($"depth")) with 5%nat; lia).
  assert (S : forall W, (length W < 6)%nat -> ~ spelled W (depth_test o n))
    by (intros W HW HS; apply spelled_len in HS; lia).
  repeat split.
  - intros [E|E]; unfold depth_test in E; discriminate.
  - intros [E|E]; unfold depth_test in E; discriminate.
  - apply S. cbn. lia.
  - apply S. cbn. lia.
  - apply S. cbn. lia.
Qed.
Lemma depth_writes o n : 0 <= n -> In o [$"="; $"+="; $"-="; $"+"; $"-"] ->
  Writes (depth_test o n) ($"depth") o None (str_of_Z n).
Proof.
  intros Hn Ho.
  set (s := str_of_Z n).
  assert (Es : s = str_of_N (Z.to_N n)) by (now apply str_of_Z_nonneg).
  assert (D : forall c, In c s -> (48 <= c <= 57)%N).
  { intros c Hc. pose proof (str_of_N_digits (Z.to_N n)) as F. rewrite <- Es in F.
    rewrite forallb_forall in F. apply F in Hc. unfold is_d, between in Hc. lia. }
  assert (Ns : s <> []) by (rewrite Es; apply uint_str_nonnil).
  assert (NS : forall p : char -> Prop, (forall c, (48 <= c <= 57)%N -> ~ p c) -> not_starting p s).
  { intros p Hp. destruct s as [|c t]; [exact I|]. cbn. apply Hp, D. now left. }
  replace (depth_test o n) with (written [] ($"depth") [] o [] [] s [])
    by (unfold written, depth_test; cbn [app]; now rewrite app_nil_r).
  assert (B : blanks []) by (intros c []).
  apply (Writes_intro [] ($"depth") [] o o None [] [] s []); auto.
  - left. split; [discriminate|]. intros c Hc. cbn in Hc. intuition (subst; reflexivity).
  - cbn in Ho. intuition (subst; constructor).
  - constructor.
  - split; [exact Ns|]. intros Hc. apply D in Hc. unfold NL in Hc. lia.
  - exact I.
  - apply NS. intros c Hc. unfold is_space, between. lia.
  - intros _ _. apply NS. lia.
  - intros _ _ _. apply NS. lia.
Qed.

Section Env.
  Variable R : Type.
  Variable rcompile : str -> res R.
  Variable rsearch : R -> str -> bool.
  Variable parse_time : str -> res Z.
  Variable debug : bool.
  Variable case : case_mode.
  Variable registered : list plugin.
  Variable init_plugin : str -> res unit.
  Variable reference_value : str * str -> str -> res value.
  Notation parse := (parse_test R rcompile parse_time debug case registered init_plugin reference_value).
  Notation resolves := (resolves registered init_plugin).
  Variable at_ : str * str.
  Hypothesis Hat : resolves ($"depth") at_ TNumber.
  Variable name : str.
  Variable is_dir : bool.
  Variable attribute : str * str -> option value.
  Variable d : Z.
  Hypothesis Hd : attribute at_ = Some (VInt d).
  Notation run_test := (run_entry rsearch name is_dir attribute).

  Lemma depth_parse o n : 0 <= n -> In o [$"="; $"+="; $"-="; $"+"; $"-"] ->
    exists x b, parse (depth_test o n) = Ok x /\ run_test x = Val b /\ (b = true <-> Compare d n o).
  Proof.
    intros Hn Ho. exists (Test at_ o TNumber (TV (VInt n)) false), (number_test o n d).
    split; [|split].
    - rewrite (parse_writes R rcompile parse_time debug case registered init_plugin reference_value _ _ _ _ _ _ _
                 (depth_writes o n Hn Ho) Hat).
      destruct Hat as [_ H2]. apply create_plain; auto; [cbn in *; tauto|].
      cbn [input]. rewrite py_int_str_of_Z. destruct (Z.ltb_spec n 0); [lia|reflexivity].
    - unfold run_entry. cbn [t_attribute]. rewrite Hd. reflexivity.
    - apply number_op. cbn in *; tauto.
  Qed.
  (** The value of a test of the entry *)
  Definition value_of (t : str) : bool :=
    match parse t with Ok x => match run_test x with Val b => b | _ => false end | Err _ => false end.
  Definition good (t : str) : Prop := exists x, parse t = Ok x /\ truth (run_test x) (value_of t).
  Lemma depth_good o n : 0 <= n -> In o [$"="; $"+="; $"-="; $"+"; $"-"] ->
    good (depth_test o n) /\ (value_of (depth_test o n) = true <-> Compare d n o).
  Proof.
    intros Hn Ho. destruct (depth_parse o n Hn Ho) as (x & b & E & Er & B). unfold value_of. rewrite E, Er.
    split; [|exact B]. exists x. unfold value_of. rewrite E, Er. split; [reflexivity|now left].
  Qed.
  Definition range_exps (r : Z * option Z) : list bexp := map BTest (range_tests r).
  Lemma range_depth r : range_tests r = match snd r with
    | Some stop => if fst r =? stop then [depth_test ($"=") (fst r)]
                   else [depth_test ($"+=") (fst r); depth_test ($"-=") stop]
    | None => [depth_test ($"+=") (fst r)] end.
  Proof. destruct r as [start [stop|]]; cbn [range_tests fst snd]; [destruct (start =? stop)|]; reflexivity. Qed.
  Lemma run_tests ts : Forall is_test ts -> Run no_empty ts (map BTest ts).
  Proof.
    induction 1 as [|t ts Ht _ IH]; [constructor|]. cbn [map].
    apply (Run_op no_empty [t] (BTest t) ts); [now constructor|exact IH].
  Qed.
  Lemma range_ok r : natural_range r ->
    Forall is_test (range_tests r) /\ Forall good (range_tests r) /\ range_tests r <> [] /\
    (forallb (denote value_of) (range_exps r) = true <-> in_range r d).
  Proof.
    intros [N1 N2]. unfold range_exps. rewrite range_depth. unfold in_range. destruct r as [start [stop|]]; cbn [fst snd] in *.
    - destruct (Z.eqb_spec start stop) as [<-|E].
      + destruct (depth_good ($"=") start N1) as [G V]; [cbn; tauto|].
        split; [repeat constructor; try apply depth_is_test; cbn; lia|].
        split; [repeat constructor; assumption|]. split; [discriminate|].
        cbn [map forallb denote]. rewrite andb_true_r, V. split.
        * intros H. inversion H; subst; lia.
        * intros H. replace d with start by lia. now constructor.
      + destruct (depth_good ($"+=") start N1) as [G1 V1]; [cbn; tauto|].
        destruct (depth_good ($"-=") stop N2) as [G2 V2]; [cbn; tauto|].
        split; [repeat constructor; try apply depth_is_test; cbn; lia|].
        split; [repeat constructor; assumption|]. split; [discriminate|].
        cbn [map forallb denote]. rewrite andb_true_r, andb_true_iff, V1, V2. split.
        * intros [H1 H2]. inversion H1; inversion H2; subst; lia.
        * intros [H1 H2]. split; constructor; lia.
    - destruct (depth_good ($"+=") start N1) as [G1 V1]; [cbn; tauto|].
      split; [repeat constructor; try apply depth_is_test; cbn; lia|].
      split; [repeat constructor; assumption|]. split; [discriminate|].
      cbn [map forallb denote]. rewrite andb_true_r, V1. split.
      + intros H1. inversion H1; subst; lia.
      + intros [H1 _]. constructor; lia.
  Qed.
  Lemma ranges_ok l : l <> [] -> Forall natural_range l ->
    Alts no_empty (ranges_tests l) (map range_exps l) /\
    (forall t, In t (ranges_tests l) -> is_test t -> good t) /\ no_empty (map range_exps l) /\
    (denote_alts value_of (map range_exps l) = true <-> in_ranges l d).
  Proof.
    induction l as [|r l IH]; intros N F; [easy|]. inversion F as [|? ? F1 F2]; subst.
    destruct (range_ok r F1) as (T & G & Ne & V).
    assert (Ne' : range_exps r <> []) by (unfold range_exps; intros E; apply map_eq_nil in E; contradiction).
    destruct l as [|r' l].
    - cbn [ranges_tests map]. split; [apply Alts_one, run_tests, T|].
      split; [intros t Ht _; revert t Ht; now apply Forall_forall|]. split; [now constructor|].
      unfold denote_alts. cbn [existsb]. rewrite orb_false_r, V. unfold in_ranges. split.
      + intros H. exists r. split; [now left|exact H].
      + intros (r0 & [<-|[]] & H). exact H.
    - destruct (IH ltac:(discriminate) F2) as (A & Gs & Nes & Vs).
      change (ranges_tests (r :: r' :: l)) with (range_tests r ++ $"OR" :: ranges_tests (r' :: l)).
      cbn [map] in *. split; [apply Alts_or; [apply run_tests, T|apply (proj1 (OR_iff ($"OR"))); reflexivity|exact A]|].
      split; [|split; [now constructor|]].
      + intros t Ht Hi. apply in_app_iff in Ht as [Ht|[<-|Ht]].
        * revert t Ht Hi. intros t Ht _. revert t Ht. now apply Forall_forall.
        * exfalso. destruct Hi as (_ & _ & _ & Hi & _). apply Hi, (proj1 (OR_iff ($"OR"))). reflexivity.
        * now apply Gs.
      + unfold denote_alts in *. cbn [existsb] in *. rewrite orb_true_iff, V, Vs. unfold in_ranges. split.
        * intros [H|(r0 & H0 & H)]; [exists r; split; [now left|exact H]|exists r0; split; [now right|exact H]].
        * intros (r0 & [<-|H0] & H); [now left|right; exists r0; now split].
  Qed.
  Variable score : test R -> Z.
  Definition depth_expression (ranges : list (Z * option Z)) (tests : list str) : list str :=
    $"{{" :: ranges_tests ranges ++ [$"}}"] ++ match tests with [] => [] | l => $"{{" :: l ++ [$"}}"] end.
  Lemma open_tok : is_open ($"{{"). Proof. now right. Qed.
  Lemma close_tok : is_close ($"}}"). Proof. now right. Qed.
  Lemma truth_value t v : (exists x, parse t = Ok x /\ truth (run_test x) v) -> v = value_of t.
  Proof. intros (x & E & [H|[H ->]]); unfold value_of; now rewrite E, H. Qed.
  Lemma depth_matches ranges tests ess v : ranges <> [] -> Forall natural_range ranges ->
    Expression tests ess -> tests = [] \/ no_empty ess ->
    (forall t, In t tests -> is_test t -> exists x, parse t = Ok x /\ truth (run_test x) (v t)) ->
    exists b, matcher parse score run_test (depth_expression ranges tests) = Ok b /\
      (b = true <-> in_ranges ranges d /\ denote_alts v ess = true).
  Proof.
    intros Hr Hn [Ha Hs] Hne Ht. destruct (ranges_ok ranges Hr Hn) as (A & G & Ne & V).
    assert (Op1 : Operand no_empty ($"{{" :: ranges_tests ranges ++ [$"}}"]) (BGroup false (map range_exps ranges)))
      by (apply Op_group; [exact open_tok|exact close_tok|exact A|exact Ne]).
    assert (Good : forall t, In t tests -> is_test t -> good t).
    { intros t H1 H2. destruct (Ht t H1 H2) as (x & E & T). exists x. split; [exact E|].
      rewrite <- (truth_value t (v t)); eauto. }
    assert (Same : denote_alts v ess = denote_alts value_of ess).
    { apply denote_alts_ext. intros t H. apply (proj2 (proj2 (grammar_tests no_empty)) _ _ Ha) in H as [H1 H2].
      apply truth_value. now apply Ht. }
    assert (NT : forall t, t = $"{{" \/ t = $"}}" -> ~ is_test t).
    { intros t [->| ->] (H1 & H2 & _); [apply H1; now right|apply H2; now right]. }
    unfold depth_expression. destruct tests as [|t0 tests].
    - assert (Ed : denote_alts v ess = true).
      { destruct Hs as [->|Hs]; [reflexivity|]. exfalso.
        inversion Ha; subst.
        - match goal with H : Run _ [] _ |- _ => inversion H end; subst.
          + inversion Hs; subst. easy.
          + match goal with H : _ ++ _ = [] |- _ => apply app_eq_nil in H as [? ?]; subst end.
            match goal with H : Operand _ [] _ |- _ => inversion H end.
        - match goal with H : _ ++ _ :: _ = [] |- _ => apply app_eq_nil in H as [? ?]; discriminate end. }
      eexists. split.
      + apply (matcher_meaning parse score run_test _ [[BGroup false (map range_exps ranges)]] value_of).
        * split; [|right; repeat constructor; discriminate]. apply Alts_one.
          rewrite app_nil_r.
          rewrite <- (app_nil_r ($"{{" :: ranges_tests ranges ++ [$"}}"])).
          apply Run_op; [exact Op1|constructor].
        * intros t Hin Hi. rewrite app_nil_r in Hin. destruct Hin as [<-|Hin]; [exfalso; apply (NT ($"{{")); auto|].
          apply in_app_iff in Hin as [Hin|[<-|[]]]; [|exfalso; apply (NT ($"}}")); auto]. now apply G.
      + unfold denote_alts at 1. cbn [existsb forallb denote]. rewrite xorb_false_l, orb_false_r, andb_true_r.
        fold (denote_alts value_of (map range_exps ranges)). rewrite V. tauto.
    - assert (Ne' : no_empty ess) by (destruct Hne; [discriminate|assumption]).
      assert (Op2 : Operand no_empty ($"{{" :: (t0 :: tests) ++ [$"}}"]) (BGroup false ess))
        by (apply Op_group; [exact open_tok|exact close_tok|exact Ha|exact Ne']).
      eexists. split.
      + apply (matcher_meaning parse score run_test _
                 [[BGroup false (map range_exps ranges); BGroup false ess]] value_of).
        * split; [|right; repeat constructor; discriminate]. apply Alts_one.
          change (Run no_empty (($"{{" :: ranges_tests ranges ++ [$"}}"] ++ ($"{{" :: (t0 :: tests) ++ [$"}}"])))
                    [BGroup false (map range_exps ranges); BGroup false ess]).
          rewrite app_assoc.
          apply (Run_op no_empty ($"{{" :: ranges_tests ranges ++ [$"}}"])); [exact Op1|].
          rewrite <- (app_nil_r ($"{{" :: (t0 :: tests) ++ [$"}}"])).
          apply Run_op; [exact Op2|constructor].
        * intros t Hin Hi. destruct Hin as [<-|Hin]; [exfalso; apply (NT ($"{{")); auto|].
          apply in_app_iff in Hin as [Hin|[<-|[<-|Hin]]];
            [now apply G|exfalso; apply (NT ($"}}")); auto|exfalso; apply (NT ($"{{")); auto|].
          apply in_app_iff in Hin as [Hin|[<-|[]]]; [now apply Good|exfalso; apply (NT ($"}}")); auto].
      + unfold denote_alts at 1. cbn [existsb forallb denote].
        rewrite !xorb_false_l, orb_false_r, andb_true_r, andb_true_iff.
        fold (denote_alts value_of (map range_exps ranges)). fold (denote_alts value_of ess).
        rewrite V, <- Same. tauto.
  Qed.
End Env.
