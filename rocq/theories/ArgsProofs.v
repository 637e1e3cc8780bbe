From Coq Require Import List NArith ZArith Bool Lia Arith.
From Verif Require Import Py Re ArgsModel ArgsSpec.
Import ListNotations.
Local Open Scope nat_scope.

Lemma dashed_iff s : dashed s = true <-> dash s.
Proof. unfold dashed. rewrite starts_with_iff. reflexivity. Qed.
Lemma dashed_false s : dashed s = false <-> ~ dash s.
Proof. rewrite <- dashed_iff. destruct (dashed s); split; congruence. Qed.
Lemma no_dup_iff l : no_dup l = true <-> NoDup l.
Proof.
  induction l as [|x l IH]; cbn [no_dup]; [split; [constructor|easy]|].
  rewrite andb_true_iff, negb_true_iff, IH. rewrite <- not_true_iff_false, str_in_iff.
  split; [intros [H1 H2]; now constructor|intros H; inversion H; auto].
Qed.
Lemma NoDup_app_both {A} (l k : list A) x : NoDup (l ++ k) -> In x l -> In x k -> False.
Proof.
  induction l as [|y l IH]; cbn; intros N H1 H2; [easy|]. inversion N; subst.
  destruct H1 as [<-|H1]; [|eauto]. match goal with H : ~ In _ _ |- _ => apply H end. apply in_or_app. auto.
Qed.
Lemma NoDup_app_r {A} (l k : list A) : NoDup (l ++ k) -> NoDup k.
Proof. induction l as [|y l IH]; cbn; intros N; [easy|]. inversion N; auto. Qed.

Section Proofs.
  Variable max_cpu : Z.
  Variable options : list opt.
  Notation convert := (convert max_cpu).
  Hypothesis ok : table_ok convert options = true.
  Notation names := (names options).
  Notation get_option := (get_option options).
  Notation parse_option := (parse_option max_cpu options).
  Notation turn := (turn max_cpu options).
  Notation loop := (loop max_cpu options).
  Notation Spelled := (Spelled options).
  Notation Reads := (Reads options).

  (** The table. *)
  Lemma ok_strings o w : names o w -> short_or_long w = true.
  Proof.
    intros (H1 & H2 & H3). unfold table_ok in ok. rewrite !andb_true_iff in ok.
    destruct ok as [[[[H _] _] _] _]. rewrite forallb_forall in H. specialize (H o H1).
    rewrite orb_true_iff, forallb_forall in H. destruct H as [H|H]; [|auto].
    unfold is_arguments in H. now destruct (o_action o).
  Qed.
  Lemma ok_unique o o' w : names o w -> names o' w -> o = o'.
  Proof.
    intros (H1 & H2 & H3) (K1 & K2 & K3). unfold table_ok in ok. rewrite !andb_true_iff in ok.
    destruct ok as [[[[_ H] _] _] _]. clear ok. apply no_dup_iff in H.
    assert (G : In o (filter (fun o => negb (is_arguments o)) options)).
    { apply filter_In. split; [exact H1|]. unfold is_arguments. now destruct (o_action o). }
    assert (G' : In o' (filter (fun o => negb (is_arguments o)) options)).
    { apply filter_In. split; [exact K1|]. unfold is_arguments. now destruct (o_action o'). }
    induction (filter _ options) as [|x l IH]; [easy|]. cbn [map concat] in H.
    assert (U : forall y, In y l -> In w (o_strings y) -> In w (concat (map o_strings l))).
    { intros y Hy Hw. apply in_concat. exists (o_strings y). split; [now apply in_map|exact Hw]. }
    destruct G as [->|G], G' as [->|G']; [reflexivity| | |].
    - exfalso. eapply NoDup_app_both; eauto.
    - exfalso. eapply NoDup_app_both; eauto.
    - apply IH; auto. eapply NoDup_app_r; eauto.
  Qed.
  Lemma get_option_names w o : get_option w = Ok o <-> names o w.
  Proof.
    unfold ArgsModel.get_option. split.
    - destruct (find _ options) as [x|] eqn:E; [|discriminate]. intros [= <-].
      apply find_some in E as [E1 E2]. rewrite andb_true_iff in E2. destruct E2 as [E2 E3].
      apply str_in_iff in E3. split; [exact E1|split; [|exact E3]].
      intros Ha. unfold is_arguments in E2. now rewrite Ha in E2.
    - intros H. destruct (find _ options) as [x|] eqn:E.
      + f_equal. apply find_some in E as [E1 E2]. rewrite andb_true_iff in E2. destruct E2 as [E2 E3].
        apply str_in_iff in E3. apply (ok_unique x o w); [|exact H]. split; [exact E1|split; [|exact E3]].
        intros Ha. unfold is_arguments in E2. now rewrite Ha in E2.
      + exfalso. destruct H as (H1 & H2 & H3). eapply find_none in E; [|exact H1].
        rewrite andb_false_iff in E. destruct E as [E|E].
        * unfold is_arguments in E. now destruct (o_action o).
        * rewrite (proj2 (str_in_iff _ _) H3) in E. discriminate.
  Qed.
  Lemma get_option_err w e : get_option w = Err e -> e = ArgumentErr /\ forall o, ~ names o w.
  Proof.
    intros H. split.
    - unfold ArgsModel.get_option in H. destruct (find _ _); congruence.
    - intros o Hn. apply get_option_names in Hn. congruence.
  Qed.
  Lemma arguments_option : exists o, get_arguments_option options = Ok o /\ In o options /\ o_action o = Arguments /\
    forall o', In o' options -> o_action o' = Arguments -> o' = o.
  Proof.
    unfold table_ok in ok. rewrite !andb_true_iff in ok.
    destruct ok as [[[[_ _] H] _] _]. apply Nat.eqb_eq in H.
    destruct (filter is_arguments options) as [|o [|? ?]] eqn:E; try discriminate.
    assert (F : forall x, In x (filter is_arguments options) <-> x = o) by (intros; rewrite E; cbn; intuition).
    exists o. assert (Ho : In o options /\ is_arguments o = true) by (apply filter_In, F; reflexivity).
    assert (A : forall x, is_arguments x = true <-> o_action x = Arguments)
      by (intros x; unfold is_arguments; destruct (o_action x); split; congruence).
    split; [|split; [tauto|split; [apply A; tauto|]]].
    - unfold get_arguments_option. destruct (find is_arguments options) as [x|] eqn:X.
      + f_equal. apply F. apply filter_In. now apply find_some in X.
      + destruct Ho as [H1 H2]. eapply find_none in X; [|exact H1]. congruence.
    - intros o' H1 H2. apply F. apply filter_In. split; [exact H1|now apply A].
  Qed.
  Lemma ok_grows o : In o options -> grows o = true ->
    is_empty (o_default o) = true /\ o_type o = TStr /\
    forall o', In o' options -> o_dest o' = o_dest o -> o' = o.
  Proof.
    intros H G. unfold table_ok in ok. rewrite !andb_true_iff in ok.
    destruct ok as [[_ K] _]. rewrite forallb_forall in K. specialize (K o H). rewrite G in K. cbn [negb orb] in K.
    rewrite !andb_true_iff in K. destruct K as [[K1 K2] K3]. split; [exact K1|]. split; [now destruct (o_type o)|].
    apply Nat.eqb_eq in K3. intros o' H' E.
    assert (I : forall x, In x options -> o_dest x = o_dest o -> In x (filter (fun o' => str_eqb (o_dest o') (o_dest o)) options)).
    { intros x Hx Ex. apply filter_In. split; [exact Hx|]. rewrite Ex. apply str_eqb_refl. }
    destruct (filter (fun o' => str_eqb (o_dest o') (o_dest o)) options) as [|x [|? ?]]; try discriminate.
    destruct (I o' H' E) as [<-|[]]. destruct (I o H eq_refl) as [<-|[]]. reflexivity.
  Qed.
  Lemma ok_optional o : In o options -> o_action o = StoreOptional ->
    exists s x, o_const o = AStr s /\ convert (o_type o) s = Ok x.
  Proof.
    intros H A. unfold table_ok in ok. rewrite !andb_true_iff in ok.
    destruct ok as [_ K]. rewrite forallb_forall in K. specialize (K o H). rewrite A in K.
    destruct (o_const o); try discriminate. destruct (convert (o_type o) s) eqn:E; [|discriminate]. eauto.
  Qed.

  (** Fuel. *)
  Lemma weight_cons a l : weight (a :: l) = (if Nat.leb (length a) 2 then 1 else length a) + weight l.
  Proof. reflexivity. Qed.
  Lemma weight_app l k : weight (l ++ k) = weight l + weight k.
  Proof. unfold weight. now rewrite map_app, list_sum_app. Qed.
  Lemma take_args_spec l : let (x, y) := take_args l in
    l = x ++ y /\ (forall a, In a x -> ~ dash a) /\ dash_first y.
  Proof.
    induction l as [|a l IH]; cbn [take_args]; [repeat split; easy|].
    destruct (dashed a) eqn:E.
    - apply dashed_iff in E. repeat split; easy.
    - apply dashed_false in E. destruct (take_args l) as [x y]. destruct IH as (-> & H1 & H2).
      split; [reflexivity|]. split; [|exact H2]. intros b [<-|Hb]; auto.
  Qed.
  Lemma take_args_app l rest : (forall a, In a l -> ~ dash a) -> dash_first rest -> take_args (l ++ rest) = (l, rest).
  Proof.
    intros H1 H2. induction l as [|a l IH].
    - destruct rest as [|b rest]; [reflexivity|]. cbn [app take_args]. cbn in H2. apply dashed_iff in H2. now rewrite H2.
    - cbn [app take_args]. rewrite (proj2 (dashed_false a)) by (apply H1; now left).
      rewrite IH; [reflexivity|]. intros; apply H1; now right.
  Qed.
  Lemma parse_option_suffix ns w argv ns' argv' : parse_option ns w argv = Ok (ns', argv') ->
    exists p, argv = p ++ argv'.
  Proof.
    unfold ArgsModel.parse_option. destruct (get_option w) as [o|]; [|discriminate]. cbn [bindr].
    destruct (o_action o).
    - intros [= <- <-]. now exists [].
    - intros [= <- <-]. now exists [].
    - destruct argv as [|v argv]; [discriminate|]. destruct (convert _ _); [|discriminate]. cbn [bindr].
      destruct (ns_append _ _ _); [|discriminate]. cbn [bindr]. intros [= <- <-]. now exists [v].
    - destruct argv as [|v argv]; [discriminate|]. destruct (convert _ _); [|discriminate]. cbn [bindr].
      intros [= <- <-]. now exists [v].
    - cbv zeta. destruct argv as [|v argv].
      + destruct (match o_const o with AStr s => _ | _ => _ end); [|discriminate]. cbn [bindr]. intros [= <- <-]. now exists [].
      + destruct (dashed v).
        * destruct (match o_const o with AStr s => _ | _ => _ end); [|discriminate]. cbn [bindr]. intros [= <- <-]. now exists [].
        * destruct (convert _ _); [|discriminate]. cbn [bindr]. intros [= <- <-]. now exists [v].
    - destruct argv as [|v argv]; [discriminate|]. destruct (fold_left _ _ _); [|discriminate]. cbn [bindr].
      intros [= <- <-]. exists (v :: argv). now rewrite app_nil_r.
    - discriminate.
  Qed.
  Lemma unbundle_weight arg l : unbundle options arg = Ok l -> weight l <= S (length arg).
  Proof.
    revert l. induction arg as [|c arg IH]; intros l; cbn [unbundle]; [intros [= <-]; cbn; lia|].
    destruct (get_option _); [|discriminate]. cbn [bindr]. destruct (takes_value a).
    - intros [= <-]. rewrite !weight_cons. cbn [length Nat.leb]. change (weight []) with 0.
      destruct (length arg <=? 2) eqn:E; [|lia]. lia.
    - destruct (unbundle options arg); [|discriminate]. cbn [bindr]. intros [= <-].
      specialize (IH _ eq_refl). rewrite weight_cons. cbn [length Nat.leb]. lia.
  Qed.
  Lemma unbundle_nonnil arg l : unbundle options arg = Ok l -> arg <> [] -> l <> [].
  Proof.
    destruct arg as [|c arg]; [easy|]. cbn [unbundle]. destruct (get_option _); [|discriminate]. cbn [bindr].
    destruct (takes_value a); [intros [= <-]; easy|]. destruct (unbundle options arg); [|discriminate]. now intros [= <-].
  Qed.
  Lemma split_eq_spec s a b : split_eq s = Some (a, b) <-> s = a ++ 61%N :: b /\ ~ In 61%N a.
  Proof.
    revert a. induction s as [|c s IH]; intros a; cbn [split_eq].
    - split; [discriminate|]. intros [H _]. now destruct a.
    - destruct (N.eqb_spec c 61) as [->|n].
      + split; [intros [= <- <-]; split; [reflexivity|easy]|]. intros [H1 H2]. destruct a as [|x a].
        * inversion H1. reflexivity.
        * exfalso. apply H2. left. now inversion H1.
      + destruct (split_eq s) as [[x y]|] eqn:E.
        * split.
          -- intros [= <- <-]. destruct (proj1 (IH x) eq_refl) as [-> H2]. split; [reflexivity|]. intros [H|H]; [congruence|auto].
          -- intros [H1 H2]. destruct a as [|z a]; [now inversion H1|]. injection H1 as <- ->.
             assert (G : Some (x, y) = Some (a, b)) by (apply IH; split; [reflexivity|]; intros ?; apply H2; now right).
             now injection G as -> ->.
        * split; [discriminate|]. intros [H1 H2]. destruct a as [|z a]; [now inversion H1|].
          injection H1 as <- ->. exfalso. assert (G : None = Some (a, b)) by (apply IH; split; [reflexivity|]; intros ?; apply H2; now right).
          discriminate.
  Qed.
  Lemma split_eq_none s : split_eq s = None <-> ~ In 61%N s.
  Proof.
    induction s as [|c s IH]; cbn [split_eq]; [easy|].
    destruct (N.eqb_spec c 61) as [->|n]; [split; [discriminate|intros H; exfalso; apply H; now left]|].
    destruct (split_eq s) as [[x y]|]; [split; [discriminate|]; intros H; exfalso|].
    - assert (G : ~ In 61%N s) by (intros ?; apply H; now right). apply IH in G. discriminate.
    - split; [|easy]. intros _ [H|H]; [easy|]. now apply IH in H.
  Qed.
  (** What a word with a dash is replaced with. *)
  Definition words (arg : str) : res (list str) :=
    let long := starts_with [45%N; 45%N] arg in
    if negb long && Nat.ltb 2 (length arg) then unbundle options (tl arg)
    else if long then
      match split_eq arg with
      | Some (long_option, value) => parse_long options long_option value
      | None => Ok [arg]
      end
    else Ok [arg].
  Definition first_word (ns : namespace) (ws argv : list str) : res (namespace * list str) :=
    match ws ++ argv with string :: argv => parse_option ns string argv | [] => Err IndexErr end.
  Lemma turn_words ns arg argv : dash arg ->
    turn ns arg argv = do ws <- words arg; first_word ns ws argv.
  Proof.
    intros H. apply dashed_iff in H. unfold ArgsModel.turn, words. rewrite H. cbv zeta.
    destruct (negb _ && _).
    - destruct (unbundle _ _); reflexivity.
    - destruct (starts_with _ arg); [|reflexivity]. destruct (split_eq arg) as [[a b]|]; [|reflexivity].
      destruct (parse_long _ _ _); reflexivity.
  Qed.
  Lemma words_weight arg ws : words arg = Ok ws -> dash arg -> ws <> [] /\ weight ws <= weight [arg].
  Proof.
    intros H [t ->]. unfold words in H. cbv zeta in H.
    assert (SS : forall w, [w] <> [] /\ weight [w] <= weight [w]) by (intros; split; [easy|lia]).
    destruct (negb _ && _) eqn:E.
    - cbn [tl] in H. apply andb_true_iff in E as [_ E]. apply Nat.ltb_lt in E. cbn [length] in E.
      split; [apply (unbundle_nonnil _ _ H); destruct t; [cbn in E; lia|easy]|].
      apply unbundle_weight in H. rewrite weight_cons. change (weight []) with 0. cbn [length]. unfold str, char in *.
      destruct (S (length t) <=? 2) eqn:X; [apply Nat.leb_le in X; lia|]. lia.
    - destruct (starts_with _ _) eqn:L.
      + destruct (split_eq (45%N :: t)) as [[a b]|] eqn:Q; [|injection H as <-; apply SS].
        unfold parse_long in H. destruct (get_option a) as [o|] eqn:G; [|discriminate]. cbn [bindr] in H.
        destruct (takes_value o); [|discriminate]. injection H as <-. split; [easy|].
        apply split_eq_spec in Q as [Q _]. rewrite Q. rewrite !weight_cons. change (weight []) with 0.
        apply get_option_names, ok_strings in G.
        destruct a as [|a1 [|a2 [|a3 a]]]; cbn in G; try discriminate.
        * injection Q as <- ->. apply starts_with_iff in L as [u L].
          cbn [app] in L. inversion L. subst. discriminate.
        * unfold str, char in *.
          repeat match goal with |- context [if ?x <=? 2 then _ else _] => destruct (Nat.leb_spec x 2) end;
            cbn [length app] in *; rewrite ?app_length in *; cbn [length] in *; lia.
      + injection H as <-. apply SS.
  Qed.
  Lemma parse_arguments_split ns a argv ns' argv' : ~ dash a -> parse_arguments options ns (a :: argv) = Ok (ns', argv') ->
    exists p, argv = p ++ argv'.
  Proof.
    unfold parse_arguments. destruct (get_arguments_option options) as [o|]; [|discriminate]. cbn [bindr]. intros D.
    assert (T := take_args_spec (a :: argv)). cbn [take_args] in *. rewrite (proj2 (dashed_false a) D) in *.
    destruct (take_args argv) as [x y]. destruct T as ([= ->] & _ & _).
    destruct (ns (o_dest o)) as [| | | |[|]| |]; try discriminate;
      destruct (fold_left _ _ _); try discriminate; cbn [bindr]; intros [= <- <-]; eauto.
  Qed.
  Lemma weight_pos a : 1 <= weight [a].
  Proof. rewrite weight_cons. destruct (length a <=? 2) eqn:E; [lia|]. apply Nat.leb_gt in E. lia. Qed.
  Lemma turn_weight ns arg argv ns' argv' : turn ns arg argv = Ok (ns', argv') -> weight argv' < weight (arg :: argv).
  Proof.
    change (arg :: argv) with ([arg] ++ argv). rewrite weight_app. assert (P := weight_pos arg).
    destruct (dashed arg) eqn:D.
    - apply dashed_iff in D. rewrite (turn_words _ _ _ D). destruct (words arg) as [ws|] eqn:W; [|discriminate].
      cbn [bindr]. unfold first_word. apply words_weight in W as [W1 W2]; [|exact D].
      destruct ws as [|w ws]; [easy|]. cbn [app]. intros H. apply parse_option_suffix in H as [p H].
      assert (weight (ws ++ argv) = weight p + weight argv') by (rewrite H; apply weight_app).
      rewrite weight_app in H0. change (w :: ws) with ([w] ++ ws) in W2. rewrite weight_app in W2.
      assert (Pw := weight_pos w). lia.
    - unfold ArgsModel.turn. rewrite D. intros H. apply parse_arguments_split in H as [p ->]; [|now apply dashed_false].
      rewrite weight_app. lia.
  Qed.
  Lemma loop_fuel f : forall ns argv, weight argv <= f -> loop f ns argv = loop (weight argv) ns argv.
  Proof.
    assert (G : forall n f ns argv, weight argv <= n -> weight argv <= f -> loop f ns argv = loop n ns argv).
    { induction n as [|n IH]; intros g ns argv H1 H2.
      - destruct argv as [|a argv]; [now destruct g|]. assert (P := weight_pos a).
        change (a :: argv) with ([a] ++ argv) in H1. rewrite weight_app in H1. lia.
      - destruct argv as [|a argv]; [now destruct g|]. destruct g as [|g].
        + assert (P := weight_pos a). change (a :: argv) with ([a] ++ argv) in H2. rewrite weight_app in H2. lia.
        + cbn [ArgsModel.loop]. destruct (turn ns a argv) as [[ns' argv']|] eqn:E; [|reflexivity]. cbn [bindr].
          apply turn_weight in E. apply IH; lia. }
    intros ns argv H. now apply G.
  Qed.
  Definition run (ns : namespace) (argv : list str) : res namespace := loop (weight argv) ns argv.
  Lemma run_nil ns : run ns [] = Ok ns.
  Proof. reflexivity. Qed.
  Lemma run_cons ns a argv : run ns (a :: argv) = do '(ns', argv') <- turn ns a argv; run ns' argv'.
  Proof.
    unfold run. change (a :: argv) with ([a] ++ argv) at 1. rewrite weight_app. assert (P := weight_pos a).
    destruct (weight [a] + weight argv) as [|n] eqn:E; [lia|]. cbn [ArgsModel.loop].
    destruct (turn ns a argv) as [[ns' argv']|] eqn:T; [|reflexivity]. cbn [bindr].
    apply turn_weight in T. apply loop_fuel. change (a :: argv) with ([a] ++ argv) in T. rewrite weight_app in T. lia.
  Qed.

  (** Words. *)
  Lemma plain_words o w : names o w -> words w = Ok [w].
  Proof.
    intros H. apply ok_strings in H. unfold words. cbv zeta.
    destruct w as [|a [|b [|c w]]]; cbn [short_or_long] in H; try discriminate.
    - rewrite andb_true_iff, negb_true_iff in H. destruct H as [H1 H2].
      apply N.eqb_eq in H1. subst a. cbn [starts_with]. rewrite N.eqb_refl, (N.eqb_sym 45 b), H2. reflexivity.
    - rewrite !andb_true_iff, negb_true_iff in H. destruct H as [[H1 H2] H3].
      apply N.eqb_eq in H1, H2. subst a b. cbn [starts_with N.eqb]. cbn [Pos.eqb andb negb].
      apply has_char_false in H3. apply split_eq_none in H3. now rewrite H3.
  Qed.
  Lemma names_dash o w : names o w -> dash w.
  Proof.
    intros H. apply ok_strings in H. destruct w as [|a [|b [|c w]]]; cbn in H; try discriminate;
      rewrite ?andb_true_iff in H.
    - destruct H as [H _]. apply N.eqb_eq in H. subst. eexists. reflexivity.
    - destruct H as [[H _] _]. apply N.eqb_eq in H. subst. eexists. reflexivity.
  Qed.
  Lemma takes_value_iff o : takes_value o = true <-> valued o.
  Proof. unfold takes_value, valued. destruct (o_action o); split; try tauto; try discriminate; intros [H|[H|H]]; discriminate. Qed.
  Lemma unbundle_flags cs arg : (forall c, In c cs -> exists o, names o (short c) /\ ~ valued o) ->
    unbundle options (cs ++ arg) = do l <- unbundle options arg; Ok (map short cs ++ l).
  Proof.
    induction cs as [|c cs IH]; intros H; [cbn; destruct (unbundle options arg); reflexivity|].
    cbn [app unbundle]. destruct (H c (or_introl eq_refl)) as (o & H1 & H2).
    apply get_option_names in H1. change [45%N; c] with (short c). rewrite H1. cbn [bindr].
    destruct (takes_value o) eqn:E; [now apply takes_value_iff in E|].
    rewrite IH by (intros; apply H; now right). destruct (unbundle options arg); reflexivity.
  Qed.
  Lemma first_not_dash c o : names o (short c) -> (c =? 45)%N = false.
  Proof. intros H. apply ok_strings in H. cbn in H. now apply negb_true_iff in H. Qed.
  Lemma spelled_words w ws : Spelled w ws -> words w = Ok ws /\ dash w.
  Proof.
    intros H. destruct H as [o l v H1 H2 [n ->]|cs H1 H2|cs o c v H1 H2 H3 H4].
    - split; [|eexists; reflexivity]. assert (K := ok_strings _ _ H1). unfold words. cbv zeta.
      cbn [app starts_with N.eqb Pos.eqb andb negb].
      assert (E : split_eq (45%N :: 45%N :: n ++ 61%N :: v) = Some (45%N :: 45%N :: n, v)).
      { apply split_eq_spec. split; [reflexivity|]. destruct n as [|x n]; [intros [H|[H|[]]]; discriminate|].
        cbn [short_or_long] in K. rewrite !andb_true_iff, negb_true_iff in K. now apply has_char_false. }
      unfold str, char in *. rewrite E. unfold parse_long. apply get_option_names in H1. rewrite H1. cbn [bindr].
      apply takes_value_iff in H2. now rewrite H2.
    - split; [|eexists; reflexivity]. unfold words. cbv zeta.
      assert (L : starts_with [45%N; 45%N] (45%N :: cs) = false).
      { destruct cs as [|c cs]; [reflexivity|]. destruct (H2 c (or_introl eq_refl)) as (o & Ho & _).
        apply first_not_dash in Ho. cbn. rewrite N.eqb_sym in Ho. destruct c; [reflexivity|]. cbn in Ho. now rewrite Ho. }
      rewrite L. cbn [negb andb length tl].
      destruct (Nat.ltb_spec 2 (S (length cs))) as [_|X]; [|lia].
      rewrite <- (app_nil_r cs) at 1. rewrite unbundle_flags by exact H2. cbn. now rewrite app_nil_r.
    - split; [|eexists; reflexivity]. unfold words. cbv zeta.
      assert (L : starts_with [45%N; 45%N] (45%N :: cs ++ c :: v) = false).
      { assert (G : exists d t o, cs ++ c :: v = d :: t /\ names o (short d)).
        { destruct cs as [|d cs]; [exists c, v, o; auto|]. destruct (H1 d (or_introl eq_refl)) as (o' & Ho & _).
          exists d, (cs ++ c :: v), o'. auto. }
        destruct G as (d & t & o' & -> & Ho). apply first_not_dash in Ho. cbn. rewrite N.eqb_sym in Ho.
        destruct d; [reflexivity|]. cbn in Ho. now rewrite Ho. }
      rewrite L. cbn [negb andb length tl].
      destruct (Nat.ltb_spec 2 (S (length (cs ++ c :: v)))) as [_|X].
      + rewrite unbundle_flags by exact H1. cbn [unbundle]. change [45%N; c] with (short c).
        apply get_option_names in H2. rewrite H2. cbn [bindr]. apply takes_value_iff in H3. now rewrite H3.
      + rewrite app_length in X. cbn [length] in X. exfalso. apply H4. destruct cs, v; cbn in *; try lia. reflexivity.
  Qed.
  (** The other way round: what is accepted is spelled correctly. *)
  Lemma unbundle_spelled arg ws : unbundle options arg = Ok ws ->
    (ws = map short arg /\ forall c, In c arg -> exists o, names o (short c) /\ ~ valued o) \/
    (exists cs o c v, arg = cs ++ c :: v /\ ws = map short cs ++ [short c; v] /\
       (forall c, In c cs -> exists o, names o (short c) /\ ~ valued o) /\ names o (short c) /\ valued o).
  Proof.
    revert ws. induction arg as [|c arg IH]; intros ws; cbn [unbundle]; [intros [= <-]; left; split; [reflexivity|easy]|].
    destruct (get_option [45%N; c]) as [o|] eqn:G; [|discriminate]. cbn [bindr]. apply get_option_names in G.
    destruct (takes_value o) eqn:V.
    - intros [= <-]. apply takes_value_iff in V. right. exists [], o, c, arg.
      split; [reflexivity|]. split; [reflexivity|]. split; [easy|]. split; [exact G|exact V].
    - assert (V' : ~ valued o) by (intros X; apply takes_value_iff in X; congruence).
      destruct (unbundle options arg) as [l|]; [|discriminate]. cbn [bindr]. intros [= <-].
      destruct (IH _ eq_refl) as [[-> H]|(cs & o' & c' & v & -> & -> & H1 & H2 & H3)].
      + left. split; [reflexivity|]. intros d [<-|Hd]; [exists o; split; [exact G|exact V']|auto].
      + right. exists (c :: cs), o', c', v. split; [reflexivity|]. split; [reflexivity|]. split; [|auto].
        intros d [<-|Hd]; [exists o; split; [exact G|exact V']|auto].
  Qed.
  Lemma words_spelled w ws : dash w -> words w = Ok ws -> ws = [w] \/ Spelled w ws.
  Proof.
    intros [t ->]. unfold words. cbv zeta. destruct (negb _ && _) eqn:E.
    - cbn [tl]. apply andb_true_iff in E as [_ E]. apply Nat.ltb_lt in E. cbn [length] in E.
      intros H. right. destruct (unbundle_spelled _ _ H) as [[-> K]|(cs & o & c & v & -> & -> & K1 & K2 & K3)].
      + apply spelled_bundle; [lia|exact K].
      + apply spelled_attached with o; auto. intros X. apply app_eq_nil in X as [-> ->]. cbn in E. lia.
    - destruct (starts_with _ _) eqn:L; [|intros [= <-]; now left].
      destruct (split_eq _) as [[a b]|] eqn:Q; [|intros [= <-]; now left].
      unfold parse_long. destruct (get_option a) as [o|] eqn:G; [|discriminate]. cbn [bindr].
      destruct (takes_value o) eqn:V; [|discriminate]. intros [= <-]. right.
      apply split_eq_spec in Q as [Q Q']. rewrite Q. apply get_option_names in G. apply takes_value_iff in V.
      apply spelled_long with o; auto. assert (K := ok_strings _ _ G).
      destruct a as [|a1 [|a2 a]]; cbn in K; try discriminate.
      apply starts_with_iff in L as [u L]. cbn [app] in Q. rewrite L in Q. injection Q as <- <- _. eauto.
  Qed.
  Lemma spelled_run ns w ws argv : Spelled w ws -> run ns (w :: argv) = run ns (ws ++ argv).
  Proof.
    intros H. destruct (spelled_words _ _ H) as [W D]. rewrite run_cons, (turn_words _ _ _ D), W. cbn [bindr].
    unfold first_word.
    assert (X : exists o x xs, ws = x :: xs /\ names o x).
    { destruct H as [o l v H1 _ _|cs H1 H2|cs o c v H1 H2 _ _].
      - exists o, l, [v]. auto.
      - destruct cs as [|c cs]; [cbn in H1; lia|]. destruct (H2 c (or_introl eq_refl)) as (o & Ho & _). exists o, (short c), (map short cs). auto.
      - destruct cs as [|c' cs]; [exists o, (short c), [v]; auto|]. destruct (H1 c' (or_introl eq_refl)) as (o' & Ho & _).
        exists o', (short c'), (map short cs ++ [short c; v]). auto. }
    destruct X as (o & x & xs & -> & Hn). cbn [app]. rewrite run_cons, (turn_words _ _ _ (names_dash _ _ Hn)).
    rewrite (plain_words _ _ Hn). reflexivity.
  Qed.
  Lemma plain_run ns o w argv : names o w -> run ns (w :: argv) = do '(ns', argv') <- parse_option ns w argv; run ns' argv'.
  Proof.
    intros H. rewrite run_cons, (turn_words _ _ _ (names_dash _ _ H)), (plain_words _ _ H). reflexivity.
  Qed.

  (** Items. *)
  Definition appends (ns : namespace) (d : str) (l : list str) : res namespace :=
    fold_left (fun r v => do ns <- r; ns_append ns d (AStr v)) l (Ok ns).
  Definition apply_item (ns : namespace) (i : item) : res namespace :=
    match i with
    | Flag o => Ok (ns_set ns (o_dest o) (match o_action o with StoreTrue => ABool true | _ => o_const o end))
    | Value o v =>
        do x <- convert (o_type o) v;
        match o_action o with Append => ns_append ns (o_dest o) x | _ => Ok (ns_set ns (o_dest o) x) end
    | Bare o =>
        do x <- (match o_const o with AStr s => convert (o_type o) s | _ => Err TypeErr end);
        Ok (ns_set ns (o_dest o) x)
    | Rest o l => appends ns (o_dest o) l
    | Args l =>
        do o <- get_arguments_option options;
        match ns (o_dest o) with AStrs (_ :: _) => Err ArgumentErr | _ => appends ns (o_dest o) l end
    end.
  Fixpoint apply_all (ns : namespace) (items : list item) : res namespace :=
    match items with
    | [] => Ok ns
    | i :: items => do ns <- apply_item ns i; apply_all ns items
    end.
  Lemma reads_run argv items : Reads argv items -> forall ns tail,
    no_rest items \/ tail = [] -> dash_first tail ->
    run ns (argv ++ tail) = do ns' <- apply_all ns items; run ns' tail.
  Proof.
    assert (T : forall i items tail, no_rest (i :: items) \/ tail = [] -> no_rest items \/ tail = (@nil str)).
    { intros i items' tail [H|H]; [left|now right]. intros o l Hin. apply (H o l). now right. }
    induction 1 as [|w ws rest items HS HR IH|o w rest items Hn Ha HR IH|o w v rest items Hn Ha HR IH
      |o w v rest items Hn Ha Hv HR IH|o w rest items Hn Ha Hd HR IH|o w l Hn Ha Hl|l rest items Hl Hnd Hd HR IH];
      intros ns tail Ht Hd'.
    - reflexivity.
    - cbn [app]. rewrite (spelled_run _ _ ws _ HS), app_assoc. now apply IH.
    - cbn [app]. rewrite (plain_run _ _ _ _ Hn). unfold ArgsModel.parse_option.
      rewrite (proj2 (get_option_names _ _) Hn). cbn [bindr apply_all apply_item]. 
      destruct Ha as [Ha|Ha]; rewrite Ha; cbn [bindr]; apply IH; eauto.
    - cbn [app]. rewrite (plain_run _ _ _ _ Hn). unfold ArgsModel.parse_option.
      rewrite (proj2 (get_option_names _ _) Hn). cbn [bindr apply_all apply_item].
      destruct Ha as [Ha|Ha]; rewrite Ha; destruct (convert (o_type o) v) as [x|]; cbn [bindr]; try reflexivity.
      + apply IH; eauto.
      + destruct (ns_append _ _ _); cbn [bindr]; [|reflexivity]. apply IH; eauto.
    - cbn [app]. rewrite (plain_run _ _ _ _ Hn). unfold ArgsModel.parse_option.
      rewrite (proj2 (get_option_names _ _) Hn). cbn [bindr apply_all apply_item]. rewrite Ha.
      rewrite (proj2 (dashed_false v) Hv). cbv zeta. destruct (convert (o_type o) v) as [x|]; cbn [bindr]; [|reflexivity].
      apply IH; eauto.
    - cbn [app]. rewrite (plain_run _ _ _ _ Hn). unfold ArgsModel.parse_option.
      rewrite (proj2 (get_option_names _ _) Hn). cbn [bindr apply_all apply_item]. rewrite Ha. cbv zeta.
      assert (D : dash_first (rest ++ tail)) by (destruct rest; [exact Hd'|exact Hd]).
      rewrite <- (IH ns tail (T _ _ _ Ht) Hd') || idtac.
      destruct (match o_const o with AStr s => _ | _ => _ end) as [x|e].
      + cbn [bindr]. rewrite <- (IH _ tail (T _ _ _ Ht) Hd'). destruct (rest ++ tail) as [|a k]; [reflexivity|].
        cbn in D. apply dashed_iff in D. rewrite D. reflexivity.
      + cbn [bindr]. destruct (rest ++ tail) as [|a k]; [reflexivity|]. cbn in D. apply dashed_iff in D. rewrite D. reflexivity.
    - destruct Ht as [Ht| ->]; [exfalso; apply (Ht o l); now left|]. rewrite app_nil_r.
      rewrite (plain_run _ _ _ _ Hn). unfold ArgsModel.parse_option.
      rewrite (proj2 (get_option_names _ _) Hn). cbn [bindr apply_all apply_item]. rewrite Ha.
      destruct l as [|a l]; [easy|]. unfold appends. destruct (fold_left _ (a :: l) (Ok ns)); reflexivity.
    - rewrite <- app_assoc. destruct l as [|a l]; [easy|]. cbn [app]. rewrite run_cons. unfold ArgsModel.turn.
      rewrite (proj2 (dashed_false a)) by (apply Hnd; now left). unfold parse_arguments. cbn [apply_all apply_item].
      destruct (get_arguments_option options) as [o|]; [|reflexivity]. cbn [bindr].
      assert (D : dash_first (rest ++ tail)) by (destruct rest; [exact Hd'|exact Hd]).
      assert (TA := take_args_app (a :: l) (rest ++ tail) Hnd D). cbn [app] in TA. rewrite TA.
      assert (Ht' := T _ _ _ Ht).
      fold (appends ns (o_dest o) (a :: l)).
      destruct (ns (o_dest o)) as [| | | |[|]| |]; try reflexivity;
        (destruct (appends ns (o_dest o) (a :: l)) as [ns'|]; [|reflexivity]); cbn [bindr]; now apply IH.
  Qed.

  (** What is accepted can be read. *)
  Lemma parse_option_reads ns o w argv ns' argv' : names o w -> parse_option ns w argv = Ok (ns', argv') ->
    exists i, apply_item ns i = Ok ns' /\ forall items, Reads argv' items ->
      (argv' = [] -> items = []) -> Reads (w :: argv) (i :: items).
  Proof.
    intros Hn. unfold ArgsModel.parse_option. rewrite (proj2 (get_option_names _ _) Hn). cbn [bindr].
    destruct (o_action o) eqn:Ha.
    - intros [= <- <-]. exists (Flag o). split; [cbn; now rewrite Ha|]. intros. apply reads_flag; auto.
    - intros [= <- <-]. exists (Flag o). split; [cbn; now rewrite Ha|]. intros. apply reads_flag; auto.
    - destruct argv as [|v argv]; [discriminate|]. destruct (convert _ _) as [x|] eqn:E; [|discriminate]. cbn [bindr].
      destruct (ns_append _ _ _) as [n|] eqn:E2; [|discriminate]. cbn [bindr]. intros [= <- <-]. exists (Value o v).
      split; [cbn [apply_item]; rewrite E; cbn [bindr]; now rewrite Ha|]. intros. apply reads_value; auto.
    - destruct argv as [|v argv]; [discriminate|]. destruct (convert _ _) as [x|] eqn:E; [|discriminate]. cbn [bindr].
      intros [= <- <-]. exists (Value o v).
      split; [cbn [apply_item]; rewrite E; cbn [bindr]; now rewrite Ha|]. intros. apply reads_value; auto.
    - cbv zeta.
      assert (B : forall x, (match o_const o with AStr s => convert (o_type o) s | _ => Err TypeErr end) = Ok x ->
        apply_item ns (Bare o) = Ok (ns_set ns (o_dest o) x)) by (intros x E; cbn [apply_item]; now rewrite E).
      destruct argv as [|v argv].
      + destruct (match o_const o with AStr s => _ | _ => _ end); [|discriminate]. cbn [bindr]. intros [= <- <-].
        exists (Bare o). split; [now apply B|]. intros. apply reads_bare; auto. exact I.
      + destruct (dashed v) eqn:D.
        * destruct (match o_const o with AStr s => _ | _ => _ end); [|discriminate]. cbn [bindr]. intros [= <- <-].
          exists (Bare o). split; [now apply B|]. intros. apply reads_bare; auto. now apply dashed_iff.
        * destruct (convert _ _) as [x|] eqn:E; [|discriminate]. cbn [bindr]. intros [= <- <-]. exists (Value o v).
          split; [cbn [apply_item]; rewrite E; cbn [bindr]; now rewrite Ha|]. intros. apply reads_optional; auto.
          now apply dashed_false.
    - destruct argv as [|v argv]; [discriminate|]. fold (appends ns (o_dest o) (v :: argv)).
      destruct (appends _ _ _) as [n|] eqn:E; [|discriminate]. cbn [bindr].
      intros [= <- <-]. exists (Rest o (v :: argv)). split; [exact E|]. intros items _ H. rewrite (H eq_refl).
      apply reads_rest; easy.
    - discriminate.
  Qed.
  Lemma reads_nil_inv items : Reads [] items -> items = [].
  Proof.
    intros H. remember [] as l eqn:E. destruct H; try discriminate; [reflexivity|].
    destruct l; [easy|discriminate].
  Qed.
  Lemma run_reads n : forall ns argv ns', weight argv <= n -> run ns argv = Ok ns' ->
    exists items, Reads argv items /\ apply_all ns items = Ok ns'.
  Proof.
    induction n as [|n IH]; intros ns argv ns' Hw.
    - destruct argv as [|a argv]; [intros [= <-]; exists []; split; [constructor|reflexivity]|].
      assert (P := weight_pos a). change (a :: argv) with ([a] ++ argv) in Hw. rewrite weight_app in Hw. lia.
    - destruct argv as [|a argv]; [intros [= <-]; exists []; split; [constructor|reflexivity]|].
      rewrite run_cons. destruct (turn ns a argv) as [[ns1 argv1]|] eqn:T; [|discriminate]. cbn [bindr]. intros H.
      assert (W := turn_weight _ _ _ _ _ T). destruct (IH ns1 argv1 ns') as (items & HR & HA); [lia|exact H|].
      destruct (dashed a) eqn:D.
      + apply dashed_iff in D. rewrite (turn_words _ _ _ D) in T. destruct (words a) as [ws|] eqn:Ew; [|discriminate].
        cbn [bindr] in T. unfold first_word in T. destruct (words_weight _ _ Ew D) as [Wn _].
        destruct ws as [|w ws]; [easy|]. cbn [app] in T.
        assert (Hn : exists o, names o w).
        { unfold ArgsModel.parse_option in T. destruct (get_option w) as [o|] eqn:G; [|discriminate].
          apply get_option_names in G. eauto. }
        destruct Hn as [o Hn]. destruct (parse_option_reads _ _ _ _ _ _ Hn T) as (i & Hi & HI).
        exists (i :: items). split; [|cbn [apply_all]; rewrite Hi; exact HA].
        assert (R1 : Reads (w :: ws ++ argv) (i :: items)).
        { apply HI; [exact HR|]. intros ->. now apply reads_nil_inv. }
        destruct (words_spelled _ _ D Ew) as [E|S].
        * injection E as -> ->. exact R1.
        * eapply reads_spelled; [exact S|exact R1].
      + unfold ArgsModel.turn in T. rewrite D in T. unfold parse_arguments in T.
        assert (TS := take_args_spec (a :: argv)).
        destruct (get_arguments_option options) as [o|] eqn:G; [|discriminate]. cbn [bindr] in T.
        destruct (take_args (a :: argv)) as [x y] eqn:TA. destruct TS as (E & H1 & H2).
        assert (X : appends ns (o_dest o) x = Ok ns1 /\ y = argv1 /\
          apply_item ns (Args x) = Ok ns1).
        { cbn [apply_item]. rewrite G. cbn [bindr]. fold (appends ns (o_dest o) x) in T.
          destruct (ns (o_dest o)) as [| | | |[|]| |]; try discriminate;
            (destruct (appends ns (o_dest o) x); [|discriminate]); cbn [bindr] in T; injection T as <- <-; auto. }
        destruct X as (X1 & -> & X2). exists (Args x :: items). split; [|cbn [apply_all]; rewrite X2; exact HA].
        rewrite E. apply reads_args; auto. cbn [take_args] in TA. rewrite D in TA. destruct (take_args argv).
        injection TA as <- <-. easy.
  Qed.

  (** Typing of the namespace. *)
  Definition is_list (x : aval) : Prop := x = ANone \/ exists l, x = AStrs l.
  Definition typed (ns : namespace) : Prop := forall o, In o options -> grows o = true -> is_list (ns (o_dest o)).
  Definition item_ok (i : item) : Prop :=
    match i with
    | Flag o => In o options /\ (o_action o = StoreTrue \/ o_action o = StoreConst)
    | Value o v => In o options /\ (o_action o = Store \/ o_action o = Append \/ o_action o = StoreOptional)
    | Bare o => In o options /\ o_action o = StoreOptional
    | Rest o l => In o options /\ o_action o = StoreRemainder /\ l <> []
    | Args l => l <> []
    end.
  Lemma reads_ok argv items : Reads argv items -> forall i, In i items -> item_ok i.
  Proof.
    induction 1 as [|w ws rest items HS HR IH|o w rest items Hn Ha HR IH|o w v rest items Hn Ha HR IH
      |o w v rest items Hn Ha Hv HR IH|o w rest items Hn Ha Hd HR IH|o w l Hn Ha Hl|l rest items Hl Hnd Hd HR IH];
      intros i Hi; cbn in Hi; try (destruct Hi as [<-|Hi]; [|now auto]); try easy; auto; try (destruct Hn as [Hn _]);
      cbn; tauto.
  Qed.
  Definition updated (ns : namespace) (d : str) (x : aval) (ns' : namespace) : Prop :=
    ns' d = x /\ forall k, k <> d -> ns' k = ns k.
  Lemma set_updated ns d x : updated ns d x (ns_set ns d x).
  Proof.
    split; unfold ns_set; [now rewrite str_eqb_refl|]. intros k H. apply str_eqb_neq in H. now rewrite H.
  Qed.
  Lemma appends_ok l : forall ns d, l <> [] -> is_list (ns d) ->
    exists ns', appends ns d l = Ok ns' /\ updated ns d (grown (ns d) l) ns'.
  Proof.
    assert (G : forall l ns d k, ns d = AStrs k -> exists ns', appends ns d l = Ok ns' /\ updated ns d (AStrs (k ++ l)) ns').
    { induction l0 as [|v l' IH]; intros ns d k E.
      - exists ns. split; [reflexivity|]. split; [now rewrite app_nil_r|easy].
      - unfold appends. cbn [fold_left bindr ns_append]. rewrite E. fold (appends (ns_set ns d (AStrs (k ++ [v]))) d l').
        destruct (set_updated ns d (AStrs (k ++ [v]))) as [U1 U2].
        destruct (IH _ d _ U1) as (ns' & E' & [V1 V2]). exists ns'. split; [exact E'|]. split.
        + rewrite V1, <- app_assoc. reflexivity.
        + intros x Hx. rewrite V2, U2; auto. }
    intros ns d Hl [H|[k H]].
    - destruct l as [|v l]; [easy|]. unfold appends. cbn [fold_left bindr ns_append]. rewrite H.
      fold (appends (ns_set ns d (AStrs [v])) d l). destruct (set_updated ns d (AStrs [v])) as [U1 U2].
      destruct (G l _ d _ U1) as (ns' & E' & [V1 V2]). exists ns'. split; [exact E'|]. split; [exact V1|].
      intros x Hx. rewrite V2, U2; auto.
    - rewrite H. now apply G.
  Qed.
  Lemma in_grows o : o_action o = Append \/ o_action o = StoreRemainder \/ o_action o = Arguments -> grows o = true.
  Proof. unfold grows. intros [H|[H|H]]; now rewrite H. Qed.
  (** Every item: either it fails because of the text of its value or because
      of a second group of arguments, or it makes its change. *)
  Lemma item_change ns i : typed ns -> item_ok i ->
    (exists d c ns', Change options convert i d c /\ apply_item ns i = Ok ns' /\
       updated ns d (match c with Becomes x => x | Grows l => grown (ns d) l end) ns' /\ typed ns') \/
    (exists o v e, i = Value o v /\ convert (o_type o) v = Err e /\ apply_item ns i = Err e /\
       (forall d c, ~ Change options convert i d c)) \/
    (exists l o, i = Args l /\ In o options /\ o_action o = Arguments /\ (exists x k, ns (o_dest o) = AStrs (x :: k)) /\
       apply_item ns i = Err ArgumentErr).
  Proof.
    intros Ht Hi.
    assert (TB : forall o x ns', In o options -> grows o = false -> updated ns (o_dest o) x ns' -> typed ns').
    { intros o x ns' Ho Hg [_ U] o' Ho' Hg'. rewrite U; [now apply Ht|]. intros E.
      destruct (ok_grows o' Ho' Hg') as (_ & _ & K). rewrite (K o Ho (eq_sym E)) in Hg. congruence. }
    assert (TG : forall o l ns', In o options -> grows o = true -> updated ns (o_dest o) (grown (ns (o_dest o)) l) ns' -> typed ns').
    { intros o l ns' Ho Hg [U1 U2] o' Ho' Hg'. destruct (str_eq_dec (o_dest o') (o_dest o)) as [E|E].
      - rewrite E, U1. right. destruct (ns (o_dest o)); cbn; eauto.
      - rewrite U2 by exact E. now apply Ht. }
    destruct i as [o|o v|o|o l|l]; cbn [item_ok] in Hi.
    - left. destruct Hi as [Ho [Ha|Ha]].
      + exists (o_dest o), (Becomes (ABool true)). eexists. split; [now constructor|].
        cbn [apply_item]. rewrite Ha. split; [reflexivity|]. split; [apply set_updated|].
        eapply TB; [exact Ho| |apply set_updated]. unfold grows. now rewrite Ha.
      + exists (o_dest o), (Becomes (o_const o)). eexists. split; [now constructor|].
        cbn [apply_item]. rewrite Ha. split; [reflexivity|]. split; [apply set_updated|].
        eapply TB; [exact Ho| |apply set_updated]. unfold grows. now rewrite Ha.
    - destruct Hi as [Ho Ha]. destruct (convert (o_type o) v) as [x|e] eqn:E.
      + left. assert (A : o_action o = Append \/ (o_action o = Store \/ o_action o = StoreOptional)) by tauto.
        destruct A as [A|A].
        * exists (o_dest o), (Grows [v]). assert (Hg := in_grows o (or_introl A)).
          destruct (ok_grows o Ho Hg) as (_ & Hty & _). rewrite Hty in E. cbn in E. injection E as <-.
          destruct (appends_ok [v] ns (o_dest o)) as (ns' & E1 & U); [easy|now apply Ht|].
          exists ns'. split; [now constructor|]. split; [|split; [exact U|eapply TG; eauto]].
          cbn [apply_item]. rewrite Hty, A. cbn [ArgsModel.convert bindr]. exact E1.
        * exists (o_dest o), (Becomes x). eexists. split; [now constructor|].
          cbn [apply_item]. rewrite E. cbn [bindr]. split; [|split; [apply set_updated|eapply TB; [exact Ho| |apply set_updated]]].
          -- destruct A as [A|A]; rewrite A; reflexivity.
          -- unfold grows. destruct A as [A|A]; now rewrite A.
      + right. left. exists o, v, e. split; [reflexivity|]. split; [exact E|]. cbn [apply_item]. rewrite E.
        split; [reflexivity|]. intros d c H. inversion H; subst.
        * match goal with A : o_action o = Append |- _ => destruct (ok_grows o Ho (in_grows o (or_introl A))) as (_ & Hty & _) end.
          rewrite Hty in E. discriminate.
        * congruence.
    - left. destruct Hi as [Ho Ha]. destruct (ok_optional o Ho Ha) as (s & x & E1 & E2).
      exists (o_dest o), (Becomes x). eexists. split; [econstructor; eauto|].
      cbn [apply_item]. rewrite E1, E2. split; [reflexivity|]. split; [apply set_updated|].
      eapply TB; [exact Ho| |apply set_updated]. unfold grows. now rewrite Ha.
    - left. destruct Hi as (Ho & Ha & Hl). assert (Hg := in_grows o (or_intror (or_introl Ha))).
      exists (o_dest o), (Grows l). destruct (appends_ok l ns (o_dest o)) as (ns' & E1 & U); [exact Hl|now apply Ht|].
      exists ns'. split; [constructor|]. split; [exact E1|]. split; [exact U|eapply TG; eauto].
    - destruct arguments_option as (o & G & Ho & Ha & _). assert (Hg := in_grows o (or_intror (or_intror Ha))).
      destruct (appends_ok l ns (o_dest o)) as (ns' & E1 & U); [exact Hi|now apply Ht|].
      destruct (ns (o_dest o)) as [|b|s|z|[|x k]|l'|a b] eqn:E.
      2,3,4,7,8: (exfalso; destruct (Ht o Ho Hg) as [X|[? X]]; congruence).
      + left. exists (o_dest o), (Grows l), ns'. split; [now constructor|]. cbn [apply_item]. rewrite G. cbn [bindr].
        assert (U' : updated ns (o_dest o) (grown (ns (o_dest o)) l) ns') by (rewrite E; exact U).
        rewrite E. split; [exact E1|]. split; [now rewrite E in U'|]. exact (TG o l ns' Ho Hg U').
      + left. exists (o_dest o), (Grows l), ns'. split; [now constructor|]. cbn [apply_item]. rewrite G. cbn [bindr].
        assert (U' : updated ns (o_dest o) (grown (ns (o_dest o)) l) ns') by (rewrite E; exact U).
        rewrite E. split; [exact E1|]. split; [now rewrite E in U'|]. exact (TG o l ns' Ho Hg U').
      + right. right. exists l, o. split; [reflexivity|]. split; [exact Ho|]. split; [exact Ha|]. split; [eauto|].
        cbn [apply_item]. rewrite G. cbn [bindr]. now rewrite E.
  Qed.

  Notation Change := (Change options convert).
  Notation Leads := (Leads options convert).
  Lemma change_det i d c d' c' : item_ok i -> Change i d c -> Change i d' c' -> d = d' /\ c = c'.
  Proof.
    intros Hi H H'. destruct H; inversion H'; subst;
      repeat match goal with H : _ \/ _ |- _ => destruct H end; try (split; congruence); try congruence;
      destruct arguments_option as (a & _ & _ & _ & U);
      repeat match goal with H : In ?o options, K : o_action ?o = Arguments |- _ => rewrite (U o H K) in *; clear H K end; auto.
  Qed.
  Lemma tests_only ta i d c : In ta options -> o_action ta = Arguments -> item_ok i -> Change i d c -> d = o_dest ta ->
    exists l, i = Args l /\ c = Grows l.
  Proof.
    intros Hta Ha Hi HC E. destruct (ok_grows ta Hta (in_grows _ (or_intror (or_intror Ha)))) as (_ & _ & K).
    destruct i as [o|o v|o|o l|l]; cbn [item_ok] in Hi.
    5: { exists l. split; [reflexivity|]. now inversion HC. }
    all: exfalso; assert (d = o_dest o) by (inversion HC; reflexivity); subst d;
      assert (Ho : In o options) by tauto; rewrite (K o Ho ltac:(congruence)) in Hi;
      rewrite Ha in Hi; intuition congruence.
  Qed.
  Lemma leads_sound items : forall ns ns', typed ns -> (forall i, In i items -> item_ok i) ->
    apply_all ns items = Ok ns' -> Leads ns items ns'.
  Proof.
    induction items as [|i items IH]; intros ns ns' Ht Hok H.
    - injection H as <-. now constructor.
    - cbn [apply_all] in H.
      destruct (item_change ns i Ht (Hok i (or_introl eq_refl))) as [(d & c & n & HC & E & [U1 U2] & T)|[(o & v & e & _ & _ & E & _)|(l & o & _ & _ & _ & _ & E)]];
        rewrite E in H; cbn [bindr] in H; try discriminate.
      eapply leads_cons; [exact HC|exact U2|exact U1|]. apply IH; auto. intros; apply Hok; now right.
  Qed.
  Lemma args_none ta items : In ta options -> o_action ta = Arguments -> forall ns ns', typed ns ->
    (forall i, In i items -> item_ok i) -> (exists x k, ns (o_dest ta) = AStrs (x :: k)) ->
    apply_all ns items = Ok ns' -> forall l, ~ In (Args l) items.
  Proof.
    intros Hta Ha. induction items as [|i items IH]; intros ns ns' Ht Hok He H l; [easy|].
    cbn [apply_all] in H.
    destruct (item_change ns i Ht (Hok i (or_introl eq_refl))) as [(d & c & n & HC & E & [U1 U2] & T)|[(o & v & e & _ & _ & E & _)|(l' & o & _ & _ & _ & _ & E)]];
      rewrite E in H; cbn [bindr] in H; try discriminate.
    destruct arguments_option as (o & G & _ & _ & Un). rewrite <- (Un ta Hta Ha) in G.
    assert (Hne : d <> o_dest ta).
    { intros Ed. destruct (tests_only ta i d c Hta Ha (Hok i (or_introl eq_refl)) HC Ed) as (l' & -> & _).
      cbn [apply_item] in E. rewrite G in E. cbn [bindr] in E. destruct He as (x & k & He). rewrite He in E. discriminate. }
    intros [->|Hin].
    - assert (d = o_dest ta) by (inversion HC; subst; f_equal; rewrite (Un ta), (Un o0) by assumption; reflexivity). auto.
    - eapply IH; [exact T|intros; apply Hok; now right| |exact H|exact Hin]. rewrite U2 by auto. exact He.
  Qed.
  Lemma one_place_sound items : forall ns ns', typed ns -> (forall i, In i items -> item_ok i) ->
    apply_all ns items = Ok ns' -> one_place items.
  Proof.
    destruct arguments_option as (ta & G & Hta & Ha & Un).
    induction items as [|i items IH]; intros ns ns' Ht Hok H l1 a l2 b l3 E; [now destruct l1|].
    cbn [apply_all] in H.
    destruct (item_change ns i Ht (Hok i (or_introl eq_refl))) as [(d & c & n & HC & E' & [U1 U2] & T)|[(o & v & e & _ & _ & E' & _)|(l' & o & _ & _ & _ & _ & E')]];
      rewrite E' in H; cbn [bindr] in H; try discriminate.
    destruct l1 as [|x l1].
    - injection E as -> ->. assert (Hok' : forall i, In i (l2 ++ Args b :: l3) -> item_ok i) by (intros; apply Hok; now right).
      apply (args_none ta _ Hta Ha n ns' T Hok') with (l := b) in H; [apply H, in_or_app; right; now left|].
      inversion HC; subst. match goal with X : In ?o options |- _ => rewrite (Un o) in U1 by assumption end.
      rewrite U1. specialize (Hok (Args a) (or_introl eq_refl)). cbn in Hok.
      destruct (ns (o_dest ta)) as [| | | |k| |]; cbn [grown]; destruct a as [|x a]; try easy; eauto.
      destruct k; cbn; eauto.
    - injection E as -> ->. eapply IH; [exact T| |exact H|reflexivity]. intros; apply Hok; now right.
  Qed.
  (** The other direction, with pointwise equal namespaces. *)
  Lemma leads_complete items : forall ns ns1 ns', (forall d, ns1 d = ns d) -> typed ns1 -> (forall i, In i items -> item_ok i) ->
    one_place items -> (forall ta l, In ta options -> o_action ta = Arguments -> In (Args l) items -> is_empty (ns1 (o_dest ta)) = true) ->
    Leads ns items ns' -> exists ns2, apply_all ns1 items = Ok ns2 /\ forall d, ns2 d = ns' d.
  Proof.
    destruct arguments_option as (ta & G & Hta & Ha & Un).
    induction items as [|i items IH]; intros ns ns1 ns' Hp Ht Hok Hone He HL.
    - inversion HL; subst. exists ns1. split; [reflexivity|]. intros d. now rewrite Hp.
    - inversion HL as [|? ? ? d c n ? HC H1 H2 H3]; subst. cbn [apply_all].
      assert (Oki := Hok i (or_introl eq_refl)).
      destruct (item_change ns1 i Ht Oki) as [(d' & c' & n' & HC' & E & [U1 U2] & T)|[(o & v & e & -> & _ & _ & X)|(l & o & -> & Ho & Ho' & (x & k & Hx) & _)]].
      2:{ exfalso. eapply X. exact HC. }
      2:{ exfalso. assert (K := He o l Ho Ho' (or_introl eq_refl)). rewrite Hx in K. discriminate. }
      destruct (change_det _ _ _ _ _ Oki HC HC') as [<- <-]. rewrite E. cbn [bindr].
      apply (IH n n' ns'); auto.
      + intros k. destruct (str_eq_dec k d) as [->|Hk].
        * rewrite U1, H2. destruct c; [reflexivity|]. now rewrite Hp.
        * rewrite U2, H1 by exact Hk. apply Hp.
      + intros; apply Hok; now right.
      + intros l1 a l2 b l3 E'. apply (Hone (i :: l1) a l2 b l3). now rewrite E'.
      + intros ta' l Hta' Ha' Hin. rewrite (Un ta' Hta' Ha') in *. destruct (str_eq_dec (o_dest ta) d) as [Ed|Ed].
        * exfalso. destruct (tests_only ta i d c Hta Ha Oki HC (eq_sym Ed)) as (l' & -> & _).
          apply in_split in Hin as (m1 & m2 & ->). exact (Hone [] l' m1 l m2 eq_refl).
        * rewrite U2 by exact Ed. apply (He ta l Hta Ha). now right.
  Qed.

  (** The start. *)
  Lemma find_first {A} (p : A -> bool) l x : find p l = Some x ->
    exists l1 l2, l = l1 ++ x :: l2 /\ p x = true /\ forall y, In y l1 -> p y = false.
  Proof.
    induction l as [|y l IH]; cbn [find]; [discriminate|]. destruct (p y) eqn:E.
    - intros [= ->]. exists [], l. split; [reflexivity|]. split; [exact E|]. intros y [].
    - intros H. apply IH in H as (l1 & l2 & -> & H1 & H2). exists (y :: l1), l2. split; [reflexivity|].
      split; [exact H1|]. intros z [<-|Hz]; auto.
  Qed.
  Lemma initialize_starts : starts options (initialize options).
  Proof.
    intros d. unfold initialize. destruct (find _ options) as [o|] eqn:E.
    - left. apply find_first in E as (l1 & l2 & E & H1 & H2). apply str_eqb_eq in H1. exists o, l1, l2.
      split; [exact E|]. split; [auto|]. split; [reflexivity|]. intros o' Ho' Ed. apply H2 in Ho'.
      rewrite <- Ed, str_eqb_refl in Ho'. discriminate.
    - right. split; [reflexivity|]. intros o Ho Ed. eapply find_none in E; [|exact Ho]. rewrite <- Ed, str_eqb_refl in E. discriminate.
  Qed.
  Lemma starts_unique f g : starts options f -> starts options g -> forall d, f d = g d.
  Proof.
    intros Hf Hg d. destruct (Hf d) as [(o & l1 & l2 & E & H1 & H2 & H3)|[H2 H3]], (Hg d) as [(o' & k1 & k2 & E' & K1 & K2 & K3)|[K2 K3]].
    - assert (X : o = o').
      { assert (Y : l1 ++ o :: l2 = k1 ++ o' :: k2) by congruence. clear - Y H1 H3 K1 K3. revert k1 Y H3 K3.
        induction l1 as [|x l1 IH]; intros [|y k1] Y H3 K3.
        - now injection Y.
        - injection Y as -> _. exfalso. apply (K3 y (or_introl eq_refl)). exact H1.
        - injection Y as -> _. exfalso. apply (H3 o' (or_introl eq_refl)). exact K1.
        - injection Y as _ Y. eapply IH; [exact Y| |]; intros; [apply H3|apply K3]; now right. }
      subst. congruence.
    - exfalso. apply (K3 o); [rewrite E; apply in_or_app; right; now left|exact H1].
    - exfalso. apply (H3 o'); [rewrite E'; apply in_or_app; right; now left|exact K1].
    - congruence.
  Qed.
  Lemma starts_default ns o : starts options ns -> In o options -> grows o = true -> is_empty (ns (o_dest o)) = true.
  Proof.
    intros H Ho Hg. destruct (ok_grows o Ho Hg) as (K1 & _ & K2).
    destruct (H (o_dest o)) as [(o' & l1 & l2 & E & H1 & H2 & _)|[_ H3]]; [|exfalso; exact (H3 o Ho eq_refl)].
    rewrite H2. rewrite (K2 o'); [exact K1| |exact H1]. rewrite E. apply in_or_app. right. now left.
  Qed.
  Lemma starts_typed ns : starts options ns -> typed ns.
  Proof.
    intros H o Ho Hg. assert (E := starts_default ns o H Ho Hg). unfold is_list.
    destruct (ns (o_dest o)) as [| | | |[|]| |]; try discriminate; eauto.
  Qed.
  Notation parse_args := (parse_args max_cpu options).
  Lemma parse_sound argv ns : parse_args argv = Ok ns -> Means options convert argv ns.
  Proof.
    intros H. destruct (run_reads (weight argv) (initialize options) argv ns (le_n _) H) as (items & HR & HA).
    exists items, (initialize options). split; [exact HR|].
    assert (T := starts_typed _ initialize_starts). assert (Hok := reads_ok _ _ HR).
    split; [eapply one_place_sound; eauto|]. split; [apply initialize_starts|]. now apply leads_sound.
  Qed.
  Lemma parse_complete argv ns : Means options convert argv ns ->
    exists ns', parse_args argv = Ok ns' /\ forall d, ns' d = ns d.
  Proof.
    intros (items & start & HR & H1 & HS & HL).
    assert (Hok := reads_ok _ _ HR).
    destruct (leads_complete items start (initialize options) ns) as (ns2 & E & P); auto.
    - intros d. apply starts_unique; [apply initialize_starts|exact HS].
    - apply starts_typed, initialize_starts.
    - intros ta l Hta Ha _. apply starts_default; [apply initialize_starts|exact Hta|].
      apply in_grows. auto.
    - exists ns2. split; [|exact P]. change (parse_args argv) with (run (initialize options) argv).
      rewrite <- (app_nil_r argv). rewrite (reads_run _ _ HR); [|now right|exact I]. rewrite E. reflexivity.
  Qed.
  (** Errors. *)
  Lemma convert_err t v e : convert t v = Err e -> e = ArgumentErr \/ e = ValueError.
  Proof.
    destruct t; cbn [ArgsModel.convert]; try discriminate.
    - unfold type_jobs. destruct (py_int v) as [z|]; cbn [bindr]; [|intros [= <-]; auto].
      destruct (z <? 0)%Z; [intros [= <-]; auto|]. cbv zeta. cbn [bindr]. discriminate.
    - unfold type_ranges. intros H. right.
      assert (G : forall l, mapr type_range l = Err e -> e = ValueError).
      { induction l as [|x l IH]; cbn [mapr]; [discriminate|].
        destruct (type_range x) as [y|e'] eqn:E; cbn [bindr].
        - destruct (mapr type_range l); cbn [bindr] in *; [discriminate|]. intros [= ->]. auto.
        - intros [= ->]. unfold type_range in E. destruct (re_match _ _) as [[? cs]|]; [|congruence].
          destruct (group 1 cs); [discriminate|]. destruct (group 2 cs), (group 3 cs); congruence. }
      destruct (mapr type_range (type_list v)) eqn:E; cbn [bindr] in H; [discriminate|]. injection H as ->. eauto.
    - unfold type_slice. intros H. left. destruct (re_match _ _) as [[? cs]|]; [|cbn in H; congruence].
      destruct (group 1 cs), (group 2 cs), (group 3 cs), (group 4 cs); cbn in H; congruence.
  Qed.
  Lemma words_err w e : words w = Err e -> e = ArgumentErr.
  Proof.
    assert (U : forall arg, unbundle options arg = Err e -> e = ArgumentErr).
    { induction arg as [|c arg IH]; cbn [unbundle]; [discriminate|].
      destruct (get_option [45%N; c]) as [o|] eqn:G; cbn [bindr]; [|intros [= ->]; now apply get_option_err in G].
      destruct (takes_value o); [discriminate|]. destruct (unbundle options arg); cbn [bindr]; [discriminate|]. intros [= ->]. auto. }
    unfold words. cbv zeta. destruct (negb _ && _); [apply U|]. destruct (starts_with _ _); [|discriminate].
    destruct (split_eq w) as [[a b]|]; [|discriminate]. unfold parse_long.
    destruct (get_option a) as [o|] eqn:G; cbn [bindr]; [|intros [= ->]; now apply get_option_err in G].
    destruct (takes_value o); congruence.
  Qed.
  Lemma apply_typed ns i ns' : typed ns -> item_ok i -> apply_item ns i = Ok ns' -> typed ns'.
  Proof.
    intros Ht Hi H. destruct (item_change ns i Ht Hi) as [(d & c & n & HC & E & _ & T)|[(o & v & e & _ & _ & E & _)|(l' & o & _ & _ & _ & _ & E)]]; rewrite E in H; try discriminate.
    injection H as <-. exact T.
  Qed.
  Lemma apply_err ns i e : typed ns -> item_ok i -> apply_item ns i = Err e -> e = ArgumentErr \/ e = ValueError.
  Proof.
    intros Ht Hi H. destruct (item_change ns i Ht Hi) as [(d & c & n & HC & E & _ & T)|[(o & v & e' & _ & C & E & _)|(l' & o & _ & _ & _ & _ & E)]].
    - congruence.
    - apply convert_err in C. assert (e = e') by congruence. now subst.
    - left. congruence.
  Qed.
  (** An option in front of anything. *)
  Lemma parse_option_item ns o w argv : names o w ->
    parse_option ns w argv = Err ArgumentErr \/
    exists i argv', item_ok i /\ (exists p, argv = p ++ argv') /\
      parse_option ns w argv = do ns' <- apply_item ns i; Ok (ns', argv').
  Proof.
    intros Hn. unfold ArgsModel.parse_option. rewrite (proj2 (get_option_names _ _) Hn). cbn [bindr].
    assert (Ho : In o options) by apply Hn.
    destruct (o_action o) eqn:Ha.
    - right. exists (Flag o), argv. cbn [item_ok apply_item]. rewrite Ha. split; [auto|]. split; [now exists []|reflexivity].
    - right. exists (Flag o), argv. cbn [item_ok apply_item]. rewrite Ha. split; [auto|]. split; [now exists []|reflexivity].
    - destruct argv as [|v argv]; [now left|]. right. exists (Value o v), argv. cbn [item_ok apply_item]. rewrite Ha.
      split; [auto|]. split; [now exists [v]|]. destruct (convert _ _); [|reflexivity]. cbn [bindr].
      destruct (ns_append _ _ _); reflexivity.
    - destruct argv as [|v argv]; [now left|]. right. exists (Value o v), argv. cbn [item_ok apply_item]. rewrite Ha.
      split; [auto|]. split; [now exists [v]|]. destruct (convert _ _); reflexivity.
    - right. cbv zeta. destruct argv as [|v argv].
      + exists (Bare o), []. cbn [item_ok apply_item]. split; [auto|]. split; [now exists []|].
        destruct (match o_const o with AStr s => _ | _ => _ end); reflexivity.
      + destruct (dashed v) eqn:D.
        * exists (Bare o), (v :: argv). cbn [item_ok apply_item]. split; [auto|]. split; [now exists []|].
          destruct (match o_const o with AStr s => _ | _ => _ end); reflexivity.
        * exists (Value o v), argv. cbn [item_ok apply_item]. rewrite Ha. split; [auto|]. split; [now exists [v]|].
          destruct (convert _ _); reflexivity.
    - destruct argv as [|v argv]; [now left|]. right. exists (Rest o (v :: argv)), []. cbn [item_ok apply_item].
      split; [repeat split; easy|]. split; [exists (v :: argv); now rewrite app_nil_r|]. reflexivity.
    - now left.
  Qed.
  Lemma turn_err ns a argv : typed ns ->
    match turn ns a argv with Ok (ns', _) => typed ns' | Err e => e = ArgumentErr \/ e = ValueError end.
  Proof.
    intros Ht. destruct (dashed a) eqn:D.
    - apply dashed_iff in D. rewrite (turn_words _ _ _ D). destruct (words a) as [ws|e] eqn:W; cbn [bindr].
      + unfold first_word. destruct (words_weight _ _ W D) as [Wn _]. destruct ws as [|w ws]; [easy|]. cbn [app].
        destruct (get_option w) as [o|e] eqn:G.
        * apply get_option_names in G. destruct (parse_option_item ns o w (ws ++ argv) G) as [->|(i & argv' & Hi & _ & ->)]; [auto|].
          destruct (apply_item ns i) as [ns'|e] eqn:E; cbn [bindr]; [eapply apply_typed; eauto|eapply apply_err; eauto].
        * unfold ArgsModel.parse_option. rewrite G. cbn [bindr]. apply get_option_err in G. tauto.
      + apply words_err in W. auto.
    - unfold ArgsModel.turn. rewrite D. unfold parse_arguments.
      assert (TS := take_args_spec (a :: argv)).
      destruct (take_args (a :: argv)) as [x y] eqn:TA.
      assert (Hi : item_ok (Args x)).
      { cbn [take_args] in TA. rewrite D in TA. destruct (take_args argv). injection TA as <- <-. easy. }
      destruct arguments_option as (o & G & _). rewrite G. cbn [bindr]. fold (appends ns (o_dest o) x).
      assert (X := apply_typed ns (Args x)). assert (Y := apply_err ns (Args x)). cbn [apply_item] in X, Y. rewrite G in X, Y. cbn [bindr] in X, Y.
      destruct (ns (o_dest o)) as [| | | |[|]| |]; auto;
        (destruct (appends ns (o_dest o) x) as [n|e]; cbn [bindr]; [eapply X; eauto|eapply Y; eauto]).
  Qed.
  Lemma run_err n : forall ns argv e, weight argv <= n -> typed ns -> run ns argv = Err e -> e = ArgumentErr \/ e = ValueError.
  Proof.
    induction n as [|n IH]; intros ns argv e Hw Ht H.
    - destruct argv as [|a argv]; [discriminate|].
      assert (P := weight_pos a). change (a :: argv) with ([a] ++ argv) in Hw. rewrite weight_app in Hw. lia.
    - destruct argv as [|a argv]; [discriminate|]. rewrite run_cons in H. assert (T := turn_err ns a argv Ht).
      destruct (turn ns a argv) as [[ns1 argv1]|e'] eqn:E; cbn [bindr] in H.
      + apply turn_weight in E. apply (IH ns1 argv1); auto. lia.
      + injection H as <-. exact T.
  Qed.
  Lemma parse_err argv e : parse_args argv = Err e -> e = ArgumentErr \/ e = ValueError.
  Proof. intros H. eapply (run_err (weight argv)); [apply le_n|apply starts_typed, initialize_starts|exact H]. Qed.
End Proofs.
