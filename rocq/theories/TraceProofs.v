(** Proofs about the tests that are made (TraceModel). *)
From Coq Require Import List Bool NArith ZArith Lia Permutation Sorting.Sorted.
From Verif Require Import Py SortLib GrammarSpec ParserModel ParserProofs TraceModel TraceSpec.
Import ListNotations.

Lemma sort_by_fastest {A} (cost : A -> Z) l : FastestFirst cost l (sort_by cost l).
Proof.
  split; [apply isort_perm|]. split.
  - assert (H : StronglySorted (le (keyleb cost)) (sort_by cost l)).
    { apply isort_sorted; [apply keyleb_total|apply keyleb_trans]. }
    revert H. generalize (sort_by cost l) as r. induction r as [|x r IH]; intros H; constructor.
    + apply IH. now inversion H.
    + inversion H; subst. eapply Forall_impl; [|eassumption].
      intros a. unfold le, keyleb. now rewrite Z.leb_le.
  - intros c. destruct (existsb (fun a => Z.eqb (cost a) c) l) eqn:E.
    + apply existsb_exists in E as (a & _ & Ha). apply Z.eqb_eq in Ha.
      assert (X : forall m, filter (fun b => Z.eqb (cost b) c) m = filter (equivb (keyleb cost) a) m).
      { intros m. apply filter_ext. intros b. unfold equivb, keyleb. subst c.
        destruct (Z.eqb_spec (cost b) (cost a)) as [K|K].
        - rewrite K, !Z.leb_refl. reflexivity.
        - symmetry. apply andb_false_iff. rewrite !Z.leb_gt. lia. }
      rewrite !X. apply isort_stable; [apply keyleb_total|apply keyleb_trans].
    + assert (X : forall m, (forall x, In x m -> In x l) -> filter (fun b => Z.eqb (cost b) c) m = []).
      { intros m Hm. induction m as [|b m IH]; [reflexivity|]. cbn.
        destruct (Z.eqb (cost b) c) eqn:F; [|apply IH; intros; apply Hm; now right].
        assert (Y : existsb (fun a => Z.eqb (cost a) c) l = true).
        { apply existsb_exists. exists b. split; [apply Hm; now left|assumption]. }
        congruence. }
      rewrite !X; auto. intros x Hx. now apply isort_in in Hx.
Qed.

Section Made.
  Context {T : Type} (pt : str -> res T) (score : T -> Z) (run : T -> outcome).
  Notation eval := (eval run).
  Notation made := (eval_made run).
  Notation key := (get_speed_score score).
  Notation opt := (optimize_node score).

  Fixpoint all_m (l : list (node T)) : list T * res bool :=
    match l with
    | [] => ([], Ok true)
    | x :: r =>
        let (m, b) := made x in
        match b with
        | Ok true => let (m', b') := all_m r in (m ++ m', b')
        | _ => (m, b)
        end
    end.
  Fixpoint any_m (l : list (node T)) : list T * res bool :=
    match l with
    | [] => ([], Ok false)
    | x :: r =>
        let (m, b) := made x in
        match b with
        | Ok false => let (m', b') := any_m r in (m ++ m', b')
        | _ => (m, b)
        end
    end.
  Lemma made_and l : made (Sub KAnd l) = all_m l.
  Proof. reflexivity. Qed.
  Lemma made_or l : made (Sub KOr l) = any_m l.
  Proof.
    change (made (Sub KOr l)) with (let (m, b) := any_m l in (m, do b <- b; Ok b)).
    destruct (any_m l) as [m [b|e]]; reflexivity.
  Qed.
  Lemma any_m_one n : any_m [n] = let (m, b) := made n in match b with Ok false => (m ++ [], Ok false) | _ => (m, b) end.
  Proof. reflexivity. Qed.
  Lemma made_not l : made (Sub KNot l) = let (m, b) := any_m l in (m, do b <- b; Ok (negb b)).
  Proof. reflexivity. Qed.

  (** The log does not change the result. *)
  Lemma made_all_snd l : Forall (fun n => snd (made n) = eval n) l -> snd (all_m l) = all_l run l.
  Proof.
    induction l as [|x r IH]; intros H; [reflexivity|]. inversion H; subst. cbn [all_m all_l].
    rewrite <- H2. destruct (made x) as [m [[]|e]]; cbn [snd bindr]; try reflexivity.
    rewrite <- IH by assumption. now destruct (all_m r).
  Qed.
  Lemma made_any_snd l : Forall (fun n => snd (made n) = eval n) l -> snd (any_m l) = any_l run l.
  Proof.
    induction l as [|x r IH]; intros H; [reflexivity|]. inversion H; subst. cbn [any_m any_l].
    rewrite <- H2. destruct (made x) as [m [[]|e]]; cbn [snd bindr]; try reflexivity.
    rewrite <- IH by assumption. now destruct (any_m r).
  Qed.
  Lemma made_snd n : snd (made n) = eval n.
  Proof.
    induction n as [t|k l IH] using node_ind'; [reflexivity|]. destruct k.
    - rewrite made_and, eval_and. now apply made_all_snd.
    - rewrite made_or, eval_or. now apply made_any_snd.
    - rewrite made_not, eval_not, <- made_any_snd by assumption. now destruct (any_m l).
  Qed.
  Lemma all_m_snd l : snd (all_m l) = all_l run l.
  Proof. apply made_all_snd. apply Forall_forall. intros. apply made_snd. Qed.
  Lemma any_m_snd l : snd (any_m l) = any_l run l.
  Proof. apply made_any_snd. apply Forall_forall. intros. apply made_snd. Qed.

  Lemma matcher_same ts : matcher pt score run ts = do p <- matcher_made pt score run ts; snd p.
  Proof.
    unfold matcher, matcher_made. destruct (parse pt ts) as [seq|]; [|reflexivity]. cbn [bindr].
    destruct (is_empty _); [reflexivity|]. symmetry. apply made_snd.
  Qed.
  Lemma exclude_snd l : snd (exclude_made run l) = exclude_loop run l.
  Proof.
    induction l as [|[t|k l'] r IH]; [reflexivity| |reflexivity]. cbn.
    destruct (run t) as [[]| |e]; try reflexivity; rewrite <- IH; now destruct (exclude_made run r).
  Qed.
  Lemma excluder_same ts : excluder pt score run ts = do p <- excluder_made pt score run ts; snd p.
  Proof.
    unfold excluder, excluder_made. destruct (parse pt ts) as [seq|]; [|reflexivity]. cbn [bindr].
    destruct (is_empty _); [reflexivity|]. symmetry. apply exclude_snd.
  Qed.

  (** ** The leaves of a tree *)
  Fixpoint leaves (n : node T) : list T :=
    match n with Leaf t => [t] | Sub _ l => flat_map leaves l end.

  Lemma made_leaves n : exists rest, Permutation (leaves n) (fst (made n) ++ rest).
  Proof.
    induction n as [t|k l IH] using node_ind'.
    - exists []. reflexivity.
    - assert (A : exists rest, Permutation (flat_map leaves l) (fst (all_m l) ++ rest)).
      { induction IH as [|x r [rest H] IH [rest' IH']]; [now exists []|]. cbn [all_m flat_map].
        destruct (made x) as [m b]. cbn [fst] in H.
        destruct b as [[]|e]; cbn [fst];
          [|exists (rest ++ flat_map leaves r); rewrite H, <- app_assoc; reflexivity
           |exists (rest ++ flat_map leaves r); rewrite H, <- app_assoc; reflexivity].
        destruct (all_m r) as [m' b']. cbn [fst] in *. exists (rest ++ rest').
        rewrite H, IH'. rewrite <- !app_assoc. apply Permutation_app_head. rewrite !app_assoc.
        apply Permutation_app_tail, Permutation_app_comm. }
      assert (B : exists rest, Permutation (flat_map leaves l) (fst (any_m l) ++ rest)).
      { clear A. induction IH as [|x r [rest H] IH [rest' IH']]; [now exists []|]. cbn [any_m flat_map].
        destruct (made x) as [m b]. cbn [fst] in H.
        destruct b as [[]|e]; cbn [fst];
          [exists (rest ++ flat_map leaves r); rewrite H, <- app_assoc; reflexivity|
           |exists (rest ++ flat_map leaves r); rewrite H, <- app_assoc; reflexivity].
        destruct (any_m r) as [m' b']. cbn [fst] in *. exists (rest ++ rest').
        rewrite H, IH'. rewrite <- !app_assoc. apply Permutation_app_head. rewrite !app_assoc.
        apply Permutation_app_tail, Permutation_app_comm. }
      cbn [leaves]. destruct k; [rewrite made_and; exact A|rewrite made_or; exact B|rewrite made_not].
      destruct (any_m l); exact B.
  Qed.
  Lemma made_in n x : In x (fst (made n)) -> In x (leaves n).
  Proof.
    intros H. destruct (made_leaves n) as [rest P]. eapply Permutation_in; [symmetry; exact P|].
    apply in_or_app. now left.
  Qed.
  Lemma flat_map_perm {A B} (f : A -> list B) a b : Permutation a b -> Permutation (flat_map f a) (flat_map f b).
  Proof.
    induction 1; cbn; [constructor|now apply Permutation_app_head| |etransitivity; eassumption].
    rewrite !app_assoc. apply Permutation_app_tail, Permutation_app_comm.
  Qed.
  Lemma opt_leaves n : Permutation (leaves (opt n)) (leaves n).
  Proof.
    induction n as [t|k l IH] using node_ind'; [reflexivity|]. cbn [optimize_node leaves].
    transitivity (flat_map leaves (map opt l)).
    - apply flat_map_perm. symmetry. apply isort_perm.
    - induction IH as [|x r H _ IH]; [reflexivity|]. cbn. now apply Permutation_app.
  Qed.
  Lemma optimize_leaves l : Permutation (flat_map leaves (optimize score l)) (flat_map leaves l).
  Proof. exact (opt_leaves (Sub KOr l)). Qed.
  Lemma key_leaves n : key n = fold_right Z.add 0%Z (map score (leaves n)).
  Proof.
    induction n as [t|k l IH] using node_ind'; [cbn; lia|]. cbn [get_speed_score leaves].
    induction IH as [|x r H _ IH]; [reflexivity|]. cbn. rewrite IH, H, map_app.
    generalize (map score (leaves x)). generalize (map score (flat_map leaves r)).
    intros b a. induction a as [|c a IHa]; cbn; [reflexivity|]. rewrite <- IHa. lia.
  Qed.

  (** ** Trees and expressions *)
  Notation parses := (fun t x => pt t = Ok x).
  Lemma rel_leaves P :
    (forall e n, rel pt P e n -> Forall2 parses (tests_of e) (leaves n)) /\
    (forall es ns, rels pt P es ns -> Forall2 parses (flat_map tests_of es) (flat_map leaves ns)) /\
    (forall ess nss, relss pt P ess nss ->
       Forall2 parses (flat_map (flat_map tests_of) ess) (flat_map leaves (map (Sub KAnd) nss))).
  Proof.
    apply rel_mutind; intros; cbn; try assumption; try constructor; try assumption; try constructor;
      try (apply Forall2_app; assumption).
  Qed.
End Made.

Lemma testsin_app a b c d : TestsIn a b -> TestsIn c d -> TestsIn (a ++ c) (b ++ d).
Proof. intros H K. induction H; cbn; [assumption|now constructor|now constructor]. Qed.
Lemma testsin_one t : is_test t -> TestsIn [t] [t].
Proof. intros. repeat constructor; assumption || apply H. Qed.
Lemma testsin_skip t ts us : ~ is_test t -> TestsIn ts us -> TestsIn (t :: ts) us.
Proof. now constructor. Qed.
Scheme Op_mind := Minimality for Operand Sort Prop
  with Run_mind := Minimality for Run Sort Prop
  with Alts_mind := Minimality for Alts Sort Prop.
Combined Scheme grammar_mutind from Op_mind, Run_mind, Alts_mind.
Lemma testsin_grammar ok :
  (forall ts e, Operand ok ts e -> TestsIn ts (tests_of e)) /\
  (forall ts es, Run ok ts es -> TestsIn ts (flat_map tests_of es)) /\
  (forall ts ess, Alts ok ts ess -> TestsIn ts (flat_map (flat_map tests_of) ess)).
Proof.
  assert (O : forall t, is_open t -> ~ is_test t) by (unfold is_test; tauto).
  assert (C : forall t, is_close t -> ~ is_test t) by (unfold is_test; tauto).
  assert (A : forall t, is_AND t -> ~ is_test t) by (unfold is_test; tauto).
  assert (R : forall t, is_OR t -> ~ is_test t) by (unfold is_test; tauto).
  assert (N : forall t, is_NOT t -> ~ is_test t) by (unfold is_test; tauto).
  apply grammar_mutind; intros; cbn [tests_of flat_map app]; rewrite ?app_nil_r.
  - now apply testsin_one.
  - apply testsin_skip; [now apply N|]. now apply testsin_one.
  - apply testsin_skip; [now apply O|]. rewrite <- (app_nil_r (flat_map _ _)).
    apply testsin_app; [assumption|]. apply testsin_skip; [now apply C|constructor].
  - apply testsin_skip; [now apply N|]. apply testsin_skip; [now apply O|]. rewrite <- (app_nil_r (flat_map _ _)).
    apply testsin_app; [assumption|]. apply testsin_skip; [now apply C|constructor].
  - constructor.
  - apply testsin_skip; [now apply A|assumption].
  - now apply testsin_app.
  - assumption.
  - apply testsin_app; [assumption|]. apply testsin_skip; [now apply R|assumption].
Qed.

(** ** Which tests are made *)
Lemma until_before {A} (stop : A -> Prop) (cost : A -> Z) l l' a b :
  Until stop l l' -> StronglySorted (fun a b => (cost a <= cost b)%Z) l ->
  In a l -> In b l' -> (cost a < cost b)%Z -> In a l' /\ ~ stop a.
Proof.
  induction 1 as [|c l H|c l l' H U IH]; intros S Ha Hb L.
  - destruct Hb.
  - destruct Hb as [<-|[]]. inversion S; subst. destruct Ha as [->|Ha]; [lia|].
    rewrite Forall_forall in H3. specialize (H3 a Ha). cbn in H3. lia.
  - inversion S; subst. destruct Ha as [->|Ha].
    + split; [now left|assumption].
    + destruct Hb as [<-|Hb].
      * rewrite Forall_forall in H3. specialize (H3 a Ha). cbn in H3. lia.
      * destruct (IH H2 Ha Hb L). split; [now right|assumption].
Qed.
Lemma sort_rel {A B} (R : A -> B -> Prop) (f : A -> Z) (g : B -> Z) l m :
  (forall a b, R a b -> f a = g b) -> Forall2 R l m -> Forall2 R (sort_by f l) (sort_by g m).
Proof.
  intros E F. unfold sort_by. induction F as [|a b l m H F IH]; [constructor|]. cbn [isort].
  induction IH as [|c d l' m' K IH' IHI]; [now repeat constructor|]. cbn [insert].
  assert (X : keyleb f a c = keyleb g b d) by (unfold keyleb; now rewrite (E _ _ H), (E _ _ K)).
  rewrite X. destruct (keyleb g b d).
  - constructor; [assumption|]. now constructor.
  - now constructor.
Qed.

Lemma sort_one {A} (f : A -> Z) a : sort_by f [a] = [a].
Proof. reflexivity. Qed.
Lemma ok_inj {A} (a b : A) : Ok a = Ok b -> a = b.
Proof. congruence. Qed.

Section Which.
  Context {T : Type} (pt : str -> res T) (score : T -> Z) (run : T -> outcome).
  Notation eval := (eval run).
  Notation made := (eval_made run).
  Notation key := (get_speed_score score).
  Notation opt := (optimize_node score).
  Notation parses := (fun t x => pt t = Ok x).

  Lemma made_once ts m r : matcher_made pt score run ts = Ok (m, r) ->
    exists us xs rest, TestsIn ts us /\ Forall2 parses us xs /\ Permutation xs (m ++ rest).
  Proof.
    unfold matcher_made. destruct (parse pt ts) as [seq|] eqn:E; [|discriminate]. cbn [bindr].
    apply parse_sound in E as (ess & nss & [A _] & R & ->). intros K. apply ok_inj in K.
    exists (flat_map (flat_map tests_of) ess), (flat_map leaves (map (Sub KAnd) nss)).
    apply (proj2 (proj2 (testsin_grammar _))) in A. apply rel_leaves in R.
    destruct (is_empty _).
    - injection K as <- <-. exists (flat_map leaves (map (Sub KAnd) nss)). auto.
    - destruct (made_leaves run (Sub KOr (optimize score (map (Sub KAnd) nss)))) as [rest P].
      rewrite K in P. exists rest. repeat split; try assumption. rewrite <- P. symmetry.
      apply optimize_leaves.
  Qed.
  Lemma excluded_once ts m r : excluder_made pt score run ts = Ok (m, r) ->
    exists us xs rest, TestsIn ts us /\ Forall2 parses us xs /\ Permutation xs (m ++ rest).
  Proof.
    unfold excluder_made. destruct (parse pt ts) as [seq|] eqn:E; [|discriminate]. cbn [bindr].
    apply parse_sound in E as (ess & nss & [A _] & R & ->). intros K. apply ok_inj in K.
    exists (flat_map (flat_map tests_of) ess), (flat_map leaves (map (Sub KAnd) nss)).
    apply (proj2 (proj2 (testsin_grammar _))) in A. apply rel_leaves in R.
    assert (X : forall l : list (node T), exists rest,
               Permutation (flat_map leaves l) (fst (exclude_made run l) ++ rest)).
    { induction l as [|[x|k l'] r' [rest IH]]; [now exists []| |].
      - cbn. destruct (run x) as [[]| |e]; cbn.
        + eexists. reflexivity.
        + destruct (exclude_made run r') as [m' b]. exists rest. cbn. now rewrite IH.
        + destruct (exclude_made run r') as [m' b]. exists rest. cbn. now rewrite IH.
        + eexists. reflexivity.
      - exists (flat_map leaves (Sub k l' :: r')). reflexivity. }
    destruct (is_empty _).
    - injection K as <- <-. exists (flat_map leaves (map (Sub KAnd) nss)). auto.
    - destruct (X (flat (optimize score (map (Sub KAnd) nss)))) as [rest P].
      rewrite K in P. exists rest. repeat split; try assumption. rewrite <- P. symmetry.
      transitivity (flat_map leaves (optimize score (map (Sub KAnd) nss))); [|apply optimize_leaves].
      rewrite optimize_sort_first.
      assert (Y : Forall (fun n => exists l, n = Sub KAnd l) (sort_by key (map (Sub (T := T) KAnd) nss))).
      { apply Forall_forall. intros n Hn. apply isort_in, in_map_iff in Hn as (l & <- & _). eauto. }
      revert Y. generalize (sort_by key (map (Sub KAnd) nss)) as l.
      induction 1 as [|n l [l' ->] _ IH]; [reflexivity|]. unfold flat in *. cbn [map flat_map optimize_node].
      rewrite flat_map_app. cbn [leaves]. now apply Permutation_app_head.
  Qed.

  Lemma made_leaves_until s : Until (fun x => run x <> Val true) s (fst (all_m run (map Leaf s))).
  Proof.
    induction s as [|x s IH]; [constructor|]. cbn.
    destruct (run x) as [[]| |e] eqn:E; cbn; try (constructor; rewrite E; discriminate).
    destruct (all_m run (map Leaf s)). cbn in *. constructor; [|assumption]. rewrite E. tauto.
  Qed.
  Lemma made_conjunction ts xs : Forall is_test ts -> Forall2 parses ts xs ->
    exists s m r, matcher_made pt score run ts = Ok (m, r) /\ FastestFirst score xs s /\
      Until (fun x => run x <> Val true) s m.
  Proof.
    intros H F. exists (sort_by score xs). unfold matcher_made. rewrite (parse_tests pt ts xs) by assumption.
    cbn [bindr]. destruct (is_empty _) eqn:E.
    - rewrite is_empty_optimize in E. unfold is_empty, flat in E. cbn [flat_map] in E.
      rewrite app_nil_r in E. destruct xs; [|discriminate].
      exists [], (Ok true). split; [reflexivity|]. split; [apply sort_by_fastest|constructor].
    - rewrite made_or. unfold optimize. cbn [map optimize_node].
      rewrite map_opt_leaves, sort_by_leaves, sort_one.
      rewrite any_m_one, made_and. pose proof (made_leaves_until (sort_by score xs)) as U.
      destruct (all_m run (map Leaf (sort_by score xs))) as [m b]. cbn [fst] in U.
      destruct b as [[]|e]; rewrite ?app_nil_r; eexists m, _;
        (split; [reflexivity|split; [apply sort_by_fastest|exact U]]).
  Qed.
  Lemma made_fast_first ts xs m r x y : Forall is_test ts -> Forall2 parses ts xs ->
    matcher_made pt score run ts = Ok (m, r) ->
    In x m -> In y xs -> (score y < score x)%Z -> In y m /\ run y = Val true.
  Proof.
    intros H F E Hx Hy L. destruct (made_conjunction ts xs H F) as (s & m' & r' & E' & (P & S & _) & U).
    rewrite E in E'. injection E' as <- <-.
    destruct (until_before _ score _ _ y x U S) as [I K]; try assumption.
    - eapply Permutation_in; eassumption.
    - split; [assumption|]. destruct (run y) as [[]| |e]; try reflexivity; exfalso; apply K; discriminate.
  Qed.

  Lemma excluded_until s :
    Until (fun x => run x = Val true \/ exists e, run x = Raise e) s (fst (exclude_made run (map Leaf s))).
  Proof.
    induction s as [|x s IH]; [constructor|]. cbn.
    destruct (run x) as [[]| |e] eqn:E; cbn.
    - constructor. now left.
    - destruct (exclude_made run (map Leaf s)). cbn in *. constructor; [|assumption].
      rewrite E. intros [K|[e K]]; discriminate.
    - destruct (exclude_made run (map Leaf s)). cbn in *. constructor; [|assumption].
      rewrite E. intros [K|[e K]]; discriminate.
    - constructor. right. eauto.
  Qed.
  Lemma excluded_first ts xs : Forall is_test ts -> Forall2 parses ts xs ->
    exists s m r, excluder_made pt score run ts = Ok (m, r) /\ FastestFirst score xs s /\
      Until (fun x => run x = Val true \/ exists e, run x = Raise e) s m.
  Proof.
    intros H F. exists (sort_by score xs). unfold excluder_made. rewrite (parse_tests pt ts xs) by assumption.
    cbn [bindr]. destruct (is_empty _) eqn:E.
    - rewrite is_empty_optimize in E. unfold is_empty, flat in E. cbn [flat_map] in E.
      rewrite app_nil_r in E. destruct xs; [|discriminate].
      exists [], (Ok false). split; [reflexivity|]. split; [apply sort_by_fastest|constructor].
    - unfold optimize. cbn [map optimize_node].
      rewrite map_opt_leaves, sort_by_leaves, sort_one.
      unfold flat. cbn [flat_map]. rewrite app_nil_r.
      pose proof (excluded_until (sort_by score xs)) as U.
      destruct (exclude_made run (map Leaf (sort_by score xs))) as [m b]. cbn [fst] in U.
      exists m, b. split; [reflexivity|]. split; [apply sort_by_fastest|exact U].
  Qed.

  (** ** Expressions with brackets *)
  Variable v : str -> bool.
  Variable cost : str -> Z.
  Definition known ts :=
    forall t, In t ts -> is_test t -> exists x, pt t = Ok x /\ truth (run x) (v t) /\ score x = cost t.
  Definition belongs (us : list str) (p : list T) : Prop :=
    forall x, In x p -> exists t, In t us /\ pt t = Ok x.

  Lemma known_tests ts us : known ts -> TestsIn ts us ->
    forall t, In t us -> In t ts /\ is_test t.
  Proof.
    intros _ H. induction H as [|t ts us H I IH|t ts us H I IH]; intros w Hw; [destruct Hw| |].
    - destruct Hw as [<-|Hw]; [split; [now left|assumption]|]. apply IH in Hw as [? ?]. split; [now right|assumption].
    - apply IH in Hw as [? ?]. split; [now right|assumption].
  Qed.
  Lemma sum_cost ts us xs : known ts -> (forall t, In t us -> In t ts /\ is_test t) -> Forall2 parses us xs ->
    fold_right Z.add 0%Z (map score xs) = total cost us.
  Proof.
    intros K I F. unfold total. induction F as [|t x us xs H F IH]; [reflexivity|]. cbn.
    rewrite IH by (intros; apply I; now right). f_equal.
    destruct (I t (or_introl eq_refl)) as [I1 I2]. destruct (K t I1 I2) as (x' & E & _ & <-). congruence.
  Qed.
  Lemma belongs_leaves us n : Forall2 parses us (leaves n) -> belongs us (fst (made (opt n))).
  Proof.
    intros F x Hx. apply made_in in Hx. eapply Permutation_in in Hx; [|apply opt_leaves].
    induction F as [|t y us xs H F IH]; [destruct Hx|]. destruct Hx as [<-|Hx].
    - exists t. split; [now left|assumption].
    - destruct (IH Hx) as (t' & ? & ?). exists t'. split; [now right|assumption].
  Qed.
  Lemma eval_opt n : clean run n -> eval (opt n) = eval n.
  Proof. intros C. rewrite !eval_tv by auto using clean_opt. now rewrite tv_opt. Qed.

  (** An element of a sequence, what it stands for, and its node. *)
  Definition stands {E} (tests : E -> list str) (val : E -> bool) (e : E) (n : node T) : Prop :=
    clean run n /\ eval n = Ok (val e) /\ Forall2 parses (tests e) (leaves n).
  Lemma all_stands {E} (tests : E -> list str) (val : E -> bool) es ns :
    Forall2 (stands tests val) es ns ->
    exists before pieces, fst (all_m run (map opt ns)) = concat pieces /\
      Until (fun e => val e = false) es before /\
      Forall2 (fun e p => belongs (tests e) p) before pieces.
  Proof.
    induction 1 as [|e n es ns (C & V & L) F (before & pieces & IH1 & IH2 & IH3)].
    - exists [], []. repeat split; constructor.
    - pose proof (made_snd run (opt n)) as X. rewrite eval_opt, V in X by assumption.
      pose proof (belongs_leaves _ _ L) as B. cbn [map all_m].
      destruct (made (opt n)) as [m b]. cbn [fst snd] in *. subst b. destruct (val e) eqn:W.
      + destruct (all_m run (map opt ns)) as [m' b']. cbn [fst] in *. subst m'.
        exists (e :: before), (m :: pieces). split; [reflexivity|]. split.
        * constructor; [congruence|assumption].
        * now constructor.
      + exists [e], [m]. cbn [fst concat]. rewrite app_nil_r. split; [reflexivity|]. split.
        * now constructor.
        * constructor; [assumption|constructor].
  Qed.
  Lemma any_stands {E} (tests : E -> list str) (val : E -> bool) es ns :
    Forall2 (stands tests val) es ns ->
    exists before pieces, fst (any_m run (map opt ns)) = concat pieces /\
      Until (fun e => val e = true) es before /\
      Forall2 (fun e p => belongs (tests e) p) before pieces.
  Proof.
    induction 1 as [|e n es ns (C & V & L) F (before & pieces & IH1 & IH2 & IH3)].
    - exists [], []. repeat split; constructor.
    - pose proof (made_snd run (opt n)) as X. rewrite eval_opt, V in X by assumption.
      pose proof (belongs_leaves _ _ L) as B. cbn [map any_m].
      destruct (made (opt n)) as [m b]. cbn [fst snd] in *. subst b. destruct (val e) eqn:W.
      + exists [e], [m]. cbn [fst concat]. rewrite app_nil_r. split; [reflexivity|]. split.
        * now constructor.
        * constructor; [assumption|constructor].
      + destruct (any_m run (map opt ns)) as [m' b']. cbn [fst] in *. subst m'.
        exists (e :: before), (m :: pieces). split; [reflexivity|]. split.
        * constructor; [congruence|assumption].
        * now constructor.
  Qed.

  Lemma accepted_tree ts ess : Accepted ts ess -> known ts ->
    exists nss, relss pt (fun t => In t ts) ess nss /\ nss <> [] /\
      exists r, matcher_made pt score run ts = Ok (fst (any_m run (optimize score (map (Sub KAnd) nss))), r).
  Proof.
    intros [HA He] K.
    destruct (parse_complete pt last_nonempty) with (ts := ts) (ess := ess) as (nss & Hr & Hp); auto.
    { intros t Hin Ht. destruct (K t Hin Ht) as (x & Hx & _). eauto. }
    exists nss. split; [assumption|].
    assert (N : nss <> []).
    { intros ->. inversion Hr; subst. inversion HA. }
    split; [assumption|].
    unfold matcher_made. rewrite Hp. cbn [bindr]. rewrite made_or. destruct (is_empty _) eqn:E.
    - exists (Ok true). f_equal. f_equal. rewrite is_empty_optimize, flat_nil_iff in E.
      rewrite optimize_sort_first.
      assert (Y : Forall (fun n => n = Sub KAnd []) (sort_by key (map (Sub (T := T) KAnd) nss))).
      { apply Forall_forall. intros n Hn. apply isort_in, in_map_iff in Hn as (l & <- & Hl).
        rewrite forallb_forall in E. apply E in Hl. now destruct l. }
      destruct Y as [|n l -> _]; reflexivity.
    - destruct (any_m run (optimize score (map (Sub KAnd) nss))) as [m r]. now exists r.
  Qed.
  Lemma known_clean ts : known ts ->
    forall t x, In t ts -> is_test t -> pt t = Ok x -> forall e, run x <> Raise e.
  Proof.
    intros K t x I1 I2 E e. destruct (K t I1 I2) as (x' & E' & W & _).
    assert (x' = x) by congruence. subst x'. destruct W as [W|[W _]]; rewrite W; discriminate.
  Qed.
  Lemma known_truth ts : known ts ->
    forall t x, In t ts -> is_test t -> pt t = Ok x -> truth (run x) (v t).
  Proof.
    intros K t x I1 I2 E. destruct (K t I1 I2) as (x' & E' & W & _).
    assert (x' = x) by congruence. now subst x'.
  Qed.

  Lemma made_operands ts es : Accepted ts [es] -> known ts ->
    exists s before pieces r,
      matcher_made pt score run ts = Ok (concat pieces, r) /\
      FastestFirst (cost_of cost) es s /\
      Until (fun e => denote v e = false) s before /\
      Forall2 (fun e p => belongs (tests_of e) p) before pieces.
  Proof.
    intros HA K. destruct (accepted_tree ts [es] HA K) as (nss & Hr & _ & r & M).
    inversion Hr as [|es' ns ess' nss' H1 H2]; subst. inversion H2; subst. clear Hr H2.
    assert (I : forall t, In t (flat_map tests_of es) -> In t ts /\ is_test t).
    { destruct HA as [HA _]. apply (proj2 (proj2 (testsin_grammar _))) in HA. cbn [flat_map] in HA.
      rewrite app_nil_r in HA. now apply known_tests. }
    assert (F : Forall2 (fun e n => stands tests_of (denote v) e n /\ cost_of cost e = key n) es ns).
    { clear M HA. induction H1 as [|e n es ns R H1 IH]; [constructor|]. constructor.
      - pose proof (proj1 (rel_leaves pt (fun t => In t ts)) _ _ R) as L. split; [split; [|split]|].
        + exact (proj1 (rel_clean pt run _ (known_clean ts K)) _ _ R).
        + exact (proj1 (eval_rel run pt _ v (known_truth ts K)) _ _ R).
        + exact L.
        + rewrite key_leaves. symmetry. apply (sum_cost ts); try assumption.
          intros t Ht. apply I. cbn. apply in_or_app. now left.
      - apply IH. intros t Ht. apply I. cbn. apply in_or_app. now right. }
    apply (sort_rel _ (cost_of cost) key) in F; [|now intros a b [_ ?]].
    assert (F' : Forall2 (stands tests_of (denote v)) (sort_by (cost_of cost) es) (sort_by key ns)).
    { clear -F. induction F as [|a b l m [? _] F IH]; constructor; assumption. }
    apply all_stands in F' as (before & pieces & E & U & B).
    exists (sort_by (cost_of cost) es), before, pieces, r. split; [|split; [apply sort_by_fastest|split; assumption]].
    rewrite M. f_equal. f_equal. rewrite optimize_sort_first. cbn [map]. rewrite sort_one. cbn [map]. rewrite any_m_one.
    cbn [optimize_node]. rewrite made_and. pose proof (optimize_sort_first score ns) as O. unfold optimize in O. rewrite O, <- E.
    destruct (all_m run (map opt (sort_by key ns))) as [m [[]|e]]; cbn [fst]; now rewrite ?app_nil_r.
  Qed.

  Lemma made_alternatives ts ess : Accepted ts ess -> known ts ->
    exists s before pieces r,
      matcher_made pt score run ts = Ok (concat pieces, r) /\
      FastestFirst (cost_of_run cost) ess s /\
      Until (fun es => forallb (denote v) es = true) s before /\
      Forall2 (fun es p => belongs (flat_map tests_of es) p) before pieces.
  Proof.
    intros HA K. destruct (accepted_tree ts ess HA K) as (nss & Hr & _ & r & M).
    assert (I : forall t, In t (flat_map (flat_map tests_of) ess) -> In t ts /\ is_test t).
    { destruct HA as [HA _]. apply (proj2 (proj2 (testsin_grammar _))) in HA. now apply known_tests. }
    assert (F : Forall2 (fun es n => stands (flat_map tests_of) (forallb (denote v)) es n /\ cost_of_run cost es = key n)
                  ess (map (Sub KAnd) nss)).
    { clear M HA. induction Hr as [|es ns ess nss R Hr IH]; [constructor|]. cbn [map]. constructor.
      - pose proof (proj1 (proj2 (rel_leaves pt (fun t => In t ts))) _ _ R) as L. split; [split; [|split]|].
        + constructor. exact (proj1 (proj2 (rel_clean pt run _ (known_clean ts K))) _ _ R).
        + rewrite eval_and. exact (proj1 (proj2 (eval_rel run pt _ v (known_truth ts K))) _ _ R).
        + exact L.
        + rewrite key_leaves. symmetry. apply (sum_cost ts); try assumption.
          intros t Ht. apply I. cbn. apply in_or_app. now left.
      - apply IH. intros t Ht. apply I. cbn. apply in_or_app. now right. }
    apply (sort_rel _ (cost_of_run cost) key) in F; [|now intros a b [_ ?]].
    assert (F' : Forall2 (stands (flat_map tests_of) (forallb (denote v)))
                   (sort_by (cost_of_run cost) ess) (sort_by key (map (Sub KAnd) nss))).
    { clear -F. induction F as [|a b l m [? _] F IH]; constructor; assumption. }
    apply any_stands in F' as (before & pieces & E & U & B).
    exists (sort_by (cost_of_run cost) ess), before, pieces, r.
    split; [|split; [apply sort_by_fastest|split; assumption]].
    rewrite M. f_equal. f_equal. rewrite optimize_sort_first. exact E.
  Qed.

  Lemma total_pos us t : (forall t, 0 <= cost t)%Z -> In t us -> (cost t <= total cost us)%Z.
  Proof.
    intros C. unfold total. induction us as [|u us IH]; intros [].
    - subst u. cbn. enough (0 <= fold_right Z.add 0 (map cost us))%Z by lia. clear -C.
      induction us as [|u us IH]; cbn; [lia|]. specialize (C u). lia.
    - cbn. specialize (IH H). specialize (C u). lia.
  Qed.
  Lemma total_zero us : (forall t, In t us -> cost t = 0%Z) -> total cost us = 0%Z.
  Proof.
    intros H. unfold total. induction us as [|u us IH]; [reflexivity|]. cbn.
    rewrite H by now left. rewrite IH; [reflexivity|]. intros; apply H; now right.
  Qed.
  Lemma piece_of {E} (tests : E -> list str) before pieces x :
    Forall2 (fun e p => belongs (tests e) p) before pieces -> In x (concat pieces) ->
    exists e t, In e before /\ In t (tests e) /\ pt t = Ok x.
  Proof.
    induction 1 as [|e p before pieces B F IH]; intros Hx; [destruct Hx|]. cbn in Hx.
    apply in_app_or in Hx as [Hx|Hx].
    - destruct (B x Hx) as (t & ? & ?). exists e, t. repeat split; auto. now left.
    - destruct (IH Hx) as (e' & t & ? & ? & ?). exists e', t. repeat split; auto. now right.
  Qed.
  Lemma until_incl {A} (stop : A -> Prop) l l' a : Until stop l l' -> In a l' -> In a l.
  Proof.
    induction 1; intros H1; [assumption| |].
    - destruct H1 as [<-|[]]. now left.
    - destruct H1 as [<-|H1]; [now left|right; auto].
  Qed.
  Lemma made_fast ts es m r x : Accepted ts [es] -> known ts -> (forall t, 0 <= cost t)%Z ->
    matcher_made pt score run ts = Ok (m, r) -> In x m -> (0 < score x)%Z ->
    forall e, In e es -> (forall t, In t (tests_of e) -> cost t = 0%Z) -> denote v e = true.
  Proof.
    intros HA K C M Hx L e He Z0.
    destruct (made_operands ts es HA K) as (s & before & pieces & r' & M' & (P & S & _) & U & B).
    rewrite M in M'. injection M' as -> ->.
    destruct (piece_of _ _ _ _ B Hx) as (e' & t & I1 & I2 & I3).
    assert (I : In t ts /\ is_test t).
    { destruct HA as [HA _]. apply (proj2 (proj2 (testsin_grammar _))) in HA. cbn [flat_map] in HA.
      rewrite app_nil_r in HA. eapply known_tests; [exact K|exact HA|]. apply in_flat_map. exists e'.
      split; [|assumption]. eapply Permutation_in; [symmetry; exact P|]. eapply until_incl; eassumption. }
    destruct (K t (proj1 I) (proj2 I)) as (x' & E' & _ & E). assert (x' = x) by congruence. subst x'.
    assert (cost_of cost e < cost_of cost e')%Z.
    { unfold cost_of. rewrite (total_zero (tests_of e)) by assumption.
      pose proof (total_pos (tests_of e') t C I2). lia. }
    destruct (until_before _ (cost_of cost) _ _ e e' U S) as [_ N]; try assumption.
    - eapply Permutation_in; eassumption.
    - destruct (denote v e); [reflexivity|]. now contradiction N.
  Qed.
  Lemma made_fast_alternatives ts ess m r x : Accepted ts ess -> known ts -> (forall t, 0 <= cost t)%Z ->
    matcher_made pt score run ts = Ok (m, r) -> In x m -> (0 < score x)%Z ->
    forall es, In es ess -> (forall t, In t (flat_map tests_of es) -> cost t = 0%Z) -> forallb (denote v) es = false.
  Proof.
    intros HA K C M Hx L e He Z0.
    destruct (made_alternatives ts ess HA K) as (s & before & pieces & r' & M' & (P & S & _) & U & B).
    rewrite M in M'. injection M' as -> ->.
    destruct (piece_of _ _ _ _ B Hx) as (e' & t & I1 & I2 & I3).
    assert (I : In t ts /\ is_test t).
    { destruct HA as [HA _]. apply (proj2 (proj2 (testsin_grammar _))) in HA.
      eapply known_tests; [exact K|exact HA|]. apply in_flat_map. exists e'.
      split; [|assumption]. eapply Permutation_in; [symmetry; exact P|]. eapply until_incl; eassumption. }
    destruct (K t (proj1 I) (proj2 I)) as (x' & E' & _ & E). assert (x' = x) by congruence. subst x'.
    assert (cost_of_run cost e < cost_of_run cost e')%Z.
    { unfold cost_of_run. rewrite (total_zero (flat_map tests_of e)) by assumption.
      pose proof (total_pos (flat_map tests_of e') t C I2). lia. }
    destruct (until_before _ (cost_of_run cost) _ _ e e' U S) as [_ N]; try assumption.
    - eapply Permutation_in; eassumption.
    - destruct (forallb (denote v) e); [|reflexivity]. now contradiction N.
  Qed.
End Which.

(** ** With the speeds of the plugins *)
Section Speeds.
  Context {T A : Type} (pt : str -> res T) (attribute_of : T -> A) (speed_of : A -> speed) (run : T -> outcome).
  Notation score := (get_plugin_speed attribute_of speed_of).
  Definition token_cost (t : str) : Z := match pt t with Ok x => score x | Err _ => 0%Z end.
  Lemma speed_nonneg x : (0 <= score x)%Z.
  Proof. unfold get_plugin_speed. destruct (speed_of _); cbn; lia. Qed.
  Lemma token_cost_nonneg t : (0 <= token_cost t)%Z.
  Proof. unfold token_cost. destruct (pt t); [apply speed_nonneg|lia]. Qed.
  Lemma slower x : speed_of (attribute_of x) <> Fast -> (0 < score x)%Z.
  Proof. unfold get_plugin_speed. destruct (speed_of _); cbn; try lia. now intros []. Qed.
  Lemma known_speeds v ts :
    (forall t, In t ts -> is_test t -> exists x, pt t = Ok x /\ truth (run x) (v t)) ->
    known pt score run v token_cost ts.
  Proof.
    intros H t I1 I2. destruct (H t I1 I2) as (x & E & V). exists x. repeat split; try assumption.
    unfold token_cost. now rewrite E.
  Qed.
  Lemma fast_cost us : (forall t, In t us -> exists y, pt t = Ok y /\ speed_of (attribute_of y) = Fast) ->
    forall t, In t us -> token_cost t = 0%Z.
  Proof.
    intros H t Ht. destruct (H t Ht) as (y & E & F). unfold token_cost, get_plugin_speed. now rewrite E, F.
  Qed.
  Lemma fast_operands v ts es m r x :
    Accepted ts [es] ->
    (forall t, In t ts -> is_test t -> exists x, pt t = Ok x /\ truth (run x) (v t)) ->
    matcher_made pt score run ts = Ok (m, r) -> In x m -> speed_of (attribute_of x) <> Fast ->
    forall e, In e es ->
      (forall t, In t (tests_of e) -> exists y, pt t = Ok y /\ speed_of (attribute_of y) = Fast) ->
      denote v e = true.
  Proof.
    intros HA K M Hx S e He F.
    eapply (made_fast pt score run v token_cost); eauto using known_speeds, token_cost_nonneg, slower, fast_cost.
  Qed.
  Lemma fast_alternatives v ts ess m r x :
    Accepted ts ess ->
    (forall t, In t ts -> is_test t -> exists x, pt t = Ok x /\ truth (run x) (v t)) ->
    matcher_made pt score run ts = Ok (m, r) -> In x m -> speed_of (attribute_of x) <> Fast ->
    forall es, In es ess ->
      (forall t, In t (flat_map tests_of es) -> exists y, pt t = Ok y /\ speed_of (attribute_of y) = Fast) ->
      forallb (denote v) es = false.
  Proof.
    intros HA K M Hx S e He F.
    eapply (made_fast_alternatives pt score run v token_cost); eauto using known_speeds, token_cost_nonneg, slower, fast_cost.
  Qed.
End Speeds.

(** Three tests of a plugin of normal speed in brackets weigh more than one
    test of a slow plugin. *)
Definition w_speed (p : str) : speed :=
  if str_eqb p ($"file") then Fast else if str_eqb p ($"media") then Slow else Normal.
Definition w_plugin (t : str) : str := hd [] (split_on 46%N t).
Definition w_tokens : list str :=
  [$"("; $"elf.a"; $"or"; $"elf.b"; $"or"; $"elf.c"; $")"; $"media.d"; $"file.e"].
Definition w_group : bexp := BGroup false [[BTest ($"elf.a")]; [BTest ($"elf.b")]; [BTest ($"elf.c")]].
Definition w_operands : list bexp := [w_group; BTest ($"media.d"); BTest ($"file.e")].
(** Everything but the tests of the elf plugin is true. *)
Definition w_value (t : str) : bool := negb (str_eqb (w_plugin t) ($"elf")).
Definition w_run (t : str) : outcome := Val (w_value t).

Lemma w_test t : classify t = TTest -> is_test t.
Proof. intros H. pose proof (classify_spec t) as K. now rewrite H in K. Qed.
Lemma w_accepted : Accepted w_tokens [w_operands].
Proof.
  assert (OR : is_OR ($"or")) by (pose proof (classify_spec ($"or")) as K; exact K).
  assert (R : forall t ts es, classify t = TTest -> Run last_nonempty ts es -> Run last_nonempty (t :: ts) (BTest t :: es)).
  { intros t ts es H K. apply (Run_op _ [t]); [constructor; now apply w_test|assumption]. }
  split; [|now left]. constructor.
  apply (Run_op _ [$"("; $"elf.a"; $"or"; $"elf.b"; $"or"; $"elf.c"; $")"] w_group [$"media.d"; $"file.e"]).
  - apply (Op_group _ ($"(") [$"elf.a"; $"or"; $"elf.b"; $"or"; $"elf.c"] _ ($")")); [now left|now left| |discriminate].
    apply (Alts_or _ [$"elf.a"]); [apply R; [reflexivity|constructor]|exact OR|].
    apply (Alts_or _ [$"elf.b"]); [apply R; [reflexivity|constructor]|exact OR|].
    constructor. apply R; [reflexivity|constructor].
  - apply R; [reflexivity|]. apply R; [reflexivity|]. constructor.
Qed.
Lemma w_made : matcher_made (fun t => Ok t) (get_plugin_speed w_plugin w_speed) w_run w_tokens
  = Ok ([$"file.e"; $"media.d"; $"elf.a"; $"elf.b"; $"elf.c"], Ok false).
Proof. vm_compute. reflexivity. Qed.
Lemma slow_before_normal :
  ~ (forall (T A : Type) (pt : str -> res T) (attribute_of : T -> A) (speed_of : A -> speed) (run : T -> outcome)
        (v : str -> bool) ts es m r x,
      Accepted ts [es] ->
      (forall t, In t ts -> is_test t -> exists x, pt t = Ok x /\ truth (run x) (v t)) ->
      matcher_made pt (get_plugin_speed attribute_of speed_of) run ts = Ok (m, r) ->
      In x m -> speed_of (attribute_of x) = Slow ->
      forall e, In e es ->
        (forall t, In t (tests_of e) -> exists y, pt t = Ok y /\ speed_of (attribute_of y) <> Slow) ->
        denote v e = true).
Proof.
  intros H. specialize (H str str (fun t => Ok t) w_plugin w_speed w_run w_value w_tokens w_operands
    [$"file.e"; $"media.d"; $"elf.a"; $"elf.b"; $"elf.c"] (Ok false) ($"media.d") w_accepted).
  specialize (H (fun t _ _ => ex_intro _ t (conj eq_refl (or_introl eq_refl))) w_made).
  specialize (H (or_intror (or_introl eq_refl)) eq_refl w_group (or_introl eq_refl)).
  enough (denote w_value w_group = true) by discriminate. apply H.
  intros t [<-|[<-|[<-|[]]]]; eexists; split; try reflexivity; discriminate.
Qed.
