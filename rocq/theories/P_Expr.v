(** Properties C01-C05: test expressions, optimiser, missing attributes,
    exclusion. *)
From Coq Require Import List Bool NArith ZArith Permutation Sorting.Sorted.
From Verif Require Import Py SortLib GrammarSpec ParserModel ParserProofs.
Import ListNotations.

(** C01: every well-formed expression is accepted and an entry matches it iff
    the formula is true; [v] gives the truth value of each test on the entry
    ([truth]: the test evaluates to it, or the attribute is missing and the
    value is false).  The speed scores are arbitrary. *)
Theorem C01_expression_meaning :
  forall (T : Type) (parse_test : str -> res T) (score : T -> Z) (run_test : T -> outcome)
         (ts : list str) (ess : list (list bexp)) (v : str -> bool),
    Expression ts ess ->
    (forall t, In t ts -> is_test t -> exists x, parse_test t = Ok x /\ truth (run_test x) (v t)) ->
    matcher parse_test score run_test ts = Ok (denote_alts v ess).
Proof. exact @matcher_meaning. Qed.
Print Assumptions C01_expression_meaning.

(** The hypotheses are satisfiable: "a or not ( b and c )" with a false,
    b true, c false. *)
Definition ex_ts : list str := [$"a"; $"or"; $"NOT"; $"("; $"b"; $"AND"; $"c"; $"}}"].
Definition ex_ess : list (list bexp) :=
  [[BTest ($"a")]; [BGroup true [[BTest ($"b"); BTest ($"c")]]]].
Definition ex_v (t : str) : bool := str_eqb t ($"b").
Definition ex_run (t : str) : outcome := if str_eqb t ($"c") then Missing else Val (ex_v t).
Lemma ex_test (t : str) : classify t = TTest -> is_test t.
Proof. intros H. pose proof (classify_spec t) as K. now rewrite H in K. Qed.
Lemma ex_kw (t : str) : match classify t with TAnd => is_AND t | TOr => is_OR t | TNot => is_NOT t
  | TOpen => is_open t | TClose => is_close t | TTest => True end.
Proof. pose proof (classify_spec t) as K. destruct (classify t); auto. Qed.
Example C01_example :
  Expression ex_ts ex_ess /\ denote_alts ex_v ex_ess = true /\
  (forall t, In t ex_ts -> is_test t -> exists x, Ok t = Ok x /\ truth (ex_run x) (ex_v t)).
Proof.
  split; [|split; [reflexivity|]].
  - split; [|right; repeat constructor; discriminate].
    apply (Alts_or _ [$"a"] [BTest ($"a")] ($"or") [$"NOT"; $"("; $"b"; $"AND"; $"c"; $"}}"]).
    + apply (Run_op _ [$"a"] _ []); [constructor; now apply ex_test|constructor].
    + exact (ex_kw ($"or")).
    + apply Alts_one. apply (Run_op _ [$"NOT"; $"("; $"b"; $"AND"; $"c"; $"}}"] _ [] []); [|constructor].
      apply (Op_not_group _ ($"NOT") ($"(") [$"b"; $"AND"; $"c"] _ ($"}}")).
      * exact (ex_kw ($"NOT")).
      * exact (ex_kw ($"(")).
      * exact (ex_kw ($"}}")).
      * apply Alts_one. apply (Run_op _ [$"b"] _ [$"AND"; $"c"]); [constructor; now apply ex_test|].
        apply Run_and; [exact (ex_kw ($"AND"))|].
        apply (Run_op _ [$"c"] _ [] []); [constructor; now apply ex_test|constructor].
      * repeat constructor. discriminate.
  - intros t Hin _. exists t. split; [reflexivity|]. unfold truth, ex_run.
    destruct (str_eqb t ($"c")) eqn:E; [right|now left].
    apply str_eqb_eq in E. subst. split; reflexivity.
Qed.

(** C02, as stated, is false: "{{ or a }}" is accepted although the first
    operand of OR is missing ... *)
Theorem C02_malformed_rejected_refuted :
  exists ts : list str,
    (exists tree, parse (fun t => Ok t) ts = Ok tree) /\
    ~ (exists ess, Expression ts ess).
Proof. exact bracket_or_accepted. Qed.
Print Assumptions C02_malformed_rejected_refuted.

(** ... and it then matches every entry, whatever [a] is. *)
Theorem C02_malformed_matches_everything :
  forall (T : Type) (parse_test : str -> res T) score run_test x,
    parse_test ($"a") = Ok x -> (forall e, run_test x <> Raise e) ->
    matcher parse_test score run_test [$"{{"; $"or"; $"a"; $"}}"] = Ok true.
Proof. exact @bracket_or_matches. Qed.
Print Assumptions C02_malformed_matches_everything.

(** C02, partial: it holds for all token lists without brackets.  Missing:
    inside brackets only the last alternative is checked. *)
Theorem C02_malformed_rejected_partial :
  forall (T : Type) (parse_test : str -> res T) score run_test ts b,
    no_brackets ts ->
    matcher parse_test score run_test ts = Ok b ->
    exists ess, Expression ts ess.
Proof. exact @flat_accepted_wellformed. Qed.
Print Assumptions C02_malformed_rejected_partial.

(** The exact language accepted, brackets included, with its meaning: an
    expression is evaluated iff it is [Accepted], and then to its meaning. *)
Theorem C02_accepted_language :
  forall (T : Type) (parse_test : str -> res T) (score : T -> Z) (run_test : T -> outcome)
         (ts : list str) (v : str -> bool) (b : bool),
    (forall t, In t ts -> is_test t -> exists x, parse_test t = Ok x /\ truth (run_test x) (v t)) ->
    (matcher parse_test score run_test ts = Ok b <->
     exists ess, Accepted ts ess /\ denote_alts v ess = b).
Proof. exact @accepted_language. Qed.
Print Assumptions C02_accepted_language.

Example C02_example :
  no_brackets [$"a"; $"or"; $"not"; $"b"] /\
  matcher (fun t => Ok t) (fun _ => 0%Z) (fun _ => Val false) [$"a"; $"or"; $"not"; $"b"] = Ok true.
Proof.
  split; [|reflexivity]. repeat constructor; intros [H|H]; discriminate.
Qed.

(** C03: the verdict does not depend on the speed scores the optimiser sorts
    by, provided no test raises an exception. *)
Theorem C03_optimizer_preserves_result :
  forall (T : Type) (parse_test : str -> res T) (score score' : T -> Z) run_test ts,
    (forall t x, In t ts -> is_test t -> parse_test t = Ok x -> forall e, run_test x <> Raise e) ->
    matcher parse_test score run_test ts = matcher parse_test score' run_test ts.
Proof. exact @matcher_score_irrelevant. Qed.
Print Assumptions C03_optimizer_preserves_result.

(** The optimised sequence has the same value as the unoptimised one. *)
Theorem C03_optimized_equals_unoptimized :
  forall (T : Type) (score : T -> Z) run_test (seq : list (node T)),
    Forall (clean run_test) seq ->
    eval run_test (Sub KOr (optimize score seq)) = eval run_test (Sub KOr seq).
Proof. exact @eval_optimize. Qed.
Print Assumptions C03_optimized_equals_unoptimized.

(** Every sequence at every nesting level is ordered by cost. *)
Theorem C03_optimizer_sorts :
  forall (T : Type) (score : T -> Z) (seq : list (node T)),
    sorted_tree score (Sub KOr (optimize score seq)).
Proof. exact @optimize_sorted. Qed.
Print Assumptions C03_optimizer_sorts.

Example C03_example :
  let score := fun n : Z => n in
  optimize score [Sub KAnd [Leaf 2%Z; Sub KOr [Sub KAnd [Leaf 1%Z; Leaf 0%Z]]; Leaf 0%Z]; Sub KAnd [Leaf 1%Z]]
  = [Sub KAnd [Leaf 1%Z]; Sub KAnd [Leaf 0%Z; Sub KOr [Sub KAnd [Leaf 0%Z; Leaf 1%Z]]; Leaf 2%Z]].
Proof. reflexivity. Qed.

(** C04: treating every missing attribute as a false test gives the same
    verdict, also when other tests raise; the empty expression matches. *)
Theorem C04_missing_is_false :
  forall (T : Type) (parse_test : str -> res T) score (run_test run_test' : T -> outcome) ts,
    (forall x, run_test' x = match run_test x with Missing => Val false | o => o end) ->
    matcher parse_test score run_test ts = matcher parse_test score run_test' ts.
Proof. exact @matcher_missing. Qed.
Print Assumptions C04_missing_is_false.

Theorem C04_empty_matches_all :
  forall (T : Type) (parse_test : str -> res T) score run_test ts,
    Forall is_AND ts -> matcher parse_test score run_test ts = Ok true.
Proof. exact @empty_matches_all. Qed.
Print Assumptions C04_empty_matches_all.

Example C04_example :
  matcher (fun t => Ok t) (fun _ => 0%Z) (fun _ => Missing) [$"a"] = Ok false /\
  matcher (fun t => Ok t) (fun _ => 0%Z) (fun _ => Missing) [$"not"; $"a"] = Ok true.
Proof. split; reflexivity. Qed.

(** C05: exclusion is the union of the tests. *)
Theorem C05_exclude_union :
  forall (T : Type) (parse_test : str -> res T) score (run_test : T -> outcome) ts xs,
    Forall is_test ts -> Forall2 (fun t x => parse_test t = Ok x) ts xs ->
    (forall x, In x xs -> forall e, run_test x <> Raise e) ->
    exists b, excluder parse_test score run_test ts = Ok b /\
      (b = true <-> exists x, In x xs /\ run_test x = Val true).
Proof. exact @excluder_spec. Qed.
Print Assumptions C05_exclude_union.

Theorem C05_exclude_order_irrelevant :
  forall (T : Type) (parse_test : str -> res T) score (run_test : T -> outcome) ts ts' xs,
    Permutation ts ts' ->
    Forall is_test ts -> Forall2 (fun t x => parse_test t = Ok x) ts xs ->
    (forall x, In x xs -> forall e, run_test x <> Raise e) ->
    excluder parse_test score run_test ts = excluder parse_test score run_test ts'.
Proof. exact @excluder_perm. Qed.
Print Assumptions C05_exclude_order_irrelevant.

(** A -e option holding NOT crashes the search instead of being rejected. *)
Theorem C05_not_crashes :
  exists ts, forall (T : Type) (parse_test : str -> res T) score run_test x,
    parse_test ($"a") = Ok x ->
    excluder parse_test score run_test ts = Err AttributeErr.
Proof. exact excluder_not_crashes. Qed.
Print Assumptions C05_not_crashes.

Example C05_example :
  Forall is_test [$"a"; $"b"] /\
  excluder (fun t => Ok t) (fun _ => 0%Z) (fun t => if str_eqb t ($"b") then Val true else Missing)
    [$"a"; $"b"] = Ok true.
Proof. split; [repeat constructor; now apply ex_test|reflexivity]. Qed.
