(** Property C121: which tests of an expression are made for an entry. *)
From Coq Require Import List Bool NArith ZArith Permutation Sorting.Sorted.
From Verif Require Import Py SortLib GrammarSpec ParserModel ParserProofs TraceModel TraceSpec TraceProofs.
Import ListNotations.

(** The model with the log has the result of the model without. *)
Theorem C121_same_result :
  forall (T : Type) (parse_test : str -> res T) (score : T -> Z) (run_test : T -> outcome) (ts : list str),
    matcher parse_test score run_test ts = (do p <- matcher_made parse_test score run_test ts; snd p) /\
    excluder parse_test score run_test ts = (do p <- excluder_made parse_test score run_test ts; snd p).
Proof. exact (fun T pt score run ts => conj (matcher_same pt score run ts) (excluder_same pt score run ts)). Qed.
Print Assumptions C121_same_result.

(** No test is made that is not in the expression, and none is made more often
    than it stands there. *)
Theorem C121_once :
  forall (T : Type) (parse_test : str -> res T) (score : T -> Z) (run_test : T -> outcome)
         (ts : list str) (made : list T) (r : res bool),
    matcher_made parse_test score run_test ts = Ok (made, r) \/
    excluder_made parse_test score run_test ts = Ok (made, r) ->
    exists us xs rest, TestsIn ts us /\ Forall2 (fun t x => parse_test t = Ok x) us xs /\
      Permutation xs (made ++ rest).
Proof.
  exact (fun T pt score run ts made r H =>
    match H with or_introl H => made_once pt score run ts made r H
               | or_intror H => excluded_once pt score run ts made r H end).
Qed.
Print Assumptions C121_once.

(** Tests in a row: the tests made are the tests from the fastest to the
    slowest, those of the same speed as written, up to the first that is not
    true. *)
Theorem C121_conjunction :
  forall (T : Type) (parse_test : str -> res T) (score : T -> Z) (run_test : T -> outcome)
         (ts : list str) (xs : list T),
    Forall is_test ts -> Forall2 (fun t x => parse_test t = Ok x) ts xs ->
    exists ordered made r,
      matcher_made parse_test score run_test ts = Ok (made, r) /\
      FastestFirst score xs ordered /\
      Until (fun x => run_test x <> Val true) ordered made.
Proof. exact @made_conjunction. Qed.
Print Assumptions C121_conjunction.

(** So a test is only made if all the faster ones were made and are true. *)
Theorem C121_fast_first :
  forall (T : Type) (parse_test : str -> res T) (score : T -> Z) (run_test : T -> outcome)
         (ts : list str) (xs made : list T) (r : res bool) (x y : T),
    Forall is_test ts -> Forall2 (fun t x => parse_test t = Ok x) ts xs ->
    matcher_made parse_test score run_test ts = Ok (made, r) ->
    In x made -> In y xs -> (score y < score x)%Z ->
    In y made /\ run_test y = Val true.
Proof. exact @made_fast_first. Qed.
Print Assumptions C121_fast_first.

(** The tests of -e: the same, up to the first that is true. *)
Theorem C121_exclude :
  forall (T : Type) (parse_test : str -> res T) (score : T -> Z) (run_test : T -> outcome)
         (ts : list str) (xs : list T),
    Forall is_test ts -> Forall2 (fun t x => parse_test t = Ok x) ts xs ->
    exists ordered made r,
      excluder_made parse_test score run_test ts = Ok (made, r) /\
      FastestFirst score xs ordered /\
      Until (fun x => run_test x = Val true \/ exists e, run_test x = Raise e) ordered made.
Proof. exact @excluded_first. Qed.
Print Assumptions C121_exclude.

(** Operands in a row, with brackets and NOT: the operands are taken from the
    cheapest to the dearest up to the first that is false, and no test of
    another operand is made. *)
Theorem C121_operands :
  forall (T : Type) (parse_test : str -> res T) (score : T -> Z) (run_test : T -> outcome)
         (v : str -> bool) (cost : str -> Z) (ts : list str) (es : list bexp),
    Accepted ts [es] ->
    (forall t, In t ts -> is_test t ->
       exists x, parse_test t = Ok x /\ truth (run_test x) (v t) /\ score x = cost t) ->
    exists ordered asked pieces r,
      matcher_made parse_test score run_test ts = Ok (concat pieces, r) /\
      FastestFirst (cost_of cost) es ordered /\
      Until (fun e => denote v e = false) ordered asked /\
      Forall2 (fun e made => forall x, In x made -> exists t, In t (tests_of e) /\ parse_test t = Ok x)
        asked pieces.
Proof. exact @made_operands. Qed.
Print Assumptions C121_operands.

(** Alternatives: from the cheapest to the dearest up to the first that is
    true. *)
Theorem C121_alternatives :
  forall (T : Type) (parse_test : str -> res T) (score : T -> Z) (run_test : T -> outcome)
         (v : str -> bool) (cost : str -> Z) (ts : list str) (ess : list (list bexp)),
    Accepted ts ess ->
    (forall t, In t ts -> is_test t ->
       exists x, parse_test t = Ok x /\ truth (run_test x) (v t) /\ score x = cost t) ->
    exists ordered asked pieces r,
      matcher_made parse_test score run_test ts = Ok (concat pieces, r) /\
      FastestFirst (cost_of_run cost) ess ordered /\
      Until (fun es => forallb (denote v) es = true) ordered asked /\
      Forall2 (fun es made => forall x, In x made ->
                 exists t, In t (flat_map tests_of es) /\ parse_test t = Ok x)
        asked pieces.
Proof. exact @made_alternatives. Qed.
Print Assumptions C121_alternatives.

(** A test of a plugin that is not fast is only made if every operand that
    consists of tests of fast plugins is true ... *)
Theorem C121_operands_partial :
  forall (T A : Type) (parse_test : str -> res T) (attribute_of : T -> A) (speed_of : A -> speed)
         (run_test : T -> outcome) (v : str -> bool) (ts : list str) (es : list bexp)
         (made : list T) (r : res bool) (x : T),
    Accepted ts [es] ->
    (forall t, In t ts -> is_test t -> exists x, parse_test t = Ok x /\ truth (run_test x) (v t)) ->
    matcher_made parse_test (get_plugin_speed attribute_of speed_of) run_test ts = Ok (made, r) ->
    In x made -> speed_of (attribute_of x) <> Fast ->
    forall e, In e es ->
      (forall t, In t (tests_of e) -> exists y, parse_test t = Ok y /\ speed_of (attribute_of y) = Fast) ->
      denote v e = true.
Proof. exact @fast_operands. Qed.
Print Assumptions C121_operands_partial.
(** ... and every alternative that consists of such tests is false. *)
Theorem C121_alternatives_partial :
  forall (T A : Type) (parse_test : str -> res T) (attribute_of : T -> A) (speed_of : A -> speed)
         (run_test : T -> outcome) (v : str -> bool) (ts : list str) (ess : list (list bexp))
         (made : list T) (r : res bool) (x : T),
    Accepted ts ess ->
    (forall t, In t ts -> is_test t -> exists x, parse_test t = Ok x /\ truth (run_test x) (v t)) ->
    matcher_made parse_test (get_plugin_speed attribute_of speed_of) run_test ts = Ok (made, r) ->
    In x made -> speed_of (attribute_of x) <> Fast ->
    forall es, In es ess ->
      (forall t, In t (flat_map tests_of es) -> exists y, parse_test t = Ok y /\ speed_of (attribute_of y) = Fast) ->
      forallb (denote v) es = false.
Proof. exact @fast_alternatives. Qed.
Print Assumptions C121_alternatives_partial.

(** It is not so that a test of a slow plugin is only made if every operand
    without such tests is true:  the cost of an operand in brackets is the sum
    of the costs of its tests, so three tests of normal speed come after one
    slow test. *)
Theorem C121_operands_refuted :
  ~ (forall (T A : Type) (parse_test : str -> res T) (attribute_of : T -> A) (speed_of : A -> speed)
        (run_test : T -> outcome) (v : str -> bool) (ts : list str) (es : list bexp)
        (made : list T) (r : res bool) (x : T),
      Accepted ts [es] ->
      (forall t, In t ts -> is_test t -> exists x, parse_test t = Ok x /\ truth (run_test x) (v t)) ->
      matcher_made parse_test (get_plugin_speed attribute_of speed_of) run_test ts = Ok (made, r) ->
      In x made -> speed_of (attribute_of x) = Slow ->
      forall e, In e es ->
        (forall t, In t (tests_of e) -> exists y, parse_test t = Ok y /\ speed_of (attribute_of y) <> Slow) ->
        denote v e = true).
Proof. exact slow_before_normal. Qed.
Print Assumptions C121_operands_refuted.

(** "( elf.a or elf.b or elf.c ) media.d file.e" with the tests of the elf
    plugin false and the others true: the order of the tests made. *)
Example C121_example :
  Accepted w_tokens [w_operands] /\
  (forall t, In t w_tokens -> is_test t -> exists x, Ok t = Ok x /\ truth (w_run x) (w_value t)) /\
  matcher_made (fun t => Ok t) (get_plugin_speed w_plugin w_speed) w_run w_tokens
    = Ok ([$"file.e"; $"media.d"; $"elf.a"; $"elf.b"; $"elf.c"], Ok false) /\
  denote w_value (BTest ($"file.e")) = true /\ w_speed (w_plugin ($"elf.a")) <> Fast.
Proof.
  split; [exact w_accepted|]. split; [intros t _ _; exists t; split; [reflexivity|now left]|].
  split; [exact w_made|]. split; [reflexivity|discriminate].
Qed.
(** "media.d file.e elf.f file.g" with elf.f false: media.d is not made; and
    the same with -e, which ends at file.e. *)
Definition ex_row : list str := [$"media.d"; $"file.e"; $"elf.f"; $"file.g"].
Example C121_row :
  Forall is_test ex_row /\ Forall2 (fun t x => Ok t = Ok x) ex_row ex_row /\
  matcher_made (fun t => Ok t) (get_plugin_speed w_plugin w_speed) w_run ex_row
    = Ok ([$"file.e"; $"file.g"; $"elf.f"], Ok false) /\
  excluder_made (fun t => Ok t) (get_plugin_speed w_plugin w_speed) w_run ex_row
    = Ok ([$"file.e"], Ok true) /\
  (get_plugin_speed w_plugin w_speed ($"file.e") < get_plugin_speed w_plugin w_speed ($"elf.f"))%Z.
Proof.
  split; [|split; [repeat constructor|vm_compute; auto]].
  repeat (constructor; [now apply w_test|]). constructor.
Qed.
(** "media.d or file.e": media.d is not made. *)
Example C121_or :
  (exists tree, parse (fun t => Ok t) [$"media.d"; $"or"; $"file.e"] = Ok tree) /\
  matcher_made (fun t => Ok t) (get_plugin_speed w_plugin w_speed) w_run [$"media.d"; $"or"; $"file.e"]
    = Ok ([$"file.e"], Ok true).
Proof. split; [eexists; vm_compute; reflexivity|vm_compute; reflexivity]. Qed.
