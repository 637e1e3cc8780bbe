(** Which tests are made: the evaluation of an expression with a log.

    [ParserModel.eval] says what the evaluation of the tests yields;  here the
    same walk also keeps the list of the Test objects whose attribute was asked
    of the registry (libff/filter.py:80 and 129), in the order of the calls.
    That call is what opens and reads a file, so the list is what
    OPTIMIZATIONS in libff/manpage.template:308-313 is about. *)
From Coq Require Import List Bool ZArith.
From Verif Require Import Py SortLib ParserModel.
Import ListNotations.

(** libff/plugin.py:31-38, class Speed. *)
Inductive speed := Fast | Normal | Slow.
Definition speed_value (s : speed) : Z :=
  match s with Fast => 0 | Normal => 1 | Slow => 2 end%Z.
(** libff/registry.py:300-303: the speed of the plugin that the attribute
    belongs to.  [attribute_of] reads Test.attribute, [speed_of] the class
    attribute [speed] of a registered plugin (libff/plugin.py:50). *)
Definition get_plugin_speed {T A : Type} (attribute_of : T -> A) (speed_of : A -> speed)
    (test : T) : Z := speed_value (speed_of (attribute_of test)).

Section Trace.
  Context {T : Type} (parse_test : str -> res T) (score : T -> Z) (run_test : T -> outcome).

  (** libff/filter.py:107-135, with the log of the tests made. *)
  Fixpoint eval_made (n : node T) : list T * res bool :=
    match n with
    | Leaf t =>
        ([t], match run_test t with
              | Val b => Ok b
              | Missing => Ok false
              | Raise e => Err e
              end)
    | Sub KAnd l =>
        (fix all (l : list (node T)) : list T * res bool :=
           match l with
           | [] => ([], Ok true)
           | x :: r =>
               let (m, b) := eval_made x in
               match b with
               | Ok true => let (m', b') := all r in (m ++ m', b')
               | _ => (m, b)
               end
           end) l
    | Sub k l =>
        let (m, b) :=
          (fix any (l : list (node T)) : list T * res bool :=
             match l with
             | [] => ([], Ok false)
             | x :: r =>
                 let (m, b) := eval_made x in
                 match b with
                 | Ok false => let (m', b') := any r in (m ++ m', b')
                 | _ => (m, b)
                 end
             end) l in
        (m, do b <- b; Ok (match k with KNot => negb b | _ => b end))
    end.

  (** Parser.__init__ (libff/parser.py:99-105) and Matcher.test
      (libff/filter.py:44-49, 98-111), with the log. *)
  Definition matcher_made (tokens : list str) : res (list T * res bool) :=
    do seq <- parse parse_test tokens;
    let seq := optimize score seq in
    Ok (if is_empty seq then ([], Ok true) else eval_made (Sub KOr seq)).

  (** Excluder.test (libff/filter.py:76-90), with the log. *)
  Fixpoint exclude_made (l : list (node T)) : list T * res bool :=
    match l with
    | [] => ([], Ok false)
    | Leaf t :: r =>
        match run_test t with
        | Val true => ([t], Ok true)
        | Raise e => ([t], Err e)
        | _ => let (m, b) := exclude_made r in (t :: m, b)
        end
    | Sub _ _ :: _ => ([], Err AttributeErr)
    end.
  Definition excluder_made (tokens : list str) : res (list T * res bool) :=
    do seq <- parse parse_test tokens;
    let seq := optimize score seq in
    Ok (if is_empty seq then ([], Ok false) else exclude_made (flat seq)).
End Trace.
