(** Specification of ff's test expression language, independent of the
    parser: which token lists are expressions and what they mean.
    Source of the specification: libff/manpage.template, "Test expressions". *)
From Coq Require Import List Bool NArith.
From Verif Require Import Py.
Import ListNotations.

(** Keywords are recognised in any mixture of upper and lower case:
    [spelled W t] for an upper case word [W]. *)
Definition spelled (W t : str) : Prop :=
  Forall2 (fun w c => c = w \/ c = (w + 32)%N) W t.
Definition is_AND := spelled ($"AND").
Definition is_OR := spelled ($"OR").
Definition is_NOT := spelled ($"NOT").
Definition is_open (t : str) : Prop := t = $"(" \/ t = $"{{".
Definition is_close (t : str) : Prop := t = $")" \/ t = $"}}".
(** Every other token is a test. *)
Definition is_test (t : str) : Prop :=
  ~ is_open t /\ ~ is_close t /\ ~ is_AND t /\ ~ is_OR t /\ ~ is_NOT t.

(** Meaning of an expression: a test or a possibly negated group of
    alternatives, each of which is a conjunction. *)
Inductive bexp :=
| BTest (t : str)
| BGroup (negated : bool) (alternatives : list (list bexp)).

Fixpoint denote (v : str -> bool) (e : bexp) : bool :=
  match e with
  | BTest t => v t
  | BGroup n alts => xorb n (existsb (forallb (denote v)) alts)
  end.
Definition denote_alts (v : str -> bool) (alts : list (list bexp)) : bool :=
  existsb (forallb (denote v)) alts.

(** The tests occurring in an expression. *)
Fixpoint tests_of (e : bexp) : list str :=
  match e with
  | BTest t => [t]
  | BGroup _ alts => flat_map (flat_map tests_of) alts
  end.

(** Derivations. [Operand ts e]: the tokens [ts] are one operand. [Run ts es]:
    operands [es] in a row, optionally with AND tokens.  [Alts ts ess]: runs
    separated by OR tokens.  The parameter [ok] states which groups may stand
    inside brackets; it receives the runs of the group. *)
Section Grammar.
  Variable ok : list (list bexp) -> Prop.

  Inductive Operand : list str -> bexp -> Prop :=
  | Op_test t : is_test t -> Operand [t] (BTest t)
  | Op_not n t : is_NOT n -> is_test t -> Operand [n; t] (BGroup true [[BTest t]])
  | Op_group o ts ess c :
      is_open o -> is_close c -> Alts ts ess -> ok ess ->
      Operand (o :: ts ++ [c]) (BGroup false ess)
  | Op_not_group n o ts ess c :
      is_NOT n -> is_open o -> is_close c -> Alts ts ess -> ok ess ->
      Operand (n :: o :: ts ++ [c]) (BGroup true ess)
  with Run : list str -> list bexp -> Prop :=
  | Run_nil : Run [] []
  | Run_and a ts es : is_AND a -> Run ts es -> Run (a :: ts) es
  | Run_op us e ts es : Operand us e -> Run ts es -> Run (us ++ ts) (e :: es)
  with Alts : list str -> list (list bexp) -> Prop :=
  | Alts_one ts es : Run ts es -> Alts ts [es]
  | Alts_or ts1 es o ts2 ess :
      Run ts1 es -> is_OR o -> Alts ts2 ess -> Alts (ts1 ++ o :: ts2) (es :: ess).
End Grammar.

(** No alternative is empty. *)
Definition no_empty (ess : list (list bexp)) : Prop := Forall (fun es => es <> []) ess.

(** The intended language: alternatives are never empty, neither at the top
    level nor in brackets; the empty expression is allowed at the top. *)
Definition Expression (ts : list str) (ess : list (list bexp)) : Prop :=
  Alts no_empty ts ess /\ (ess = [[]] \/ no_empty ess).

(** The language the program accepts: inside brackets only the last
    alternative has to be non-empty. *)
Definition last_nonempty (ess : list (list bexp)) : Prop := last ess [] <> [].
Definition Accepted (ts : list str) (ess : list (list bexp)) : Prop :=
  Alts last_nonempty ts ess /\ (length ess = 1 \/ no_empty ess).
