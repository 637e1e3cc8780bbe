(** Specification of what the optimisation of expressions promises, from
    OPTIMIZATIONS in libff/manpage.template:308-313: faster tests are grouped
    before slower ones and the sequence ends as soon as it is decided. *)
From Coq Require Import List ZArith Permutation Sorting.Sorted.
From Verif Require Import Py GrammarSpec.
Import ListNotations.

(** [FastestFirst cost l l']: [l'] has the elements of [l] with the cheapest
    first and those of the same cost in the order they had. *)
Definition FastestFirst {A : Type} (cost : A -> Z) (l l' : list A) : Prop :=
  Permutation l l' /\
  StronglySorted (fun a b => (cost a <= cost b)%Z) l' /\
  forall c, filter (fun a => Z.eqb (cost a) c) l' = filter (fun a => Z.eqb (cost a) c) l.

(** [Until stop l l']: [l'] is [l] up to the first element that decides, that
    element included;  it is all of [l] if none does. *)
Inductive Until {A : Type} (stop : A -> Prop) : list A -> list A -> Prop :=
| Until_end : Until stop [] []
| Until_stop a l : stop a -> Until stop (a :: l) [a]
| Until_on a l l' : ~ stop a -> Until stop l l' -> Until stop (a :: l) (a :: l').

(** The tests among the tokens of an expression, in their order. *)
Inductive TestsIn : list str -> list str -> Prop :=
| TestsIn_end : TestsIn [] []
| TestsIn_test t ts us : is_test t -> TestsIn ts us -> TestsIn (t :: ts) (t :: us)
| TestsIn_other t ts us : ~ is_test t -> TestsIn ts us -> TestsIn (t :: ts) us.

(** The cost of an operand, and of an alternative, is the sum of the costs of
    its tests. *)
Definition total (cost : str -> Z) (ts : list str) : Z := fold_right Z.add 0%Z (map cost ts).
Definition cost_of (cost : str -> Z) (e : bexp) : Z := total cost (tests_of e).
Definition cost_of_run (cost : str -> Z) (es : list bexp) : Z := total cost (flat_map tests_of es).
