(** Numerals in a base, read from the left. *)
From Coq Require Import List NArith ZArith Bool.
From Verif Require Import Py.
Import ListNotations.

Definition digit_value (c : char) : option N :=
  if ((48 <=? c) && (c <=? 57))%N then Some (c - 48)%N
  else if ((97 <=? c) && (c <=? 102))%N then Some (c - 87)%N else None.
(** [Numeral b s n]: s is the shortest numeral of n in base b *)
Inductive Digits (b : N) : str -> N -> Prop :=
| digits_one c d : digit_value c = Some d -> (d < b)%N -> Digits b [c] d
| digits_more s n c d : Digits b s n -> digit_value c = Some d -> (d < b)%N -> Digits b (s ++ [c]) (n * b + d).
Definition Numeral (b : N) (s : str) (z : Z) : Prop :=
  exists t n, Digits b t n /\ (n = 0%N \/ hd_error t <> Some 48%N) /\
    ((0 <= z)%Z /\ s = t /\ z = Z.of_N n \/ (z < 0)%Z /\ s = 45%N :: t /\ z = (- Z.of_N n)%Z).
