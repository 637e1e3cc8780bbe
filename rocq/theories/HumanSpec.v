(** What a size printed for people is supposed to say, independent of the code. *)
From Coq Require Import List NArith ZArith Bool.
From Verif Require Import Py ConvertSpec.
Import ListNotations.
Local Open Scope Z_scope.

(** The unit that stands for base^e bytes: a prefix, with a B behind it if the
    base is 1000. *)
Definition unit_text (si : bool) (e : Z) (u : str) : Prop :=
  exists c, In (c, e) prefixes /\ u = if si then [c; 66%N] else [c].
Definition base_of (si : bool) : Z := if si then 1000 else 1024.

(** [Shown si n s]: s is a good text for n bytes.  Below the base it is the
    number itself.  Otherwise the number of the text is at least 1 and below
    the base, and it is either given with one decimal and off by at most 0.0503
    units, or, from 10 on, it is the integer below, where a number less than
    0.0503 units below an integer may be shown as that integer. *)
Inductive Shown (si : bool) (n : Z) : str -> Prop :=
| shown_bytes : n < base_of si -> Shown si n (str_of_Z n)
| shown_decimal e u a b :
    unit_text si e u -> 1 <= a <= 9 -> 0 <= b <= 9 ->
    10000 * Z.abs (10 * n - (10 * a + b) * base_of si ^ e) <= 5030 * base_of si ^ e ->
    Shown si n (str_of_Z a ++ DOT :: str_of_Z b ++ u)
| shown_integer e u m :
    unit_text si e u -> 10 <= m < base_of si ->
    (10000 * m - 503) * base_of si ^ e <= 10000 * n <= (10000 * m + 9503) * base_of si ^ e ->
    Shown si n (str_of_Z m ++ u).
