(** The texts of the values of -j, -d and -l. *)
From Coq Require Import List NArith ZArith.
From Verif Require Import Py ConvertSpec.
Import ListNotations.
Local Open Scope Z_scope.

Definition blank (s : str) : Prop := forall c, In c s -> is_space c = true.

(** "n", "a-b" with the bounds in any order, "a-" without an upper bound; a
    missing lower bound is 0. *)
Inductive RangeText : str -> Z * option Z -> Prop :=
| range_single ds : digits ds -> RangeText ds (decimal ds, Some (decimal ds))
| range_up_to ds : digits ds -> RangeText (45%N :: ds) (0, Some (decimal ds))
| range_between a b : digits a -> digits b ->
    RangeText (a ++ 45%N :: b) (Z.min (decimal a) (decimal b), Some (Z.max (decimal a) (decimal b)))
| range_from a : digits a -> RangeText (a ++ [45%N]) (decimal a, None)
| range_any : RangeText [45%N] (0, None).
(** Ranges separated by commas, with white space around them. *)
Inductive RangesText : str -> list (Z * option Z) -> Prop :=
| ranges_last l t r x : blank l -> RangeText t x -> blank r -> RangesText (l ++ t ++ r) [x]
| ranges_more l t r x s xs : blank l -> RangeText t x -> blank r -> RangesText s xs ->
    RangesText (l ++ t ++ r ++ 44%N :: s) (x :: xs).

(** A position in a slice. *)
Inductive Position : str -> Z -> Prop :=
| pos_plus ds : digits ds -> Position ds (decimal ds)
| pos_minus ds : digits ds -> Position (45%N :: ds) (- decimal ds).
(** "start:stop", both may be missing, or "pagesize,page". *)
Inductive SliceText : str -> Z * option Z -> Prop :=
| slice_both a b x y : Position a x -> Position b y -> SliceText (a ++ 58%N :: b) (x, Some y)
| slice_start a x : Position a x -> SliceText (a ++ [58%N]) (x, None)
| slice_stop b y : Position b y -> SliceText (58%N :: b) (0, Some y)
| slice_all : SliceText [58%N] (0, None)
| slice_page n p : digits n -> digits p ->
    SliceText (n ++ 44%N :: p) (decimal n * decimal p, Some (decimal n * (decimal p + 1))).
