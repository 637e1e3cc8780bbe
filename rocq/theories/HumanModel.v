(** Model of /repo/libff/convert.py:27-46, sizes printed for people. *)
From Coq Require Import List NArith ZArith Bool.
From Verif Require Import Py FloatLib ConvertModel.
Import ListNotations.
Local Open Scope Z_scope.

(** round(x, 1) for the double num / den: the nearest tenth, ties to even,
    converted to a double. *)
Definition round1 (num den : Z) : fl := rn (round_half_even (num * 10) den) 10.

(** libff/convert.py:33-37, the loop over UNITS.  [unit] is the variable after
    the loop, the number is num / den.  Division of an integer or a double by
    base gives the nearest double; if that is too large for a double the
    division of integers raises OverflowError. *)
Fixpoint scale (base : Z) (units : list str) (unit : str) (num den : Z) : res (str * Z * Z) :=
  match units with
  | [] => Ok (unit, num, den)
  | u :: rest =>
      if num <? base * den then Ok (u, num, den)
      else
        match rn num (den * base) with
        | FInf => Err OverflowErr
        | FFin a b =>
            match round1 a b with
            | FInf => Err OverflowErr
            | FFin a b => scale base rest u a b
            end
        end
  end.

(** f"{number:.1f}" for the double num / den. *)
Definition one_digit (num den : Z) : str :=
  let tenths := round_half_even (num * 10) den in
  str_of_Z (tenths / 10) ++ DOT :: str_of_Z (tenths mod 10).

(** libff/convert.py:27-46 format_size, for integers (the value of an attribute
    of type Size, or a sum of such values). *)
Definition format_size (number base : Z) : res str :=
  if number <? base then Ok (str_of_Z number)
  else
    do ' (unit, num, den) <- scale base UNITS [] number 1;
    let unit := if base =? 1000 then unit ++ $"B" else unit in
    if num <? 10 * den then Ok (one_digit num den ++ unit)
    else do m <- fint (FFin num den); Ok (str_of_Z m ++ unit).

(** libff/type.py:390-393 Size.output with the modifier h. *)
Definition size_output (si : bool) (value : Z) : res str :=
  format_size value (if si then 1000 else 1024).
