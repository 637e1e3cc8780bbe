(** What the texts of values are. *)
From Coq Require Import List NArith ZArith Bool.
From Verif Require Import Py TypeModel ConvertSpec BaseSpec.
Import ListNotations.

(** The elements of a list with commas between them *)
Inductive Commas : list str -> str -> Prop :=
| commas_none : Commas [] []
| commas_one x : Commas [x] x
| commas_more x y l s : Commas (y :: l) s -> Commas (x :: y :: l) (x ++ 44%N :: s).

(** The base in which a number is printed *)
Definition base_is (m : option str) (b : N) : Prop :=
  m = Some ($"x") /\ b = 16%N \/ m = Some ($"o") /\ b = 8%N \/ m <> Some ($"x") /\ m <> Some ($"o") /\ b = 10%N.

Section Text.
  (** the human readable forms of modes, sizes and times *)
  Variable human : ty -> Z -> str.
  Inductive TextOf : ty -> option str -> value -> str -> Prop :=
  | text_string t m s : In t [TString; TPath; TFileType] -> TextOf t m (VStr s) s
  | text_list m l s : Commas l s -> TextOf TListOfStrings m (VList l) s
  | text_true m : TextOf TBoolean m (VBool true) ($"true")
  | text_false m : TextOf TBoolean m (VBool false) ($"false")
  | text_number t m z b s : In t [TNumber; TMode; TSize; TTime; TDuration] -> t = TNumber \/ m <> Some ($"h") -> base_is m b ->
      Numeral b s z -> TextOf t m (VInt z) s
  | text_human t z : In t [TMode; TSize; TTime] -> TextOf t (Some ($"h")) (VInt z) (human t z)
  | text_duration z s : Duration s z -> TextOf TDuration (Some ($"h")) (VInt z) s.
End Text.
