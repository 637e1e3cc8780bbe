(** Property C95: the texts of values. *)
From Coq Require Import List NArith ZArith Bool.
From Verif Require Import Py TypeModel ConvertSpec FieldModel BaseSpec TextSpec TextProofs.
Import ListNotations.

(** Every value of the type of its attribute has a text, and it says the
    value. *)
Theorem C95_text : forall human t m v, conforms t v = true ->
  (forall z, t = TDuration -> m = Some ($"h") -> v = VInt z -> (0 <= z)%Z) ->
  exists s, output human t m v = Ok s /\ TextOf human t m v s.
Proof. exact output_text. Qed.
(** Nothing else is printed by mistake. *)
Theorem C95_wrong : forall human t m v, conforms t v = false -> In t [TListOfStrings; TBoolean; TNumber; TMode; TSize; TTime; TDuration] ->
  output human t m v = Err TypeErr.
Proof. exact output_wrong. Qed.
(** Decimal numerals are the shortest ones. *)
Theorem C95_decimal : forall z, Numeral 10 (str_of_Z z) z.
Proof. exact numeral_Z. Qed.
Definition tx_human (t : ty) (z : Z) : str := $"about " ++ str_of_Z z.
Example C95_example : output tx_human TBoolean None (VBool true) = Ok ($"true") /\
  output tx_human TListOfStrings (Some ($"n")) (VList [$"a"; []; $"b"]) = Ok ($"a,,b") /\
  output tx_human TSize (Some ($"h")) (VInt 12) = Ok ($"about 12") /\ output tx_human TNumber (Some ($"h")) (VInt (-12)) = Ok ($"-12") /\
  output tx_human TDuration (Some ($"h")) (VInt 3661) = Ok ($"1h01m01s") /\ output tx_human TDuration None (VInt 3661) = Ok ($"3661").
Proof. repeat split. Qed.
Print Assumptions C95_text.
Print Assumptions C95_wrong.
Print Assumptions C95_decimal.
Print Assumptions C95_example.
