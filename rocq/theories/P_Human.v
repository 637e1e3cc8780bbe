(** Sizes printed for people: properties C73 and C74. *)
From Coq Require Import List NArith ZArith Bool Lia.
From Verif Require Import Py ConvertModel ConvertSpec HumanModel HumanSpec HumanProofs HumanOrderProofs.
Import ListNotations.
Local Open Scope Z_scope.

(** C73: a size printed with the modifier h is right up to the digits shown. *)
Theorem C73_shown : forall si n, 0 <= n <= (base_of si - 1) * base_of si ^ 8 ->
  exists s, size_output si n = Ok s /\ Shown si n s.
Proof. exact size_shown. Qed.
Print Assumptions C73_shown.

(** Reading it again gives a number that is off by at most 9 percent, and the
    same number if it is below the base. *)
Theorem C73_read : forall si n, 0 <= n <= (base_of si - 1) * base_of si ^ 8 ->
  exists s m, size_output si n = Ok s /\ parse_size s = Ok m /\
    100 * Z.abs (m - n) <= 9 * n /\ (n < base_of si -> m = n).
Proof. exact size_read. Qed.
Print Assumptions C73_read.

Example C73_example :
  size_output false 1023 = Ok ($"1023") /\ size_output false 1126 = Ok ($"1.1K") /\
  size_output false 1048523 = Ok ($"1023K") /\ size_output false 1048575 = Ok ($"1.0M") /\
  size_output true 12999999 = Ok ($"13MB") /\ size_output true 12900000 = Ok ($"12MB") /\
  parse_size ($"12MB") = Ok 12000000.
Proof. repeat split; vm_compute; reflexivity. Qed.

(** The limit is needed: there is no unit above Y, yet the number is divided
    once more. *)
Theorem C73_huge_refuted : exists si n s, 0 <= n /\ size_output si n = Ok s /\ ~ Shown si n s /\
  exists m, parse_size s = Ok m /\ 900 * m < n.
Proof. exact size_huge. Qed.
Print Assumptions C73_huge_refuted.

(** C74: a file that is not smaller is never shown as smaller. *)
Theorem C74_order : forall si n n', 0 <= n <= n' -> n' <= (base_of si - 1) * base_of si ^ 8 ->
  exists s s' m m', size_output si n = Ok s /\ size_output si n' = Ok s' /\
    parse_size s = Ok m /\ parse_size s' = Ok m' /\ m <= m'.
Proof. exact size_order. Qed.
Print Assumptions C74_order.

Example C74_example :
  size_output false 10188 = Ok ($"9.9K") /\ size_output false 10189 = Ok ($"10K") /\
  size_output false 10239 = Ok ($"10K") /\ parse_size ($"9.9K") = Ok 10137 /\ parse_size ($"10K") = Ok 10240.
Proof. repeat split; vm_compute; reflexivity. Qed.

Theorem C74_huge_refuted : exists si n n' s s' m m', 0 <= n <= n' /\ size_output si n = Ok s /\ size_output si n' = Ok s' /\
  parse_size s = Ok m /\ parse_size s' = Ok m' /\ m' < m.
Proof. exact order_huge. Qed.
Print Assumptions C74_huge_refuted.
