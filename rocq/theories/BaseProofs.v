(** Output of numbers in bases 8 and 16. *)
From Coq Require Import List NArith ZArith Bool Lia.
From Verif Require Import Py TypeModel FieldModel BaseSpec.
Import ListNotations.

Lemma digit_char_value d : (d < 16)%N -> digit_value (digit_char d) = Some d.
Proof.
  intros H. unfold digit_char, digit_value. destruct (N.ltb_spec d 10).
  - replace (48 <=? 48 + d)%N with true by (symmetry; apply N.leb_le; lia).
    replace (48 + d <=? 57)%N with true by (symmetry; apply N.leb_le; lia). cbn [andb]. f_equal. lia.
  - replace (87 + d <=? 57)%N with false by (symmetry; apply N.leb_gt; lia). rewrite andb_false_r.
    replace (97 <=? 87 + d)%N with true by (symmetry; apply N.leb_le; lia).
    replace (87 + d <=? 102)%N with true by (symmetry; apply N.leb_le; lia). cbn [andb]. f_equal. lia.
Qed.
Lemma digit_char_zero d : (d < 16)%N -> digit_char d = 48%N -> d = 0%N.
Proof. unfold digit_char. destruct (N.ltb_spec d 10); lia. Qed.

Lemma base_digits_app b fuel : forall n acc, base_digits fuel b n acc = base_digits fuel b n [] ++ acc.
Proof.
  induction fuel as [|fuel IH]; intros n acc; cbn [base_digits]; [reflexivity|].
  destruct (n / b =? 0)%N; [reflexivity|]. rewrite IH, (IH _ [_]), <- app_assoc. reflexivity.
Qed.
Lemma base_digits_spec b : (1 < b <= 16)%N -> forall fuel n, (n < 2 ^ N.of_nat fuel)%N -> (0 < fuel)%nat ->
  Digits b (base_digits fuel b n []) n /\ (n = 0%N \/ hd_error (base_digits fuel b n []) <> Some 48%N).
Proof.
  intros B. induction fuel as [|fuel IH]; intros n L F; [lia|]. cbn [base_digits].
  assert (M : (n mod b < b)%N) by (apply N.mod_lt; lia).
  destruct (N.eqb_spec (n / b) 0) as [E|E].
  - assert (Hn : n = (n mod b)%N) by (rewrite (N.div_mod n b) at 1 by lia; rewrite E; lia). split.
    + rewrite Hn at 2. apply digits_one; [apply digit_char_value|]; lia.
    + destruct (N.eq_dec n 0) as [|Nz]; [now left|right]. cbn [hd_error]. intros [= X]. apply digit_char_zero in X; lia.
  - assert (Q : (n / b < 2 ^ N.of_nat fuel)%N).
    { apply N.div_lt_upper_bound; [lia|]. rewrite Nat2N.inj_succ, N.pow_succ_r' in L.
      apply N.lt_le_trans with (1 := L). apply N.mul_le_mono_r. lia. }
    assert (F' : (0 < fuel)%nat).
    { destruct fuel; [|lia]. apply N.lt_1_r in Q. contradiction. }
    destruct (IH (n / b)%N Q F') as [D H]. rewrite base_digits_app. split.
    + rewrite (N.div_mod n b) at 3 by lia. rewrite (N.mul_comm b). apply digits_more; [exact D|apply digit_char_value; lia|exact M].
    + right. destruct H as [H|H]; [contradiction|].
      destruct (base_digits fuel b (n / b) []) as [|c t] eqn:X; [|exact H]. inversion D as [|s ? ? ? ? ? ? Y]. destruct s; discriminate.
Qed.
Lemma format_base_numeral b z : (1 < b <= 16)%N -> Numeral b (format_base b z) z.
Proof.
  intros B. unfold format_base. set (n := Z.abs_N z).
  assert (L : (n < 2 ^ N.of_nat (S (N.to_nat (N.log2 n))))%N).
  { rewrite Nat2N.inj_succ, N2Nat.id. destruct (N.eq_dec n 0) as [->|Nz]; [reflexivity|]. apply N.log2_spec. lia. }
  destruct (base_digits_spec b B _ n L (Nat.lt_0_succ _)) as [D H].
  eexists _, n. split; [exact D|]. split; [exact H|]. destruct (Z.ltb_spec z 0); [right|left]; (split; [lia|]); (split; [reflexivity|]); unfold n; lia.
Qed.
Lemma Digits_fun b s n m : Digits b s n -> Digits b s m -> n = m.
Proof.
  intros H. revert m. induction H as [c d Hc Hd|s n c d H IH Hc Hd]; intros m K.
  - remember [c] as x eqn:Ex. destruct K as [c' d' Hc' _|s n c' d' K Hc' _].
    + injection Ex as ->. congruence.
    + destruct s as [|? [|? ?]]; try discriminate. inversion K as [|s ? ? ? ? ? ? Y]. destruct s; discriminate.
  - remember (s ++ [c]) as x eqn:Ex. destruct K as [c' d' Hc' _|s' n' c' d' K Hc' _].
    + destruct s as [|? [|? ?]]; try discriminate. inversion H as [|s ? ? ? ? ? ? Y]. destruct s; discriminate.
    + apply app_inj_tail in Ex. destruct Ex as [-> ->]. apply IH in K. congruence.
Qed.
Lemma Digits_sign b s n : Digits b s n -> hd_error s <> Some 45%N.
Proof.
  induction 1 as [c d Hc _|s n c d H IH Hc _].
  - intros [= ->]. discriminate Hc.
  - destruct s; [inversion H as [|s ? ? ? ? ? ? Y]; destruct s; discriminate|exact IH].
Qed.
Lemma Numeral_fun b s z y : Numeral b s z -> Numeral b s y -> z = y.
Proof.
  intros (t & n & D & _ & [(_ & -> & ->)|(_ & -> & ->)]) (t' & n' & D' & _ & [(_ & E & ->)|(_ & E & ->)]).
  - subst t'. now rewrite (Digits_fun _ _ _ _ D D').
  - exfalso. apply (Digits_sign _ _ _ D). now rewrite E.
  - exfalso. apply (Digits_sign _ _ _ D'). now rewrite <- E.
  - injection E as ->. now rewrite (Digits_fun _ _ _ _ D D').
Qed.
Lemma format_base_inj b x y : (1 < b <= 16)%N -> format_base b x = format_base b y -> x = y.
Proof.
  intros B E. apply (Numeral_fun b (format_base b x)); [now apply format_base_numeral|]. rewrite E. now apply format_base_numeral.
Qed.
Lemma str_of_Z_inj x y : str_of_Z x = str_of_Z y -> x = y.
Proof. intros E. assert (H := py_int_str_of_Z x). rewrite E, py_int_str_of_Z in H. congruence. Qed.
Lemma number_output_inj m x y : number_output m x = number_output m y -> x = y.
Proof.
  unfold number_output. destruct m as [m|]; [|apply str_of_Z_inj].
  destruct (str_eqb m ($"x")); [apply format_base_inj; lia|]. destruct (str_eqb m ($"o")); [apply format_base_inj; lia|]. apply str_of_Z_inj.
Qed.
Lemma hexadecimal_output human t z : In t [TNumber; TMode; TSize; TTime; TDuration] ->
  exists s, output human t (Some ($"x")) (VInt z) = Ok s /\ Numeral 16 s z.
Proof. intros T. exists (format_base 16 z). split; [|apply format_base_numeral; lia]. cbn [In] in T. intuition (subst; reflexivity). Qed.
Lemma octal_output human t z : In t [TNumber; TMode; TSize; TTime; TDuration] ->
  exists s, output human t (Some ($"o")) (VInt z) = Ok s /\ Numeral 8 s z.
Proof. intros T. exists (format_base 8 z). split; [|apply format_base_numeral; lia]. cbn [In] in T. intuition (subst; reflexivity). Qed.
