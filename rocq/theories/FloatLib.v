(** Non-negative IEEE double precision numbers: conversion of a rational number
    to the nearest double (ties to even) as done by Python's float() on a
    decimal literal and by float(int), multiplication, and int().  Doubles are
    kept as exact fractions.  The exponent range is unbounded below: results
    too small for a normal double are below one in every use and int() makes
    them 0 either way. *)
From Coq Require Import NArith ZArith Bool Lia.
From Verif Require Import Py.
Local Open Scope Z_scope.

(** A non-negative double: infinity or the number num / den. *)
Inductive fl := FInf | FFin (num den : Z).

(** The exponent of the leading bit of p / q. *)
Definition flog2 (p q : Z) : Z :=
  let d := Z.log2 p - Z.log2 q in
  if (if 0 <=? d then p <? q * 2 ^ d else p * 2 ^ (- d) <? q) then d - 1 else d.

(** num / den rounded to an integer, ties to even. *)
Definition round_half_even (num den : Z) : Z :=
  let q := num / den in
  let r := num mod den in
  if 2 * r <? den then q
  else if den <? 2 * r then q + 1
  else if Z.even q then q else q + 1.

(** The double nearest to p / q. *)
Definition rn (p q : Z) : fl :=
  if p =? 0 then FFin 0 1
  else
    let e := flog2 p q - 52 in
    let '(num, den) :=
      if 0 <=? e then (round_half_even p (q * 2 ^ e) * 2 ^ e, 1)
      else (round_half_even (p * 2 ^ (- e)) q, 2 ^ (- e)) in
    if 2 ^ 1024 * den <=? num then FInf else FFin num den.

Definition fmul (x y : fl) : fl :=
  match x, y with
  | FFin a b, FFin c d => rn (a * c) (b * d)
  | FInf, FFin a _ | FFin a _, FInf => FInf   (* the other factor is never 0 here *)
  | FInf, FInf => FInf
  end.
(** int(x) *)
Definition fint (x : fl) : res Z :=
  match x with FInf => Err OverflowErr | FFin a b => Ok (a / b) end.

(** Integers with at most 53 significant bits are doubles. *)
Lemma flog2_spec p q : 0 < p -> 0 < q ->
  let e := flog2 p q in
  (0 <= e -> q * 2 ^ e <= p < q * 2 ^ (e + 1)) /\
  (e < 0 -> q <= p * 2 ^ (- e) < 2 * q).
Proof.
  intros Hp Hq. unfold flog2. set (d := Z.log2 p - Z.log2 q).
  destruct (Z.log2_spec p Hp) as [Lp Up]. destruct (Z.log2_spec q Hq) as [Lq Uq].
  assert (Np := Z.log2_nonneg p). assert (Nq := Z.log2_nonneg q).
  rewrite Z.pow_succ_r in Up, Uq by lia.
  assert (Ppos : forall n, 0 <= n -> 0 < 2 ^ n) by (intros; apply Z.pow_pos_nonneg; lia).
  destruct (Z.leb_spec 0 d).
  - (* 2^lp = 2^lq * 2^d *)
    assert (E : 2 ^ Z.log2 p = 2 ^ Z.log2 q * 2 ^ d)
      by (rewrite <- Z.pow_add_r by lia; f_equal; unfold d; lia).
    assert (Q := Ppos d H).
    assert (A1 : 2 ^ Z.log2 q * 2 ^ d <= q * 2 ^ d) by (apply Z.mul_le_mono_nonneg_r; lia).
    assert (A2 : q * 2 ^ d < 2 * 2 ^ Z.log2 q * 2 ^ d) by (apply (proj1 (Z.mul_lt_mono_pos_r _ _ _ Q)); lia).
    assert (U : p < 2 * (q * 2 ^ d)) by lia.
    assert (L : q * 2 ^ d < 2 * p) by lia.
    clear E A1 A2. clearbody d. destruct (Z.ltb_spec p (q * 2 ^ d)); cbn zeta.
    + split.
      * intros Hd. replace (d - 1 + 1) with d by lia. split; [|assumption].
        assert (E2 : 2 ^ d = 2 * 2 ^ (d - 1)) by (rewrite <- Z.pow_succ_r by lia; f_equal; lia). nia.
      * intros Hd. assert (d = 0) by lia. subst d. change (2 ^ (- (0 - 1))) with 2. change (2 ^ 0) with 1 in *. lia.
    + split; [|lia]. intros _. rewrite Z.pow_add_r by lia. change (2 ^ 1) with 2. lia.
  - assert (E : 2 ^ Z.log2 q = 2 ^ Z.log2 p * 2 ^ (- d))
      by (rewrite <- Z.pow_add_r by lia; f_equal; unfold d; lia).
    assert (Q := Ppos (- d) ltac:(lia)).
    assert (A1 : 2 ^ Z.log2 p * 2 ^ (- d) <= p * 2 ^ (- d)) by (apply Z.mul_le_mono_nonneg_r; lia).
    assert (A2 : p * 2 ^ (- d) < 2 * 2 ^ Z.log2 p * 2 ^ (- d)) by (apply (proj1 (Z.mul_lt_mono_pos_r _ _ _ Q)); lia).
    assert (U : p * 2 ^ (- d) < 2 * q) by lia.
    assert (L : q < 2 * (p * 2 ^ (- d))) by lia.
    destruct (Z.ltb_spec (p * 2 ^ (- d)) q); cbn zeta.
    + split; [lia|]. intros _. replace (- (d - 1)) with (Z.succ (- d)) by lia.
      rewrite Z.pow_succ_r by lia. lia.
    + split; [lia|]. lia.
Qed.
Lemma rhe_exact a b : 0 < b -> round_half_even (a * b) b = a.
Proof.
  intros Hb. unfold round_half_even. rewrite Z_div_mult, Z_mod_mult by lia.
  destruct (Z.ltb_spec (2 * 0) b); lia.
Qed.
Lemma div_mul_cancel a b c : 0 < b -> 0 < c -> (a * c) / (b * c) = a / b.
Proof. intros. apply Z.div_mul_cancel_r; lia. Qed.

Lemma pow2_pos n : 0 <= n -> 0 < 2 ^ n.
Proof. intros. apply Z.pow_pos_nonneg; lia. Qed.
Lemma pow2_split a b : 0 <= a -> 0 <= b -> 2 ^ (a + b) = 2 ^ a * 2 ^ b.
Proof. intros. now apply Z.pow_add_r. Qed.
Lemma rhe_divides p d c : 0 < d -> p = c * d -> round_half_even p d = c.
Proof. intros H ->. now apply rhe_exact. Qed.

(** A number a * 2^k / 2^f with a below 2^53 is converted exactly. *)
Lemma rn_exact a k f p q : 0 <= a < 2 ^ 53 -> 0 <= k -> 0 <= f -> 0 < q ->
  p * 2 ^ f = a * 2 ^ k * q -> a * 2 ^ k < 2 ^ 1024 * 2 ^ f ->
  exists num den, rn p q = FFin num den /\ 0 < den /\ num * 2 ^ f = a * 2 ^ k * den.
Proof.
  intros Ha Hk Hf Hq E Hb. unfold rn.
  assert (Pk := pow2_pos k Hk). assert (Pf := pow2_pos f Hf).
  destruct (Z.eqb_spec p 0) as [->|Hp0].
  { exists 0, 1. split; [reflexivity|]. nia. }
  assert (Ha0 : a <> 0) by (intros ->; nia).
  assert (Hp : 0 < p) by nia.
  destruct (flog2_spec p q Hp Hq) as [S1 S2]. cbn zeta in *.
  set (g := flog2 p q) in *. clearbody g.
  (* the exponent of a 2^k / 2^f is at least the one of the last bit *)
  assert (Ht : g - 52 <= k - f).
  { destruct (Z.le_gt_cases (g - 52) (k - f)) as [|Hlt]; [assumption|exfalso].
    destruct (Z.le_gt_cases 0 g) as [Hg|Hg].
    - destruct (S1 Hg) as [L _].
      assert (L2 : 2 ^ g * 2 ^ f <= a * 2 ^ k) by nia.
      rewrite <- pow2_split in L2 by lia.
      replace (g + f) with ((g + f - k) + k) in L2 by lia. rewrite pow2_split in L2 by lia.
      assert (2 ^ (g + f - k) <= a) by nia.
      assert (2 ^ 53 <= 2 ^ (g + f - k)) by (apply Z.pow_le_mono_r; lia). lia.
    - destruct (S2 Hg) as [L _]. assert (Pg := pow2_pos (- g) ltac:(lia)).
      assert (L2 : 2 ^ f <= a * 2 ^ k * 2 ^ (- g)) by nia.
      rewrite <- Z.mul_assoc, <- pow2_split in L2 by lia.
      replace f with ((f - k + g) + (k + - g)) in L2 by lia. rewrite pow2_split in L2 by lia.
      assert (Pkg := pow2_pos (k + - g) ltac:(lia)).
      assert (2 ^ (f - k + g) <= a) by nia.
      assert (2 ^ 53 <= 2 ^ (f - k + g)) by (apply Z.pow_le_mono_r; lia). lia. }
  destruct (Z.leb_spec 0 (g - 52)) as [He|He].
  - set (e := g - 52) in *. clearbody e. assert (Pe := pow2_pos e He).
    set (c := a * 2 ^ (k - f - e)).
    assert (Ev : a * 2 ^ k = c * 2 ^ e * 2 ^ f).
    { unfold c. replace k with ((k - f - e) + e + f) at 1 by lia. rewrite !pow2_split by lia. ring. }
    assert (Ep : p = c * (q * 2 ^ e)) by nia.
    rewrite (rhe_divides p (q * 2 ^ e) c) by nia.
    destruct (Z.leb_spec (2 ^ 1024 * 1) (c * 2 ^ e)); [nia|].
    eexists _, _. split; [reflexivity|]. split; [lia|]. rewrite Ev. ring.
  - set (e := - (g - 52)) in *. assert (He' : 0 <= e) by (unfold e; lia).
    assert (Ht' : 0 <= k + e - f) by (unfold e; lia). clearbody e.
    assert (Pe := pow2_pos e He').
    set (c := a * 2 ^ (k + e - f)).
    assert (Ev : a * 2 ^ k * 2 ^ e = c * 2 ^ f).
    { unfold c. rewrite <- !Z.mul_assoc, <- !pow2_split by lia. do 2 f_equal. lia. }
    assert (Ep : p * 2 ^ e = c * q) by nia.
    rewrite (rhe_divides _ q c) by assumption.
    destruct (Z.leb_spec (2 ^ 1024 * 2 ^ e) c); [exfalso; nia|].
    eexists _, _. split; [reflexivity|]. split; [assumption|]. symmetry. exact Ev.
Qed.

(** The relative error of the conversion is at most 2^-53. *)
Lemma rhe_error n d : 0 < d -> 2 * Z.abs (round_half_even n d * d - n) <= d.
Proof.
  intros Hd. unfold round_half_even. assert (E := Z.div_mod n d ltac:(lia)).
  assert (B := Z.mod_pos_bound n d Hd).
  set (q := n / d) in *. set (r := n mod d) in *. clearbody q r. subst n.
  destruct (Z.ltb_spec (2 * r) d); [replace (q * d - (d * q + r)) with (- r) by ring; lia|].
  destruct (Z.ltb_spec d (2 * r)).
  - replace ((q + 1) * d - (d * q + r)) with (d - r) by ring. lia.
  - destruct (Z.even q).
    + replace (q * d - (d * q + r)) with (- r) by ring. lia.
    + replace ((q + 1) * d - (d * q + r)) with (d - r) by ring. lia.
Qed.
Lemma rn_error p q num den : 0 <= p -> 0 < q -> rn p q = FFin num den ->
  0 < den /\ Z.abs (num * q - p * den) * 2 ^ 53 <= p * den.
Proof.
  intros Hp Hq. unfold rn. destruct (Z.eqb_spec p 0) as [->|Hp0].
  { intros [= <- <-]. split; [lia|]. lia. }
  destruct (flog2_spec p q ltac:(lia) Hq) as [S1 S2]. cbn zeta in *.
  set (g := flog2 p q) in *. clearbody g.
  destruct (Z.leb_spec 0 (g - 52)) as [He|He].
  - destruct (_ <=? _); [discriminate|]. intros [= <- <-]. split; [lia|].
    destruct (S1 ltac:(lia)) as [L _].
    replace g with ((g - 52) + 52) in L by lia. rewrite pow2_split in L by lia.
    set (e := g - 52) in *. clearbody e. assert (Pe := pow2_pos e He).
    assert (R := rhe_error p (q * 2 ^ e) ltac:(nia)).
    set (M := round_half_even p (q * 2 ^ e)) in *. clearbody M.
    replace (M * 2 ^ e * q - p * 1) with (M * (q * 2 ^ e) - p) by ring.
    set (A := Z.abs (M * (q * 2 ^ e) - p)) in *. clearbody A.
    change (2 ^ 53) with (2 * 2 ^ 52). set (T := 2 ^ 52) in *.
    assert (0 < T) by now vm_compute. clearbody T. nia.
  - destruct (_ <=? _); [discriminate|]. intros [= <- <-].
    set (e := - (g - 52)) in *. assert (He' : 0 < e) by (unfold e; lia).
    assert (L : q * 2 ^ 52 <= p * 2 ^ e).
    { destruct (Z.le_gt_cases 0 g) as [Hg|Hg].
      - destruct (S1 Hg) as [L _]. replace 52 with (g + e) by (unfold e; lia).
        rewrite pow2_split by lia. assert (Pe := pow2_pos e ltac:(lia)). nia.
      - destruct (S2 Hg) as [L _]. replace e with (- g + 52) by (unfold e; lia).
        rewrite pow2_split by lia. nia. }
    clearbody e. assert (Pe := pow2_pos e ltac:(lia)). split; [assumption|].
    assert (R := rhe_error (p * 2 ^ e) q Hq).
    set (M := round_half_even (p * 2 ^ e) q) in *. clearbody M.
    set (A := Z.abs (M * q - p * 2 ^ e)) in *. clearbody A.
    change (2 ^ 53) with (2 * 2 ^ 52). set (T := 2 ^ 52) in *.
    assert (0 < T) by now vm_compute. clearbody T. nia.
Qed.

(** A double is an integer below 2^53 times a power of two. *)
Lemma rhe_bound n d B : 0 < d -> 0 <= n -> n < B * d -> 0 <= round_half_even n d <= B.
Proof.
  intros Hd Hn Hlt. assert (R := rhe_error n d Hd). set (M := round_half_even n d) in *. clearbody M.
  split; nia.
Qed.
Lemma shape_of M e : 0 <= M <= 2 ^ 53 -> 0 <= e -> exists a k, 0 <= a < 2 ^ 53 /\ 0 <= k /\ M * 2 ^ e = a * 2 ^ k.
Proof.
  intros HM He. destruct (Z.eq_dec M (2 ^ 53)) as [->|].
  - exists 1, (53 + e). split; [split; [lia|now vm_compute]|]. split; [lia|].
    rewrite pow2_split by lia. ring.
  - exists M, e. lia.
Qed.
Lemma rn_shape p q num den : 0 <= p -> 0 < q -> rn p q = FFin num den ->
  exists a k f, 0 <= a < 2 ^ 53 /\ 0 <= k /\ 0 <= f /\ num = a * 2 ^ k /\ den = 2 ^ f.
Proof.
  intros Hp Hq. unfold rn. destruct (Z.eqb_spec p 0) as [->|Hp0].
  { intros [= <- <-]. exists 0, 0, 0. split; [split; [lia|now vm_compute]|]. auto with zarith. }
  destruct (flog2_spec p q ltac:(lia) Hq) as [S1 S2]. cbn zeta in *.
  set (g := flog2 p q) in *. clearbody g.
  destruct (Z.leb_spec 0 (g - 52)) as [He|He].
  - destruct (_ <=? _); [discriminate|]. intros [= <- <-].
    destruct (S1 ltac:(lia)) as [_ U].
    replace (g + 1) with (53 + (g - 52)) in U by lia. rewrite pow2_split in U by lia.
    set (e := g - 52) in *. clearbody e. assert (Pe := pow2_pos e He).
    assert (B := rhe_bound p (q * 2 ^ e) (2 ^ 53) ltac:(nia) Hp ltac:(nia)).
    destruct (shape_of _ e B He) as (a & k & Ha & Hk & E). exists a, k, 0. auto with zarith.
  - destruct (_ <=? _); [discriminate|]. intros [= <- <-].
    set (e := - (g - 52)) in *. assert (He' : 0 < e) by (unfold e; lia).
    assert (U : p * 2 ^ e < 2 ^ 53 * q).
    { destruct (Z.le_gt_cases 0 g) as [Hg|Hg].
      - destruct (S1 Hg) as [_ U]. replace 53 with (g + 1 + e) by (unfold e; lia).
        rewrite (pow2_split (g + 1)) by lia. assert (Pe := pow2_pos e ltac:(lia)). nia.
      - destruct (S2 Hg) as [_ U]. replace e with (- g + 52) by (unfold e; lia).
        rewrite pow2_split by lia. change (2 ^ 53) with (2 * 2 ^ 52). nia. }
    clearbody e. assert (Pe := pow2_pos e ltac:(lia)).
    assert (B := rhe_bound (p * 2 ^ e) q (2 ^ 53) Hq ltac:(nia) U).
    destruct (shape_of _ 0 B ltac:(lia)) as (a & k & Ha & Hk & E). exists a, k, e.
    rewrite Z.pow_0_r, Z.mul_1_r in E. auto with zarith.
Qed.

(** int(float(n) * (b * 2^l)) is exact if n * b fits in 53 bits. *)
Lemma product_exact n b l : 0 <= n -> 0 < b -> 0 <= l <= 100 -> n * b < 2 ^ 53 -> b < 2 ^ 53 ->
  fint (fmul (rn n 1) (rn (b * 2 ^ l) 1)) = Ok (n * (b * 2 ^ l)).
Proof.
  intros Hn Hb Hl Hnb Hb53.
  assert (Pl := pow2_pos l ltac:(lia)).
  assert (Ul : 2 ^ l <= 2 ^ 100) by (apply Z.pow_le_mono_r; lia).
  assert (C : 2 ^ 53 * 2 ^ 100 < 2 ^ 1024) by now vm_compute.
  set (T := 2 ^ 1024) in *. set (U := 2 ^ 100) in *. set (W := 2 ^ 53) in *.
  assert (0 < T /\ 0 < U /\ 0 < W) as (PT & PU & PW) by (repeat split; now vm_compute).
  assert (HnW : n < W) by (clearbody T U W; nia).
  assert (HWT : W < T) by now vm_compute.
  destruct (rn_exact n 0 0 n 1) as (n1 & d1 & E1 & P1 & V1); fold T W; change (2 ^ 0) with 1; try lia.
  assert (HbT : b * 2 ^ l < T) by (clearbody T U W; nia).
  destruct (rn_exact b l 0 (b * 2 ^ l) 1) as (n2 & d2 & E2 & P2 & V2); fold T W; change (2 ^ 0) with 1; try lia.
  rewrite E1, E2. cbn [fmul]. change (2 ^ 0) with 1 in *.
  assert (n1 = n * d1) by lia. assert (n2 = b * 2 ^ l * d2) by lia. subst n1 n2. clear V1 V2 E1 E2.
  assert (HnbT : n * b * 2 ^ l < T) by (clearbody T U W; nia).
  assert (Hd12 : 0 < d1 * d2) by nia.
  destruct (rn_exact (n * b) l 0 (n * d1 * (b * 2 ^ l * d2)) (d1 * d2)) as (n3 & d3 & E3 & P3 & V3);
    fold T W; change (2 ^ 0) with 1; try lia; try (clearbody T U W; nia); try ring.
  rewrite E3. cbn [fint]. f_equal. change (2 ^ 0) with 1 in V3.
  replace n3 with (n * (b * 2 ^ l) * d3) by lia. apply Z_div_mult. lia.
Qed.

(** int(float(p / q) * 2^l) is the integer part of p * 2^l / q if the reduced
    numerator of that fraction is below 2^53. *)
Lemma product_floor p q l g : 0 <= p -> 0 < q -> 0 <= l <= 100 -> 0 < g ->
  (g | p * 2 ^ l) -> (g | q) -> p * 2 ^ l < g * 2 ^ 53 ->
  fint (fmul (rn p q) (rn (2 ^ l) 1)) = Ok (p * 2 ^ l / q).
Proof.
  intros Hp Hq Hl Hg [P' EP] [q' Eq] Hlt.
  assert (Pl := pow2_pos l ltac:(lia)).
  assert (Ul : 2 ^ l <= 2 ^ 100) by (apply Z.pow_le_mono_r; lia).
  assert (C : 2 ^ 54 * 2 ^ 100 < 2 ^ 1024) by now vm_compute.
  assert (Hq' : 0 < q') by nia. assert (HP' : 0 <= P' < 2 ^ 53) by nia.
  destruct (rn_exact 1 l 0 (2 ^ l) 1) as (n2 & d2 & E2 & P2 & V2);
    [lia|lia|lia|lia|change (2 ^ 0) with 1; lia| |].
  { change (2 ^ 0) with 1. set (T := 2 ^ 1024) in *. clearbody T. lia. }
  rewrite E2. change (2 ^ 0) with 1 in V2. assert (n2 = 2 ^ l * d2) by lia. subst n2. clear V2 E2.
  destruct (rn p q) as [|n1 d1] eqn:E1.
  - (* no overflow: the number is below 2^53 *)
    exfalso. revert E1. unfold rn. destruct (Z.eqb_spec p 0); [discriminate|].
    destruct (flog2_spec p q ltac:(lia) Hq) as [S1 S2]. cbn zeta in *.
    set (f := flog2 p q) in *. clearbody f.
    assert (Hpq : p < q * 2 ^ 53) by nia.
    destruct (Z.leb_spec 0 (f - 52)) as [He|He].
    + destruct (S1 ltac:(lia)) as [L _].
      assert (f < 53).
      { destruct (Z.lt_ge_cases f 53); [assumption|].
        assert (2 ^ 53 <= 2 ^ f) by (apply Z.pow_le_mono_r; lia). nia. }
      replace (f - 52) with 0 by lia. change (2 ^ 0) with 1.
      destruct (Z.leb_spec (2 ^ 1024 * 1) (round_half_even p (q * 1) * 1)) as [Hov|]; [|discriminate].
      assert (R := rhe_bound p (q * 1) (2 ^ 53) ltac:(lia) Hp ltac:(lia)). intros _.
      assert (2 ^ 53 < 2 ^ 1024) by now vm_compute. set (T := 2 ^ 1024) in *. clearbody T. lia.
    + set (e := - (f - 52)) in *. assert (He' : 0 < e) by (unfold e; lia).
      assert (U : p * 2 ^ e < q * 2 ^ 53).
      { destruct (Z.le_gt_cases 0 f) as [Hf|Hf].
        - destruct (S1 Hf) as [_ U]. replace 53 with (f + 1 + e) by (unfold e; lia).
          rewrite (pow2_split (f + 1)) by lia. assert (Pe := pow2_pos e ltac:(lia)). nia.
        - destruct (S2 Hf) as [_ U]. replace e with (- f + 52) by (unfold e; lia).
          rewrite pow2_split by lia. change (2 ^ 53) with (2 * 2 ^ 52). nia. }
      clearbody e. assert (Pe := pow2_pos e ltac:(lia)).
      destruct (Z.leb_spec (2 ^ 1024 * 2 ^ e) (round_half_even (p * 2 ^ e) q)) as [Hov|]; [|discriminate].
      assert (R := rhe_bound (p * 2 ^ e) q (2 ^ 53) Hq ltac:(nia) ltac:(lia)). intros _.
      assert (2 ^ 53 < 2 ^ 1024) by now vm_compute. set (T := 2 ^ 1024) in *. clearbody T.
      assert (T * 1 <= T * 2 ^ e) by (apply Z.mul_le_mono_nonneg_l; lia). lia.
  - cbn [fmul].
    destruct (rn_error p q n1 d1 Hp Hq E1) as [P1 R1].
    (* the product with a power of two is exact *)
    assert (X : exists n3 d3, rn (n1 * (2 ^ l * d2)) (d1 * d2) = FFin n3 d3 /\ 0 < d3 /\
                 n3 * d1 = n1 * 2 ^ l * d3).
    { destruct (rn_shape p q n1 d1 Hp Hq E1) as (a & k & f & Ha & Hk & Hf & -> & ->).
      assert (Pf := pow2_pos f Hf). assert (Pk := pow2_pos k Hk).
      assert (B : a * 2 ^ k * 2 ^ l <= 2 ^ 54 * 2 ^ f).
      { assert (B1 : a * 2 ^ k * q <= 2 * (p * 2 ^ f)).
        { set (A := Z.abs (a * 2 ^ k * q - p * 2 ^ f)) in R1. set (W := 2 ^ 53) in *.
          assert (1 < W) by now vm_compute. clearbody W.
          assert (A <= p * 2 ^ f) by nia. lia. }
        assert (B2 : p * 2 ^ l <= q * 2 ^ 53) by nia.
        assert (B3 : a * 2 ^ k * 2 ^ l * q <= 2 ^ 54 * 2 ^ f * q); [|nia].
        apply Z.le_trans with (2 * (p * 2 ^ l) * 2 ^ f); [nia|].
        change (2 ^ 54) with (2 * 2 ^ 53). nia. }
      destruct (rn_exact a (k + l) f (a * 2 ^ k * (2 ^ l * d2)) (2 ^ f * d2)) as (n3 & d3 & E3 & P3 & V3).
      - exact Ha.
      - lia.
      - lia.
      - nia.
      - rewrite pow2_split by lia. ring.
      - rewrite pow2_split by lia. set (T := 2 ^ 1024) in *. set (W := 2 ^ 54) in *.
        assert (W < T) by now vm_compute. clearbody T W. nia.
      - exists n3, d3. split; [exact E3|]. split; [exact P3|].
        rewrite pow2_split in V3 by lia. lia. }
    destruct X as (n3 & d3 & E3 & P3 & V3). rewrite E3. cbn [fint]. f_equal.
    set (I := p * 2 ^ l / q). assert (EI : I = P' / q').
    { unfold I. rewrite EP, Eq. apply Z.div_mul_cancel_r; lia. }
    clearbody I.
    assert (DM := Z.div_mod P' q' ltac:(lia)). assert (MB := Z.mod_pos_bound P' q' Hq').
    rewrite <- EI in DM.
    assert (K : Z.abs (n1 * 2 ^ l * q' - P' * d1) < d1).
    { assert (K1 : Z.abs ((n1 * q - p * d1) * 2 ^ l) * 2 ^ 53 <= p * d1 * 2 ^ l).
      { rewrite Z.abs_mul, (Z.abs_eq (2 ^ l)) by lia. nia. }
      replace ((n1 * q - p * d1) * 2 ^ l) with ((n1 * 2 ^ l * q' - P' * d1) * g) in K1
        by (rewrite Eq; replace ((n1 * (q' * g) - p * d1) * 2 ^ l)
              with (n1 * 2 ^ l * q' * g - p * 2 ^ l * d1) by ring; rewrite EP; ring).
      replace (p * d1 * 2 ^ l) with (P' * d1 * g) in K1
        by (replace (p * d1 * 2 ^ l) with (p * 2 ^ l * d1) by ring; rewrite EP; ring).
      rewrite Z.abs_mul, (Z.abs_eq g) in K1 by lia.
      set (A := Z.abs (n1 * 2 ^ l * q' - P' * d1)) in *. clearbody A.
      set (W := 2 ^ 53) in *. assert (0 < W) by now vm_compute. clearbody W.
      assert (A * W <= P' * d1) by nia. nia. }
    assert (Lo : I * d1 <= n1 * 2 ^ l).
    { destruct (Z.eq_dec (P' mod q') 0) as [Em|Em].
      - (* an integer: the conversion is exact *)
        assert (HI : 0 <= I < 2 ^ 53) by nia.
        destruct (rn_exact I 0 l p q) as (n4 & d4 & E4 & P4 & V4).
        + exact HI.
        + lia.
        + lia.
        + exact Hq.
        + change (2 ^ 0) with 1. rewrite EP, Eq, DM, Em. ring.
        + change (2 ^ 0) with 1. set (T := 2 ^ 1024) in *. set (W := 2 ^ 53) in *.
          assert (W < T) by now vm_compute. clearbody T W. nia.
        + rewrite E1 in E4. injection E4 as <- <-. change (2 ^ 0) with 1 in V4. lia.
      - assert (n1 * 2 ^ l * q' > P' * d1 - d1) by lia.
        assert (P' >= I * q' + 1) by nia. nia. }
    assert (Up : n1 * 2 ^ l < (I + 1) * d1).
    { assert (n1 * 2 ^ l * q' < P' * d1 + d1) by lia.
      assert (P' + 1 <= (I + 1) * q') by nia. nia. }
    symmetry. apply Z.div_unique with (n3 - d3 * I); [left; nia|lia].
Qed.

(** * Rounding keeps the order *)
Lemma rhe_scale n d c : 0 < d -> 0 < c -> round_half_even (n * c) (d * c) = round_half_even n d.
Proof.
  intros Hd Hc. unfold round_half_even. rewrite Z.div_mul_cancel_r by lia.
  rewrite Z.mul_mod_distr_r by lia.
  replace (2 * (n mod d * c)) with (2 * (n mod d) * c) by ring.
  destruct (Z.ltb_spec (2 * (n mod d)) d), (Z.ltb_spec (2 * (n mod d) * c) (d * c)); try nia; try reflexivity.
  destruct (Z.ltb_spec d (2 * (n mod d))), (Z.ltb_spec (d * c) (2 * (n mod d) * c)); try nia; reflexivity.
Qed.
Lemma rhe_mono n n' d : 0 < d -> n <= n' -> round_half_even n d <= round_half_even n' d.
Proof.
  intros Hd H. destruct (Z.eq_dec n n') as [->|Hne]; [lia|].
  assert (R := rhe_error n d Hd). assert (R' := rhe_error n' d Hd).
  set (k := round_half_even n d) in *. set (k' := round_half_even n' d) in *. clearbody k k'.
  destruct (Z.le_gt_cases k k'); [assumption|exfalso].
  assert ((k' + 1) * d <= k * d) by (apply Z.mul_le_mono_nonneg_r; lia). lia.
Qed.
Lemma rhe_mono_frac n d n' d' : 0 < d -> 0 < d' -> n * d' <= n' * d -> round_half_even n d <= round_half_even n' d'.
Proof.
  intros Hd Hd' H. rewrite <- (rhe_scale n d d'), <- (rhe_scale n' d' d) by assumption.
  rewrite (Z.mul_comm d' d). apply rhe_mono; nia.
Qed.
Lemma flog2_scaled p q F : 0 < p -> 0 < q -> 0 <= F -> 0 <= F + flog2 p q ->
  q * 2 ^ (F + flog2 p q) <= p * 2 ^ F < q * 2 ^ (F + flog2 p q + 1).
Proof.
  intros Hp Hq HF Hg. destruct (flog2_spec p q Hp Hq) as [S1 S2]. cbn zeta in *.
  set (g := flog2 p q) in *. clearbody g. destruct (Z.le_gt_cases 0 g) as [H|H].
  - destruct (S1 H) as [L U]. replace (F + g + 1) with (F + (g + 1)) by lia.
    rewrite !pow2_split by lia. assert (PF := pow2_pos F HF).
    rewrite pow2_split in U by lia. change (2 ^ 1) with 2 in *. nia.
  - destruct (S2 H) as [L U]. replace (2 ^ F) with (2 ^ (- g) * 2 ^ (F + g)) by (rewrite <- pow2_split by lia; f_equal; lia).
    rewrite (pow2_split (F + g) 1) by lia. change (2 ^ 1) with 2.
    assert (PF := pow2_pos (F + g) Hg). nia.
Qed.
Lemma rn_form p q a b F : 0 < p -> 0 < q -> rn p q = FFin a b -> 0 <= F -> 0 <= F + (flog2 p q - 52) ->
  0 < b /\ a * 2 ^ F = b * (round_half_even (p * 2 ^ F) (q * 2 ^ (F + (flog2 p q - 52))) * 2 ^ (F + (flog2 p q - 52))).
Proof.
  intros Hp Hq E HF He. unfold rn in E. destruct (Z.eqb_spec p 0) as [|_]; [lia|].
  set (e := flog2 p q - 52) in *. clearbody e. destruct (Z.leb_spec 0 e) as [H|H].
  - destruct (_ <=? _); [discriminate|]. injection E as <- <-. split; [lia|].
    assert (P := pow2_pos e H). rewrite (Z.add_comm F e), pow2_split by lia.
    replace (q * (2 ^ e * 2 ^ F)) with (q * 2 ^ e * 2 ^ F) by ring.
    rewrite (rhe_scale p (q * 2 ^ e) (2 ^ F)); [ring|nia|now apply pow2_pos].
  - destruct (_ <=? _); [discriminate|]. injection E as <- <-. split; [apply pow2_pos; lia|].
    assert (X : 2 ^ F = 2 ^ (- e) * 2 ^ (F + e)) by (rewrite <- pow2_split by lia; f_equal; lia).
    assert (PB := pow2_pos (F + e) He). rewrite X. set (A := 2 ^ (- e)) in *. set (B := 2 ^ (F + e)) in *. clearbody A B.
    rewrite (Z.mul_assoc p A B). rewrite rhe_scale by assumption. ring.
Qed.
Lemma rn_mono p q a b p' q' a' b' : 0 <= p -> 0 < q -> 0 <= p' -> 0 < q' ->
  p * q' <= p' * q -> rn p q = FFin a b -> rn p' q' = FFin a' b' -> a * b' <= a' * b.
Proof.
  intros Hp Hq Hp' Hq' H E E'.
  destruct (Z.eq_dec p 0) as [->|Hp0].
  { cbn in E. injection E as <- <-. destruct (rn_shape p' q' a' b' Hp' Hq' E') as (x & k & f & Hx & Hk & Hf & -> & ->).
    assert (P := pow2_pos k Hk). assert (P2 := pow2_pos f Hf). nia. }
  assert (Hp'0 : 0 < p') by nia. assert (Hpp : 0 < p) by lia. clear Hp Hp' Hp0.
  set (F := Z.abs (flog2 p q) + Z.abs (flog2 p' q') + 52).
  assert (HF : 0 <= F) by lia. assert (PF := pow2_pos F HF).
  destruct (flog2_scaled p q F Hpp Hq HF ltac:(lia)) as [L U].
  destruct (flog2_scaled p' q' F Hp'0 Hq' HF ltac:(lia)) as [L' U'].
  destruct (rn_form p q a b F Hpp Hq E HF ltac:(lia)) as [Hb R].
  destruct (rn_form p' q' a' b' F Hp'0 Hq' E' HF ltac:(lia)) as [Hb' R'].
  set (g := flog2 p q) in *. set (g' := flog2 p' q') in *.
  assert (Hg0 : 0 <= F + (g - 52)) by lia. assert (Hg0' : 0 <= F + (g' - 52)) by lia.
  set (T := 2 ^ F) in *. clearbody F g g'.
  assert (Hgg : g <= g').
  { destruct (Z.le_gt_cases g g'); [assumption|exfalso].
    assert (M : 2 ^ (F + g' + 1) <= 2 ^ (F + g)) by (apply Z.pow_le_mono_r; lia).
    assert (A1 : q * 2 ^ (F + g' + 1) <= p * T) by nia.
    assert (A2 : q * q' * 2 ^ (F + g' + 1) <= p * q' * T) by nia.
    assert (A3 : p' * q * T < q * q' * 2 ^ (F + g' + 1)) by nia. nia. }
  (* compare a / b and a' / b' after multiplication with T *)
  enough (K : round_half_even (p * T) (q * 2 ^ (F + (g - 52))) * 2 ^ (F + (g - 52)) <=
              round_half_even (p' * T) (q' * 2 ^ (F + (g' - 52))) * 2 ^ (F + (g' - 52))).
  { set (x := round_half_even (p * T) _ * _) in *. set (x' := round_half_even (p' * T) _ * _) in *. clearbody x x' T.
    apply (Z.mul_le_mono_pos_r _ _ T PF). replace (a * b' * T) with (a * T * b') by ring. replace (a' * b * T) with (a' * T * b) by ring.
    rewrite R, R'. replace (b * x * b') with (x * (b * b')) by ring. replace (b' * x' * b) with (x' * (b * b')) by ring.
    apply Z.mul_le_mono_nonneg_r; [|exact K]. assert (0 < b * b') by (apply Z.mul_pos_pos; assumption). lia. }
  destruct (Z.eq_dec g g') as [<-|Hne].
  - set (Q := 2 ^ (F + (g - 52))) in *. assert (PQ : 0 < Q) by now apply pow2_pos. clearbody Q.
    apply Z.mul_le_mono_nonneg_r; [lia|]. apply rhe_mono_frac; [nia|nia|].
    replace (p * T * (q' * Q)) with (p * q' * (T * Q)) by ring.
    replace (p' * T * (q * Q)) with (p' * q * (T * Q)) by ring. apply Z.mul_le_mono_nonneg_r; nia.
  - apply Z.le_trans with (2 ^ 53 * 2 ^ (F + (g - 52))).
    + apply Z.mul_le_mono_nonneg_r; [apply Z.pow_nonneg; lia|].
      apply rhe_bound; [assert (P := pow2_pos (F + (g - 52)) Hg0); nia|nia|].
      replace (F + g + 1) with (53 + (F + (g - 52))) in U by lia. rewrite pow2_split in U by lia. nia.
    + apply Z.le_trans with (2 ^ 52 * 2 ^ (F + (g' - 52))).
      * rewrite <- !pow2_split by lia. apply Z.pow_le_mono_r; lia.
      * apply Z.mul_le_mono_nonneg_r; [apply Z.pow_nonneg; lia|].
        assert (P := pow2_pos (F + (g' - 52)) Hg0').
        rewrite <- (rhe_exact (2 ^ 52) (q' * 2 ^ (F + (g' - 52)))) by nia. apply rhe_mono; [nia|].
        replace (F + g') with (52 + (F + (g' - 52))) in L' by lia. rewrite pow2_split in L' by lia.
        set (X := 2 ^ 52) in *. clearbody X. nia.
Qed.
