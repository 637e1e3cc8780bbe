From Coq Require Import List NArith ZArith QArith Qabs Lqa Bool Lia.
From Verif Require Import Py FloatLib ConvertModel ConvertSpec HumanModel HumanSpec SizeProofs DurationProofs TimeMoreProofs.
Import ListNotations.
Local Open Scope Z_scope.

(** num / den as a rational number. *)
Definition qv (a b : Z) : Q := a # Z.to_pos b.
Definition ulp : Q := 1 # 9007199254740992.

Lemma qv_le a b c d : 0 < b -> 0 < d -> (qv a b <= qv c d)%Q <-> a * d <= c * b.
Proof. intros. unfold qv, Qle. cbn [Qnum Qden]. rewrite !Z2Pos.id by assumption. reflexivity. Qed.
Lemma qv_lt a b c d : 0 < b -> 0 < d -> (qv a b < qv c d)%Q <-> a * d < c * b.
Proof. intros. unfold qv, Qlt. cbn [Qnum Qden]. rewrite !Z2Pos.id by assumption. reflexivity. Qed.

Lemma rn_near p q a b : 0 <= p -> 0 < q -> rn p q = FFin a b ->
  0 < b /\ (qv p q * (1 - ulp) <= qv a b <= qv p q * (1 + ulp))%Q.
Proof.
  intros Hp Hq E. destruct (rn_error p q a b Hp Hq E) as [Hb R]. split; [assumption|].
  change (2 ^ 53) with 9007199254740992 in R.
  destruct q as [|q|q]; try lia. destruct b as [|b|b]; try lia.
  unfold qv, ulp. cbn [Z.to_pos]. unfold Qle, Qmult, Qplus, Qminus, Qopp. cbn [Qnum Qden].
  rewrite !Pos2Z.inj_mul.
  change (Qnum (1 + (- (1) # 9007199254740992))) with 9007199254740991.
  change (QDen (1 + (- (1) # 9007199254740992))) with 9007199254740992.
  assert (0 <= p * Z.pos b) by nia.
  replace (a * (Z.pos q * 9007199254740992)) with (a * Z.pos q * 9007199254740992) by ring.
  replace (p * 9007199254740991 * Z.pos b) with (p * Z.pos b * 9007199254740991) by ring.
  replace (p * (9007199254740992 + 1 * 1) * Z.pos b) with (p * Z.pos b * 9007199254740993) by ring.
  lia.
Qed.
Lemma rhe_near a b : 0 < b -> (qv a b - (1 # 20) <= qv (round_half_even (a * 10) b) 10 <= qv a b + (1 # 20))%Q.
Proof.
  intros Hb. assert (R := rhe_error (a * 10) b Hb). set (k := round_half_even (a * 10) b) in *. clearbody k.
  destruct b as [|b|b]; try lia. unfold qv. cbn [Z.to_pos]. unfold Qle, Qplus, Qminus, Qopp. cbn [Qnum Qden].
  change (Qnum ((a # b) + (- (1) # 20))) with (a * 20 + - 1 * Z.pos b).
  change (QDen ((a # b) + (- (1) # 20))) with (Z.pos (b * 20)).
  rewrite !Pos2Z.inj_mul. split; nia.
Qed.
Lemma qv_div a b c : 0 < b -> 0 < c -> (qv a (b * c) * qv c 1 == qv a b)%Q.
Proof.
  intros Hb Hc. destruct b as [|b|b]; try lia. destruct c as [|c|c]; try lia.
  unfold qv, Qeq. cbn [Qnum Qden Z.to_pos Qmult Z.mul]. rewrite !Pos2Z.inj_mul. ring.
Qed.

(** One round of the loop.  T is the exact number of units, c + e bounds the
    error so far. *)
Definition c0 : Q := 251 # 5000.
Definition h0 : Q := 3 # 9007199254740992.
Definition close (x T e : Q) : Prop := (T - c0 - e <= x <= T + c0 + e)%Q.
Lemma step si num den a b T T' e e' : 0 < den -> base_of si * den <= num ->
  rn num (den * base_of si) = FFin a b ->
  (T' * qv (base_of si) 1 == T)%Q -> (e' * qv (base_of si) 1 == e)%Q ->
  (0 <= e)%Q -> (e * 1000 <= T)%Q -> close (qv num den) T e ->
  0 < b /\ 10 <= round_half_even (a * 10) b /\
  (qv (round_half_even (a * 10) b) 10 <= qv num den * 2 + 1)%Q /\
  forall a' b', round1 a b = FFin a' b' ->
    0 < b' /\ close (qv a' b') T' (e' + h0 * T') /\
    close (qv (round_half_even (a * 10) b) 10) T' (e' + h0 * T').
Proof.
  intros Hd Hn E1 ET Ee He HeT [C1 C2].
  assert (HB : base_of si = 1000 \/ base_of si = 1024) by (destruct si; auto).
  assert (HB0 : 0 < base_of si) by lia.
  destruct (rn_near num (den * base_of si) a b) as (Hb & N1 & N2);
    [destruct HB as [HB|HB]; rewrite HB in Hn; lia|now apply Z.mul_pos_pos|assumption|].
  assert (Ez := qv_div num den (base_of si) Hd HB0).
  assert (X : (qv (base_of si) 1 <= qv num den)%Q) by (rewrite qv_le; lia).
  assert (R := rhe_near a b Hb). set (k := round_half_even (a * 10) b) in *.
  set (z := qv num (den * base_of si)) in *. set (y := qv a b) in *. set (x := qv num den) in *.
  unfold c0, ulp in *.
  assert (Hy : ((1 - (1 # 9007199254740992)) <= y)%Q).
  { destruct HB as [HB|HB]; rewrite HB in *; unfold qv in Ez, X; cbn [Z.to_pos] in *; lra. }
  assert (Hk : 10 <= k).
  { destruct R as [R1 R2]. assert ((qv 9 10 < qv k 10)%Q) as Q1.
    { unfold qv at 1. cbn [Z.to_pos]. lra. }
    rewrite qv_lt in Q1 by lia. lia. }
  split; [assumption|]. split; [assumption|]. split.
  { destruct HB as [HB|HB]; rewrite HB in *; unfold qv in Ez, X; cbn [Z.to_pos] in *; lra. }
  intros a' b' E2. unfold round1 in E2. fold k in E2.
  destruct (rn_near k 10 a' b' ltac:(lia) ltac:(lia) E2) as (Hb' & N3 & N4). split; [assumption|].
  unfold close, c0, h0, ulp in *. set (w := qv k 10) in *. set (x' := qv a' b') in *.
  clearbody w x' y z x. clear E1 E2 Hn Hd Hb Hb' Hk k.
  destruct HB as [HB|HB]; rewrite HB in *; unfold qv in *; cbn [Z.to_pos] in *; split; lra.
Qed.

(** The state after i rounds. *)
Definition units_of (si : bool) (n i : Z) : Q := qv n (base_of si ^ i).
Definition slack (i : Z) (T : Q) : Q := ((3 * i # 9007199254740992) * T)%Q.
Definition state (si : bool) (n i num den : Z) : Prop :=
  0 < den /\ close (qv num den) (units_of si n i) (slack i (units_of si n i)) /\
  ((i = 0 /\ num = n /\ den = 1) \/
   1 <= i /\ exists k, 10 <= k /\ rn k 10 = FFin num den /\
     close (qv k 10) (units_of si n i) (slack i (units_of si n i))).

Lemma base_pos si : 0 < base_of si.
Proof. now destruct si. Qed.
Lemma base_pow si i : 0 <= i -> 1 <= base_of si ^ i.
Proof. intros. assert (0 < base_of si ^ i) by (apply Z.pow_pos_nonneg; [apply base_pos|assumption]). lia. Qed.
Lemma units_pos si n i : 0 <= n -> 0 <= i -> (0 <= units_of si n i)%Q /\ (units_of si n i <= qv n 1)%Q.
Proof.
  intros. assert (B := base_pow si i ltac:(assumption)). unfold units_of. split.
  - change 0%Q with (qv 0 1). rewrite qv_le; lia.
  - rewrite qv_le; nia.
Qed.
Lemma units_next si n i : 0 <= i -> (units_of si n (i + 1) * qv (base_of si) 1 == units_of si n i)%Q.
Proof.
  intros. unfold units_of. rewrite Z.pow_add_r, Z.pow_1_r by lia. apply qv_div; [|apply base_pos].
  assert (B := base_pow si i ltac:(assumption)). lia.
Qed.
Lemma slack_bound i T : 0 <= i <= 9 -> (0 <= T)%Q -> (0 <= slack i T)%Q /\ (slack i T <= (27 # 9007199254740992) * T)%Q.
Proof.
  intros Hi HT. unfold slack. split.
  - apply Qmult_le_0_compat; [|assumption]. unfold Qle. cbn [Qnum Qden]. lia.
  - apply Qmult_le_compat_r; [|assumption]. unfold Qle. cbn [Qnum Qden]. lia.
Qed.
Lemma slack_next i T : (slack (i + 1) T == slack i T + h0 * T)%Q.
Proof.
  unfold slack, h0. assert (E : ((3 * (i + 1) # 9007199254740992) == (3 * i # 9007199254740992) + (3 # 9007199254740992))%Q).
  { unfold Qeq, Qplus. cbn [Qnum Qden]. rewrite Pos2Z.inj_mul. ring. }
  rewrite E. ring.
Qed.
Lemma state_0 si n : 0 <= n -> state si n 0 n 1.
Proof.
  intros Hn. split; [lia|]. split; [|now left].
  unfold close, units_of, slack, c0. rewrite Z.pow_0_r, Z.mul_0_r.
  assert (E : ((0 # 9007199254740992) == 0)%Q) by reflexivity. rewrite E. set (x := qv n 1). clearbody x. lra.
Qed.
Lemma state_upper si n i num den : 0 <= n -> 0 <= i <= 9 -> state si n i num den ->
  (qv num den <= qv (2 * n + 1) 1)%Q.
Proof.
  intros Hn Hi (Hd & [_ C] & _). destruct (units_pos si n i Hn ltac:(lia)) as [P U].
  destruct (slack_bound i _ Hi P) as [S1 S2].
  assert (E : (qv (2 * n + 1) 1 == 2 * qv n 1 + 1)%Q).
  { unfold qv, Qeq. cbn [Z.to_pos Qnum Qden Qplus Qmult]. lia. }
  rewrite E. unfold c0 in C. lra.
Qed.
Lemma state_step si n i num den : 0 <= n < 2 ^ 100 -> 0 <= i <= 8 -> state si n i num den -> base_of si * den <= num ->
  exists a b a' b', rn num (den * base_of si) = FFin a b /\ round1 a b = FFin a' b' /\ state si n (i + 1) a' b'.
Proof.
  intros Hn Hi S Hge. assert (U := state_upper si n i num den ltac:(lia) ltac:(lia) S).
  destruct S as (Hd & C & _). rewrite qv_le in U by lia.
  assert (Pb := base_pos si).
  destruct (units_pos si n i ltac:(lia) ltac:(lia)) as [P _].
  destruct (slack_bound i _ ltac:(lia) P) as [S1 S2].
  assert (F := fun a b H => step si num den a b (units_of si n i) (units_of si n (i + 1)) (slack i (units_of si n i))
     (slack i (units_of si n (i + 1))) Hd Hge H (units_next si n i ltac:(lia))).
  assert (K : 2 * 2 ^ 100 + 1 < 2 ^ 1000) by now vm_compute.
  destruct (rn num (den * base_of si)) as [|a b] eqn:E1.
  { exfalso. apply (rn_finite num (den * base_of si)); [nia|now apply Z.mul_pos_pos| |assumption].
    set (X := 2 ^ 1000) in *. set (Y := 2 ^ 100) in *. clearbody X Y. nia. }
  destruct (F a b eq_refl) as (Hb & Hk & Hk2 & F2).
  - unfold slack. rewrite <- (units_next si n i) by lia. ring.
  - assumption.
  - lra.
  - assumption.
  - set (k := round_half_even (a * 10) b) in *.
    assert (Hkn : (qv k 10 <= qv (2 * (2 * n + 1) + 1) 1)%Q).
    { assert (U' : (qv num den <= qv (2 * n + 1) 1)%Q) by (rewrite qv_le; lia).
      assert (E : (qv (2 * (2 * n + 1) + 1) 1 == qv (2 * n + 1) 1 * 2 + 1)%Q).
      { unfold qv, Qeq. cbn [Z.to_pos Qnum Qden Qplus Qmult]. lia. }
      rewrite E. lra. }
    rewrite qv_le in Hkn by lia.
    destruct (round1 a b) as [|a' b'] eqn:E2.
    { exfalso. unfold round1 in E2. fold k in E2. apply (rn_finite k 10); [lia|lia| |assumption].
      assert (K2 : 10 * (4 * 2 ^ 100 + 3) < 10 * 2 ^ 1000) by now vm_compute.
      set (X := 2 ^ 1000) in *. set (Y := 2 ^ 100) in *. clearbody X Y. lia. }
    exists a, b, a', b'. split; [reflexivity|]. split; [exact E2|].
    destruct (F2 a' b' eq_refl) as (Hb' & C1 & C2).
    assert (W : forall x T e e', (e == e')%Q -> close x T e -> close x T e').
    { unfold close. intros x T e e' Ee H. lra. }
    assert (Sn := Qeq_sym _ _ (slack_next i (units_of si n (i + 1)))).
    split; [assumption|]. split; [now apply (W _ _ _ _ Sn)|]. right. split; [lia|].
    exists k. split; [assumption|]. split; [assumption|]. now apply (W _ _ _ _ Sn).
Qed.

(** Comparing the number with an integer. *)
Lemma tenths_lt k num den m : 0 <= k -> 0 < m < 2 ^ 40 -> rn k 10 = FFin num den -> (num <? m * den) = (k <? 10 * m).
Proof.
  intros Hk Hm E. destruct (rn_error k 10 num den ltac:(lia) ltac:(lia) E) as [Hd R].
  change (2 ^ 53) with 9007199254740992 in R. change (2 ^ 40) with 1099511627776 in Hm.
  destruct (Z.ltb_spec k (10 * m)) as [H|H]; [apply Z.ltb_lt|apply Z.ltb_ge].
  - assert (k * den <= (10 * m - 1) * den) by (apply Z.mul_le_mono_nonneg_r; lia). nia.
  - destruct (Z.eq_dec k (10 * m)) as [->|Hne].
    + destruct (rn_exact m 0 0 (10 * m) 10) as (a & b & E2 & Hb & V);
        [change (2 ^ 53) with 9007199254740992; lia|lia|lia|lia|change (2 ^ 0) with 1; lia| |].
      * assert (1099511627776 < 2 ^ 1024) by now vm_compute. set (X := 2 ^ 1024) in *. clearbody X.
        change (2 ^ 0) with 1. lia.
      * change (2 ^ 0) with 1 in V. rewrite E in E2. injection E2 as -> ->. lia.
    + assert ((10 * m + 1) * den <= k * den) by (apply Z.mul_le_mono_nonneg_r; lia). nia.
Qed.
Lemma rhe_unique n d k : 0 < d -> 2 * Z.abs (k * d - n) < d -> round_half_even n d = k.
Proof.
  intros Hd H. assert (R := rhe_error n d Hd). set (j := round_half_even n d) in *. clearbody j.
  assert (Z.abs (j - k) * d < 1 * d) by nia. assert (Z.abs (j - k) < 1) by nia. lia.
Qed.
Lemma tenths_digit k num den : 0 <= k < 2 ^ 40 -> rn k 10 = FFin num den -> round_half_even (num * 10) den = k.
Proof.
  intros Hk E. destruct (rn_error k 10 num den ltac:(lia) ltac:(lia) E) as [Hd R].
  change (2 ^ 53) with 9007199254740992 in R. change (2 ^ 40) with 1099511627776 in Hk.
  apply rhe_unique; [assumption|].
  assert (k * den <= 1099511627776 * den) by (apply Z.mul_le_mono_nonneg_r; lia).
  lia.
Qed.
Lemma tenths_int k num den : 0 <= k < 2 ^ 33 -> rn k 10 = FFin num den -> fint (FFin num den) = Ok (k / 10).
Proof.
  intros Hk E. assert (B := Z.mod_pos_bound k 10 ltac:(lia)). assert (D := Z.div_mod k 10 ltac:(lia)).
  rewrite <- (rn_floor (k / 10) (k mod 10) 1).
  - rewrite <- E. f_equal. f_equal; lia.
  - split; [apply Z.div_pos; lia|]. apply Z.div_lt_upper_bound; lia.
  - lia.
  - assumption.
Qed.

(** The loop ends with the first number below the base. *)
Lemma top_small si n num den : 0 <= n <= (base_of si - 1) * base_of si ^ 8 -> state si n 8 num den -> num < base_of si * den.
Proof.
  intros Hn (Hd & [_ C] & _). assert (B := base_pow si 8 ltac:(lia)).
  destruct (units_pos si n 8 ltac:(lia) ltac:(lia)) as [P _].
  destruct (slack_bound 8 _ ltac:(lia) P) as [S1 S2].
  assert (U : (units_of si n 8 <= qv (base_of si - 1) 1)%Q) by (unfold units_of; rewrite qv_le; lia).
  assert (G : (qv num den < qv (base_of si) 1)%Q).
  { unfold c0 in C. destruct si; unfold base_of, qv in U |- *; unfold base_of, qv in C;
      cbn [Z.to_pos] in *; change (1000 - 1) with 999 in U; change (1024 - 1) with 1023 in U; lra. }
  rewrite qv_lt in G by lia. lia.
Qed.
Lemma scale_loop si n : 0 <= n <= (base_of si - 1) * base_of si ^ 8 -> forall rest i unit num den,
  0 <= i <= 8 -> rest = skipn (Z.to_nat i) UNITS -> state si n i num den ->
  exists j u a b, i <= j <= 8 /\ scale (base_of si) rest unit num den = Ok (u, a, b) /\
    nth_error UNITS (Z.to_nat j) = Some u /\ state si n j a b /\ a < base_of si * b.
Proof.
  intros Hn. assert (Hn2 : 0 <= n < 2 ^ 100).
  { split; [lia|]. apply Z.le_lt_trans with (1 := proj2 Hn). now destruct si; vm_compute. }
  induction rest as [|u rest IH]; intros i unit num den Hi E S.
  - exfalso. assert (H : (Z.to_nat i < 9)%nat) by lia. symmetry in E.
    assert (L := skipn_length (Z.to_nat i) UNITS). rewrite E in L. cbn [length UNITS] in L. lia.
  - assert (Hu : nth_error UNITS (Z.to_nat i) = Some u /\ rest = skipn (Z.to_nat (i + 1)) UNITS).
    { replace (Z.to_nat (i + 1)) with (Datatypes.S (Z.to_nat i)) by lia.
      clear - E. revert E. generalize UNITS (Z.to_nat i). intros l m. revert l.
      induction m as [|m IH]; intros [|x l] E; try discriminate; cbn in *.
      - injection E as -> ->. auto.
      - destruct (IH l E) as [H1 H2]. auto. }
    destruct Hu as [Hu Er]. cbn [scale].
    destruct (Z.ltb_spec num (base_of si * den)) as [H|H].
    { exists i, u, num, den. split; [lia|]. auto. }
    destruct (Z.eq_dec i 8) as [->|Hne].
    { assert (T := top_small si n num den Hn S). lia. }
    destruct (state_step si n i num den Hn2 ltac:(lia) S H) as (a & b & a' & b' & E1 & E2 & S').
    rewrite E1, E2. destruct (IH (i + 1) u a' b' ltac:(lia) Er S') as (j & v & x & y & Hj & R).
    exists j, v, x, y. split; [lia|]. exact R.
Qed.

Lemma unit_at si j u : 1 <= j <= 8 -> nth_error UNITS (Z.to_nat j) = Some u ->
  unit_text si j (if base_of si =? 1000 then u ++ $"B" else u).
Proof.
  intros Hj. assert (C : j = 1 \/ j = 2 \/ j = 3 \/ j = 4 \/ j = 5 \/ j = 6 \/ j = 7 \/ j = 8) by lia.
  repeat (destruct C as [->|C]); try subst j; vm_compute nth_error; intros [= <-];
    (destruct si; eexists; (split; [|reflexivity]); vm_compute; tauto).
Qed.

Lemma size_shown si n : 0 <= n <= (base_of si - 1) * base_of si ^ 8 ->
  exists s, size_output si n = Ok s /\ Shown si n s.
Proof.
  intros Hn. unfold size_output. change (if si then 1000 else 1024) with (base_of si). unfold format_size.
  destruct (Z.ltb_spec n (base_of si)) as [H|H].
  { eexists. split; [reflexivity|]. now constructor. }
  destruct (scale_loop si n Hn UNITS 0 [] n 1 ltac:(lia) eq_refl (state_0 si n ltac:(lia)))
    as (j & u & a & b & Hj & E & Hu & (Hb & _ & S) & Hlt).
  rewrite E. cbn [bindr].
  destruct S as [(-> & -> & ->)|(Hj1 & k & Hk & Ek & [C1 C2])]; [lia|].
  assert (Hu' := unit_at si j u ltac:(lia) Hu). cbn zeta. set (v := if base_of si =? 1000 then _ else _) in *. clearbody v.
  assert (HB : base_of si = 1000 \/ base_of si = 1024) by (destruct si; auto).
  assert (Kb : k < 10 * base_of si).
  { assert (T := tenths_lt k a b (base_of si) ltac:(lia)
      ltac:(change (2 ^ 40) with 1099511627776; lia) Ek).
    rewrite (proj2 (Z.ltb_lt _ _) Hlt) in T. symmetry in T. now apply Z.ltb_lt. }
  rewrite (tenths_lt k a b 10 ltac:(lia) ltac:(change (2 ^ 40) with 1099511627776; lia) Ek).
  (* the error *)
  assert (P := base_pow si j ltac:(lia)).
  destruct (units_pos si n j ltac:(lia) ltac:(lia)) as [Pu _].
  destruct (slack_bound j _ ltac:(lia) Pu) as [S1 S2].
  assert (Ks : (qv k 10 <= qv (base_of si) 1)%Q) by (rewrite qv_le; lia).
  assert (Err : 10000 * Z.abs (10 * n - k * base_of si ^ j) <= 5030 * base_of si ^ j).
  { set (X := slack j (units_of si n j)) in *. clearbody X. unfold c0 in *.
    assert (L1 : (qv (n * 10000) (base_of si ^ j) <= qv (k * 1000 + 503) 1)%Q).
    { assert (E1 : (qv (n * 10000) (base_of si ^ j) == 10000 * units_of si n j)%Q).
      { unfold units_of, qv, Qeq. cbn [Qnum Qden Qmult]. rewrite Pos.mul_1_l. ring. }
      assert (E2 : (qv (k * 1000 + 503) 1 == 10000 * qv k 10 + 503)%Q).
      { unfold qv, Qeq. cbn [Z.to_pos Qnum Qden Qplus Qmult]. lia. }
      rewrite E1, E2. set (T := units_of si n j) in *. clearbody T. set (K := qv k 10) in *. clearbody K.
      destruct HB as [HB|HB]; rewrite HB in *; unfold qv in *; cbn [Z.to_pos] in *; lra. }
    assert (L2 : (qv (k * 1000 - 503) 1 <= qv (n * 10000) (base_of si ^ j))%Q).
    { assert (E1 : (qv (n * 10000) (base_of si ^ j) == 10000 * units_of si n j)%Q).
      { unfold units_of, qv, Qeq. cbn [Qnum Qden Qmult]. rewrite Pos.mul_1_l. ring. }
      assert (E2 : (qv (k * 1000 - 503) 1 == 10000 * qv k 10 - 503)%Q).
      { unfold qv, Qeq. cbn [Z.to_pos Qnum Qden Qplus Qmult Qminus Qopp]. lia. }
      rewrite E1, E2. set (T := units_of si n j) in *. clearbody T. set (K := qv k 10) in *. clearbody K.
      destruct HB as [HB|HB]; rewrite HB in *; unfold qv in *; cbn [Z.to_pos] in *; lra. }
    rewrite qv_le in L1, L2 by lia. set (Y := base_of si ^ j) in *. clearbody Y.
    lia. }
  assert (D := Z.div_mod k 10 ltac:(lia)). assert (M := Z.mod_pos_bound k 10 ltac:(lia)).
  destruct (Z.ltb_spec k (10 * 10)) as [Ht|Ht].
  - unfold one_digit. rewrite (tenths_digit k a b) by (try assumption; change (2 ^ 40) with 1099511627776; lia).
    cbn zeta. eexists. split; [reflexivity|].
    replace ((str_of_Z (k / 10) ++ DOT :: str_of_Z (k mod 10)) ++ v)
      with (str_of_Z (k / 10) ++ DOT :: str_of_Z (k mod 10) ++ v) by now rewrite <- app_assoc.
    apply shown_decimal with j; [assumption| |lia|].
    + split; [apply Z.div_le_lower_bound; lia|]. assert (k / 10 < 10) by (apply Z.div_lt_upper_bound; lia). lia.
    + now rewrite <- D.
  - rewrite (tenths_int k a b) by (try assumption; change (2 ^ 33) with 8589934592; lia). cbn [bindr].
    eexists. split; [reflexivity|]. apply shown_integer with j; [assumption| |].
    + split; [apply Z.div_le_lower_bound; lia|]. apply Z.div_lt_upper_bound; lia.
    + set (Y := base_of si ^ j) in *. clearbody Y. set (m := k / 10) in *. set (r := k mod 10) in *. clearbody m r. subst k. nia.
Qed.

(** * Reading a printed size *)
Lemma qv_mul a b c d : 0 < b -> 0 < d -> (qv (a * c) (b * d) == qv a b * qv c d)%Q.
Proof.
  intros Hb Hd. destruct b as [|b|b]; try lia. destruct d as [|d|d]; try lia.
  unfold qv, Qeq. cbn [Qnum Qden Z.to_pos Qmult Z.mul]. ring.
Qed.
Lemma mul_near x X y Y : (0 <= X)%Q -> (0 <= Y)%Q ->
  (X * (1 - ulp) <= x <= X * (1 + ulp))%Q -> (Y * (1 - ulp) <= y <= Y * (1 + ulp))%Q ->
  ((X * Y) * ((1 - ulp) * (1 - ulp)) <= x * y <= (X * Y) * ((1 + ulp) * (1 + ulp)))%Q.
Proof.
  intros HX HY [x1 x2] [y1 y2]. assert (U : (0 <= 1 - ulp)%Q) by (unfold ulp; lra).
  assert (x0 : (0 <= x)%Q).
  { apply Qle_trans with (2 := x1). now apply Qmult_le_0_compat. }
  assert (Y1 : (0 <= Y * (1 - ulp))%Q) by now apply Qmult_le_0_compat.
  assert (y0 : (0 <= y)%Q) by (now apply Qle_trans with (2 := y1)). split.
  - setoid_replace (X * Y * ((1 - ulp) * (1 - ulp)))%Q with ((X * (1 - ulp)) * (Y * (1 - ulp)))%Q by ring.
    apply Qle_trans with (x * (Y * (1 - ulp)))%Q; [now apply Qmult_le_compat_r|].
    rewrite !(Qmult_comm x). now apply Qmult_le_compat_r.
  - setoid_replace (X * Y * ((1 + ulp) * (1 + ulp)))%Q with ((X * (1 + ulp)) * (Y * (1 + ulp)))%Q by ring.
    apply Qle_trans with ((X * (1 + ulp)) * y)%Q; [now apply Qmult_le_compat_r|].
    rewrite !(Qmult_comm (X * (1 + ulp))). apply Qmult_le_compat_r; [assumption|].
    apply Qle_trans with (1 := x0). assumption.
Qed.
Lemma product_near N D Y : 0 < N < 2 ^ 40 -> 0 < D -> 0 < Y <= 2 ^ 81 ->
  exists m, fint (fmul (rn N D) (rn Y 1)) = Ok m /\
    m * D * 1000000 <= N * Y * 1000001 /\ N * Y * 999999 <= (m + 1) * D * 1000000.
Proof.
  intros HN HD HY. change (2 ^ 40) with 1099511627776 in HN. change (2 ^ 81) with 2417851639229258349412352 in HY.
  assert (K : 2417851639229258349412352 * 2417851639229258349412352 < 2 ^ 1000) by now vm_compute.
  set (W := 2 ^ 1000) in *.
  destruct (rn N D) as [|a b] eqn:E1.
  { exfalso. apply (rn_finite N D); [lia|lia| |assumption]. fold W. clearbody W. nia. }
  destruct (rn Y 1) as [|c d] eqn:E2.
  { exfalso. apply (rn_finite Y 1); [lia|lia| |assumption]. fold W. clearbody W. lia. }
  destruct (rn_near N D a b ltac:(lia) HD E1) as [Hb N1]. destruct (rn_near Y 1 c d ltac:(lia) ltac:(lia) E2) as [Hd N2].
  assert (PN : (0 <= qv N D)%Q) by (change 0%Q with (qv 0 1); rewrite qv_le; lia).
  assert (PY : (0 <= qv Y 1)%Q) by (change 0%Q with (qv 0 1); rewrite qv_le; lia).
  assert (M := mul_near _ _ _ _ PN PY N1 N2). rewrite <- !qv_mul in M by lia.
  assert (Pa : 0 <= a * c).
  { assert (0 <= a).
    { assert (Q1 : (qv 0 1 <= qv a b)%Q) by (change (qv 0 1) with 0%Q; unfold ulp in N1; lra). rewrite qv_le in Q1; lia. }
    assert (0 <= c).
    { assert (Q1 : (qv 0 1 <= qv c d)%Q) by (change (qv 0 1) with 0%Q; unfold ulp in N2; lra). rewrite qv_le in Q1; lia. }
    nia. }
  rewrite Z.mul_1_r in M. set (V := qv (N * Y) D) in *. assert (PV : (0 <= V)%Q) by (change 0%Q with (qv 0 1); unfold V; rewrite qv_le; nia).
  assert (Big : (V <= qv (N * Y) 1)%Q) by (unfold V; rewrite qv_le; nia).
  assert (Big2 : (qv (N * Y) 1 <= qv 2658455991569831745807614120560689152000000000000 1)%Q) by (rewrite qv_le; nia).
  cbn [fmul]. destruct (rn (a * c) (b * d)) as [|n e] eqn:E3.
  { exfalso. apply (rn_finite (a * c) (b * d)); [assumption|nia| |assumption].
    assert (Q1 : (qv (a * c) (b * d) < qv (2417851639229258349412352 * 2417851639229258349412352) 1)%Q).
    { assert (L : (2 * qv 2658455991569831745807614120560689152000000000000 1 <
        qv (2417851639229258349412352 * 2417851639229258349412352) 1)%Q) by now vm_compute.
      set (b1 := qv 2658455991569831745807614120560689152000000000000 1) in *.
      set (b2 := qv (2417851639229258349412352 * 2417851639229258349412352) 1) in *.
      set (U := qv (N * Y) 1) in *. set (x := qv (a * c) (b * d)) in *.
      clearbody b1 b2 U x V. unfold ulp in *. lra. }
    rewrite qv_lt in Q1 by nia. fold W. clearbody W. assert (0 < b * d) by nia. nia. }
  destruct (rn_near (a * c) (b * d) n e Pa ltac:(nia) E3) as [He N3].
  cbn [fint]. exists (n / e). split; [reflexivity|].
  assert (D1 := Z.div_mod n e ltac:(lia)). assert (D2 := Z.mod_pos_bound n e He).
  set (m := n / e) in *. set (x := qv (a * c) (b * d)) in *. clearbody x.
  assert (F1 : (qv m 1 <= qv n e)%Q) by (rewrite qv_le; lia).
  assert (F2 : (qv n e <= qv (m + 1) 1)%Q) by (rewrite qv_le; lia).
  assert (G1 : (qv (m * 1000000) 1 <= qv (N * Y * 1000001) D)%Q).
  { assert (X1 : (qv (m * 1000000) 1 == qv m 1 * 1000000)%Q) by (unfold qv, Qeq; cbn [Qnum Qden Z.to_pos Qmult]; lia).
    assert (X2 : (qv (N * Y * 1000001) D == V * 1000001)%Q).
    { unfold V, qv, Qeq. cbn [Qnum Qden Qmult]. rewrite Pos.mul_1_r. ring. }
    rewrite X1, X2. clearbody V. set (M1 := qv m 1) in *. set (X := qv n e) in *. clearbody M1 X. unfold ulp in *. lra. }
  assert (G2 : (qv (N * Y * 999999) D <= qv ((m + 1) * 1000000) 1)%Q).
  { assert (X1 : (qv ((m + 1) * 1000000) 1 == qv (m + 1) 1 * 1000000)%Q) by (unfold qv, Qeq; cbn [Qnum Qden Z.to_pos Qmult]; lia).
    assert (X2 : (qv (N * Y * 999999) D == V * 999999)%Q).
    { unfold V, qv, Qeq. cbn [Qnum Qden Qmult]. rewrite Pos.mul_1_r. ring. }
    rewrite X1, X2. clearbody V. set (M1 := qv (m + 1) 1) in *. set (X := qv n e) in *. clearbody M1 X. unfold ulp in *. lra. }
  rewrite qv_le in G1, G2 by lia. split; lia.
Qed.

Lemma unit_size si e u : unit_text si e u -> SizeUnit u (base_of si ^ e) /\ 1 <= e <= 8.
Proof.
  intros (c & Hc & ->). assert (P : prefix_exp c e) by (exists c; auto).
  split; [|now apply (prefix_range c)]. destruct si; [|now apply su_short].
  apply su_si; [assumption|now left].
Qed.
Lemma decimal_cat a b : 0 <= a -> 0 <= b <= 9 -> decimal (str_of_Z a ++ str_of_Z b) = 10 * a + b /\ length (str_of_Z b) = 1%nat.
Proof.
  intros Ha Hb. destruct (str_of_Z_dec a Ha) as [_ Va]. destruct (str_of_Z_dec b ltac:(lia)) as [_ Vb].
  assert (L : length (str_of_Z b) = 1%nat).
  { assert (C : b = 0 \/ b = 1 \/ b = 2 \/ b = 3 \/ b = 4 \/ b = 5 \/ b = 6 \/ b = 7 \/ b = 8 \/ b = 9) by lia.
    repeat (destruct C as [->|C]; [reflexivity|]). now subst. }
  split; [|assumption]. rewrite <- Va at 2. rewrite <- Vb at 2. clear Va Vb.
  induction (str_of_Z a) as [|c t IH]; [cbn [app decimal]; lia|].
  cbn [app decimal]. rewrite IH, app_length, L.
  replace (Z.of_nat (length t + 1)) with (Z.of_nat (length t) + 1) by lia.
  rewrite Z.pow_add_r by lia. change (10 ^ 1) with 10. lia.
Qed.
Lemma shown_read si n s : base_of si <= n -> Shown si n s ->
  exists m, parse_size s = Ok m /\ 100 * Z.abs (m - n) <= 9 * n.
Proof.
  intros Hn S. destruct S as [H|e u a b Hu Ha Hb Err|e u m Hu Hm Err]; [lia| |];
    destruct (unit_size si e u Hu) as [Su He];
    (assert (Y1 : 1000 <= base_of si ^ e) by
      (apply Z.le_trans with (base_of si ^ 1); [destruct si; cbn; lia|apply Z.pow_le_mono_r; [apply base_pos|lia]]));
    (assert (Y2 : base_of si ^ e <= 2 ^ 81) by
      (apply Z.le_trans with (base_of si ^ 8);
        [apply Z.pow_le_mono_r; [apply base_pos|lia]|destruct si; vm_compute; discriminate])).
  - destruct (str_of_Z_dec a ltac:(lia)) as [Da _]. destruct (str_of_Z_dec b ltac:(lia)) as [Db _].
    destruct (decimal_cat a b ltac:(lia) Hb) as [Vab Lb].
    rewrite (parse_size_B _ (str_of_Z a ++ DOT :: str_of_Z b) u (base_of si ^ e)).
    + rewrite float_of_dec by assumption. rewrite Vab, Lb. change (10 ^ Z.of_nat 1) with 10.
      set (Y := base_of si ^ e) in *. clearbody Y.
      destruct (product_near (10 * a + b) 10 Y) as (m & E & M1 & M2);
        [change (2 ^ 40) with 1099511627776; lia|lia|lia|].
      exists m. split; [exact E|]. assert (10 * Y <= (10 * a + b) * Y <= 99 * Y) by nia.
      set (P := (10 * a + b) * Y) in *. clearbody P. lia.
    + exists []. rewrite app_nil_r, <- app_assoc. split; [reflexivity|].
      split; [right; exists (str_of_Z a), (str_of_Z b); auto|]. split; [exact Su|now left].
  - destruct (str_of_Z_dec m ltac:(lia)) as [Dm Vm].
    rewrite (parse_size_B _ (str_of_Z m) u (base_of si ^ e)).
    + rewrite float_of_int by assumption. rewrite Vm.
      assert (Hm2 : m < 1024) by (destruct si; cbn in Hm; lia).
      set (Y := base_of si ^ e) in *. clearbody Y.
      destruct (product_near m 1 Y) as (r & E & M1 & M2);
        [change (2 ^ 40) with 1099511627776; lia|lia|lia|].
      exists r. split; [exact E|]. assert (10 * Y <= m * Y) by nia.
      replace ((10000 * m - 503) * Y) with (10000 * (m * Y) - 503 * Y) in Err by ring.
      replace ((10000 * m + 9503) * Y) with (10000 * (m * Y) + 9503 * Y) in Err by ring.
      set (P := m * Y) in *. clearbody P. lia.
    + exists []. rewrite app_nil_r. split; [reflexivity|]. split; [now left|]. split; [exact Su|now left].
Qed.
Lemma size_read si n : 0 <= n <= (base_of si - 1) * base_of si ^ 8 ->
  exists s m, size_output si n = Ok s /\ parse_size s = Ok m /\
    100 * Z.abs (m - n) <= 9 * n /\ (n < base_of si -> m = n).
Proof.
  intros Hn. destruct (Z.lt_ge_cases n (base_of si)) as [H|H].
  - exists (str_of_Z n), n. split; [|split; [|split; [lia|auto]]].
    + unfold size_output, format_size. change (if si then 1000 else 1024) with (base_of si).
      destruct (Z.ltb_spec n (base_of si)); [reflexivity|lia].
    + destruct (str_of_Z_dec n ltac:(lia)) as [D V]. rewrite parse_size_bytes by assumption. now rewrite V.
  - destruct (size_shown si n Hn) as (s & E & S). destruct (shown_read si n s H S) as (m & P & B).
    exists s, m. split; [exact E|]. split; [exact P|]. split; [exact B|lia].
Qed.
