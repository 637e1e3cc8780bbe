From Coq Require Import List NArith ZArith Bool Lia.
From Verif Require Import Py FloatLib ConvertModel ConvertSpec HumanModel HumanSpec SizeProofs DurationProofs TimeMoreProofs HumanProofs.
Import ListNotations.
Local Open Scope Z_scope.

(** What is printed from the base on: k tenths of the unit of base^j. *)
Definition printed (k : Z) : str :=
  if k <? 10 * 10 then str_of_Z (k / 10) ++ DOT :: str_of_Z (k mod 10) else str_of_Z (k / 10).
Definition tnum (k : Z) : Z := if k <? 10 * 10 then k else k / 10.
Definition tden (k : Z) : Z := if k <? 10 * 10 then 10 else 1.
Definition with_unit (si : bool) (u : str) : str := if base_of si =? 1000 then u ++ $"B" else u.

Lemma size_form si n : base_of si <= n <= (base_of si - 1) * base_of si ^ 8 ->
  exists j k u a b, scale (base_of si) UNITS [] n 1 = Ok (u, a, b) /\ 1 <= j <= 8 /\
    nth_error UNITS (Z.to_nat j) = Some u /\ 0 < b /\ 10 <= k < 10 * base_of si /\ rn k 10 = FFin a b /\
    size_output si n = Ok (printed k ++ with_unit si u).
Proof.
  intros Hn. assert (Pb := base_pos si).
  destruct (scale_loop si n ltac:(lia) UNITS 0 [] n 1 ltac:(lia) eq_refl (state_0 si n ltac:(lia)))
    as (j & u & a & b & Hj & E & Hu & (Hb & _ & S) & Hlt).
  destruct S as [(-> & -> & ->)|(Hj1 & k & Hk & Ek & _)]; [lia|].
  assert (HB : base_of si = 1000 \/ base_of si = 1024) by (destruct si; auto).
  assert (Kb : k < 10 * base_of si).
  { assert (T := tenths_lt k a b (base_of si) ltac:(lia) ltac:(change (2 ^ 40) with 1099511627776; lia) Ek).
    rewrite (proj2 (Z.ltb_lt _ _) Hlt) in T. symmetry in T. now apply Z.ltb_lt. }
  exists j, k, u, a, b. split; [assumption|]. split; [lia|]. split; [assumption|]. split; [assumption|].
  split; [lia|]. split; [assumption|].
  unfold size_output, format_size. change (if si then 1000 else 1024) with (base_of si).
  destruct (Z.ltb_spec n (base_of si)); [lia|]. rewrite E. cbn [bindr]. cbn zeta. fold (with_unit si u).
  rewrite (tenths_lt k a b 10 ltac:(lia) ltac:(change (2 ^ 40) with 1099511627776; lia) Ek).
  unfold printed. destruct (Z.ltb_spec k (10 * 10)) as [Ht|Ht].
  - unfold one_digit. now rewrite (tenths_digit k a b) by (try assumption; change (2 ^ 40) with 1099511627776; lia).
  - now rewrite (tenths_int k a b) by (try assumption; change (2 ^ 33) with 8589934592; lia).
Qed.
Lemma printed_read si k j u : 1 <= j <= 8 -> nth_error UNITS (Z.to_nat j) = Some u -> 10 <= k ->
  parse_size (printed k ++ with_unit si u) = fint (fmul (rn (tnum k) (tden k)) (rn (base_of si ^ j) 1)).
Proof.
  intros Hj Hu Hk. assert (U := unit_at si j u Hj Hu). fold (with_unit si u) in U.
  destruct (unit_size si j _ U) as [Su _].
  assert (D := Z.div_mod k 10 ltac:(lia)). assert (M := Z.mod_pos_bound k 10 ltac:(lia)).
  assert (P : 0 <= k / 10) by (apply Z.div_pos; lia).
  destruct (str_of_Z_dec (k / 10) P) as [Da Va]. destruct (str_of_Z_dec (k mod 10) ltac:(lia)) as [Db _].
  destruct (decimal_cat (k / 10) (k mod 10) P ltac:(lia)) as [Vab Lb].
  unfold printed, tnum, tden. destruct (Z.ltb_spec k (10 * 10)).
  - rewrite (parse_size_B _ (str_of_Z (k / 10) ++ DOT :: str_of_Z (k mod 10)) (with_unit si u) (base_of si ^ j)).
    + rewrite float_of_dec by assumption. rewrite Vab, Lb, <- D. reflexivity.
    + exists []. rewrite app_nil_r. split; [reflexivity|].
      split; [right; exists (str_of_Z (k / 10)), (str_of_Z (k mod 10)); auto|]. split; [exact Su|now left].
  - rewrite (parse_size_B _ (str_of_Z (k / 10)) (with_unit si u) (base_of si ^ j)).
    + rewrite float_of_int by assumption. now rewrite Va.
    + exists []. rewrite app_nil_r. split; [reflexivity|]. split; [now left|]. split; [exact Su|now left].
Qed.

(** Two runs of the loop. *)
Lemma state_nonneg si n i num den : 0 <= n -> 0 <= i <= 9 -> state si n i num den -> 0 <= num.
Proof.
  intros Hn Hi (Hd & _ & [(_ & -> & _)|(_ & k & Hk & E & _)]); [assumption|].
  destruct (rn_shape k 10 num den ltac:(lia) ltac:(lia) E) as (x & e & f & Hx & He & Hf & -> & ->).
  assert (P := pow2_pos e He). nia.
Qed.
Lemma scale_order si n n' : 0 <= n <= (base_of si - 1) * base_of si ^ 8 -> 0 <= n' <= (base_of si - 1) * base_of si ^ 8 ->
  forall rest i unit unit' num den num' den',
  0 <= i <= 8 -> rest = skipn (Z.to_nat i) UNITS -> state si n i num den -> state si n' i num' den' ->
  num * den' <= num' * den ->
  exists j j' u u' a b a' b',
    scale (base_of si) rest unit num den = Ok (u, a, b) /\ scale (base_of si) rest unit' num' den' = Ok (u', a', b') /\
    i <= j <= 8 /\ i <= j' <= 8 /\ nth_error UNITS (Z.to_nat j) = Some u /\ nth_error UNITS (Z.to_nat j') = Some u' /\
    (j < j' \/ j = j' /\ a * b' <= a' * b).
Proof.
  intros Hn Hn'.
  assert (Top : (base_of si - 1) * base_of si ^ 8 < 2 ^ 100) by (now destruct si; vm_compute).
  assert (Pb := base_pos si).
  induction rest as [|u rest IH]; intros i unit unit' num den num' den' Hi E S S' Hle.
  - exfalso. assert (H : (Z.to_nat i < 9)%nat) by lia. symmetry in E.
    assert (L := skipn_length (Z.to_nat i) UNITS). rewrite E in L. cbn [length UNITS] in L. lia.
  - assert (Hu : nth_error UNITS (Z.to_nat i) = Some u /\ rest = skipn (Z.to_nat (i + 1)) UNITS).
    { replace (Z.to_nat (i + 1)) with (Datatypes.S (Z.to_nat i)) by lia.
      clear - E. revert E. generalize UNITS (Z.to_nat i). intros l m. revert l.
      induction m as [|m IH]; intros [|x l] E; try discriminate; cbn in *.
      - injection E as -> ->. auto.
      - destruct (IH l E) as [H1 H2]. auto. }
    destruct Hu as [Hu Er].
    assert (Hd := proj1 S). assert (Hd' := proj1 S').
    assert (N0 := state_nonneg si n i num den ltac:(lia) ltac:(lia) S).
    assert (N0' := state_nonneg si n' i num' den' ltac:(lia) ltac:(lia) S').
    destruct (Z.lt_ge_cases num (base_of si * den)) as [H|H].
    + destruct (Z.lt_ge_cases num' (base_of si * den')) as [H'|H'].
      * exists i, i, u, u, num, den, num', den'. cbn [scale].
        destruct (Z.ltb_spec num (base_of si * den)); [|lia].
        destruct (Z.ltb_spec num' (base_of si * den')); [|lia]. repeat split; try lia; auto.
      * destruct (Z.eq_dec i 8) as [->|Hne]; [assert (T := top_small si n' num' den' Hn' S'); lia|].
        destruct (state_step si n' i num' den' ltac:(lia) ltac:(lia) S' H') as (a & b & a' & b' & E1 & E2 & S2).
        destruct (scale_loop si n' Hn' rest (i + 1) u a' b' ltac:(lia) Er S2) as (j & v & x & y & Hj & R1 & R2 & R3).
        exists i, j, u, v, num, den, x, y. cbn [scale].
        destruct (Z.ltb_spec num (base_of si * den)); [|lia].
        destruct (Z.ltb_spec num' (base_of si * den')); [lia|]. rewrite E1, E2.
        repeat split; try lia; auto.
    + assert (H' : base_of si * den' <= num').
      { apply (Z.mul_le_mono_pos_r _ _ den Hd). apply Z.le_trans with (2 := Hle).
        replace (base_of si * den' * den) with (base_of si * den * den') by ring. apply Z.mul_le_mono_nonneg_r; lia. }
      destruct (Z.eq_dec i 8) as [->|Hne]; [assert (T := top_small si n num den Hn S); lia|].
      destruct (state_step si n i num den ltac:(lia) ltac:(lia) S H) as (a1 & b1 & a2 & b2 & E1 & E2 & S2).
      destruct (state_step si n' i num' den' ltac:(lia) ltac:(lia) S' H') as (a1' & b1' & a2' & b2' & E1' & E2' & S2').
      assert (Q1 : 0 < den * base_of si) by nia. assert (Q1' : 0 < den' * base_of si) by nia.
      assert (O1 : a1 * b1' <= a1' * b1).
      { apply (rn_mono num (den * base_of si) a1 b1 num' (den' * base_of si)); try assumption.
        replace (num * (den' * base_of si)) with (num * den' * base_of si) by ring.
        replace (num' * (den * base_of si)) with (num' * den * base_of si) by ring.
        apply Z.mul_le_mono_nonneg_r; lia. }
      destruct (rn_error num (den * base_of si) a1 b1 N0 Q1 E1) as [B1 _].
      destruct (rn_error num' (den' * base_of si) a1' b1' N0' Q1' E1') as [B1' _].
      assert (A1 : 0 <= a1 /\ 0 <= a1').
      { destruct (rn_shape _ _ _ _ N0 Q1 E1) as (x & e & f & Hx & He & Hf & -> & _).
        destruct (rn_shape _ _ _ _ N0' Q1' E1') as (x' & e' & f' & Hx' & He' & Hf' & -> & _).
        assert (P := pow2_pos e He). assert (P' := pow2_pos e' He'). nia. }
      assert (O2 : a2 * b2' <= a2' * b2).
      { destruct A1 as [A1 A1'].
        assert (K : a1 * 10 * b1' <= a1' * 10 * b1) by (clear -O1; lia).
        apply (rn_mono (round_half_even (a1 * 10) b1) 10 a2 b2 (round_half_even (a1' * 10) b1') 10);
          [| reflexivity | | reflexivity | | exact E2 | exact E2'].
        - rewrite <- (rhe_exact 0 b1) by exact B1. apply rhe_mono; [exact B1|clear -A1; lia].
        - rewrite <- (rhe_exact 0 b1') by exact B1'. apply rhe_mono; [exact B1'|clear -A1'; lia].
        - apply Z.mul_le_mono_nonneg_r; [discriminate|]. apply rhe_mono_frac; [exact B1|exact B1'|exact K]. }
      destruct (IH (i + 1) u u a2 b2 a2' b2' ltac:(lia) Er S2 S2' O2) as
        (j & j' & v & v' & x & y & x' & y' & R1 & R2 & R3 & R4 & R5).
      exists j, j', v, v', x, y, x', y'. cbn [scale].
      destruct (Z.ltb_spec num (base_of si * den)); [lia|].
      destruct (Z.ltb_spec num' (base_of si * den')); [lia|]. rewrite E1, E2, E1', E2'.
      split; [exact R1|]. split; [exact R2|]. split; [lia|]. split; [lia|exact R5].
Qed.

Lemma units_nodup : NoDup UNITS.
Proof. repeat (constructor; [vm_compute; intuition discriminate|]). constructor. Qed.
Lemma unit_index j j' u : 0 <= j <= 8 -> 0 <= j' <= 8 ->
  nth_error UNITS (Z.to_nat j) = Some u -> nth_error UNITS (Z.to_nat j') = Some u -> j = j'.
Proof.
  intros Hj Hj' H H'. assert (E := proj1 (NoDup_nth_error UNITS) units_nodup (Z.to_nat j) (Z.to_nat j')
    ltac:(cbn [length UNITS]; lia) ltac:(congruence)). lia.
Qed.

Lemma floor_mono a b a' b' : 0 < b -> 0 < b' -> a * b' <= a' * b -> a / b <= a' / b'.
Proof.
  intros Hb Hb' H. apply Z.div_le_lower_bound; [assumption|].
  assert (D := Z.div_mod a b ltac:(lia)). assert (M := Z.mod_pos_bound a b Hb). set (q := a / b) in *. clearbody q.
  apply (Z.mul_le_mono_pos_r _ _ b Hb). nia.
Qed.
Lemma product_mono N D N' D' Y m m' : 0 <= N -> 0 < D -> 0 <= N' -> 0 < D' -> 0 < Y -> N * D' <= N' * D ->
  fint (fmul (rn N D) (rn Y 1)) = Ok m -> fint (fmul (rn N' D') (rn Y 1)) = Ok m' -> m <= m'.
Proof.
  intros HN HD HN' HD' HY H.
  destruct (rn N D) as [|a b] eqn:E1; [destruct (rn Y 1); discriminate|].
  destruct (rn N' D') as [|a' b'] eqn:E2; [destruct (rn Y 1); discriminate|].
  destruct (rn Y 1) as [|c d] eqn:E3; [discriminate|]. cbn [fmul].
  destruct (rn_error _ _ _ _ HN HD E1) as [Hb _]. destruct (rn_error _ _ _ _ HN' HD' E2) as [Hb' _].
  destruct (rn_error Y 1 c d ltac:(lia) ltac:(lia) E3) as [Hd _].
  assert (O := rn_mono _ _ _ _ _ _ _ _ HN HD HN' HD' H E1 E2).
  assert (A : 0 <= a /\ 0 <= a' /\ 0 <= c).
  { destruct (rn_shape _ _ _ _ HN HD E1) as (x & e & f & Hx & He & Hf & -> & _).
    destruct (rn_shape _ _ _ _ HN' HD' E2) as (x' & e' & f' & Hx' & He' & Hf' & -> & _).
    destruct (rn_shape Y 1 c d ltac:(lia) ltac:(lia) E3) as (x2 & e2 & f2 & Hx2 & He2 & Hf2 & -> & _).
    assert (P := pow2_pos e He). assert (P' := pow2_pos e' He'). assert (P2 := pow2_pos e2 He2). nia. }
  destruct (rn (a * c) (b * d)) as [|x y] eqn:F1; [discriminate|].
  destruct (rn (a' * c) (b' * d)) as [|x' y'] eqn:F2; [discriminate|].
  cbn [fint]. intros [= <-] [= <-].
  assert (K1 : 0 <= a * c) by nia. assert (K2 : 0 <= a' * c) by nia.
  assert (K3 : 0 < b * d) by nia. assert (K4 : 0 < b' * d) by nia.
  destruct (rn_error _ _ _ _ K1 K3 F1) as [Hy _]. destruct (rn_error _ _ _ _ K2 K4 F2) as [Hy' _].
  apply floor_mono; [assumption|assumption|]. apply (rn_mono (a * c) (b * d) x y (a' * c) (b' * d)); try assumption.
  replace (a * c * (b' * d)) with (a * b' * (c * d)) by ring. replace (a' * c * (b * d)) with (a' * b * (c * d)) by ring.
  apply Z.mul_le_mono_nonneg_r; nia.
Qed.
Lemma tenths_mono k k' : 10 <= k <= k' -> 0 < tnum k /\ 0 < tden k <= 10 /\ tnum k * tden k' <= tnum k' * tden k.
Proof.
  intros H. unfold tnum, tden.
  assert (D := Z.div_mod k 10 ltac:(lia)). assert (M := Z.mod_pos_bound k 10 ltac:(lia)).
  assert (D' := Z.div_mod k' 10 ltac:(lia)). assert (M' := Z.mod_pos_bound k' 10 ltac:(lia)).
  destruct (Z.ltb_spec k (10 * 10)), (Z.ltb_spec k' (10 * 10)); lia.
Qed.
Lemma tenths_range k B : 10 <= k < 10 * B -> 10 < B -> tden k <= tnum k /\ 10 * tnum k <= (10 * B - 1) * tden k /\
  tnum k <= (B - 1) * tden k + 9 /\ (100 <= k -> tnum k <= (B - 1) * tden k) /\ (k < 100 -> tnum k < 10 * tden k).
Proof.
  intros H HB. unfold tnum, tden.
  assert (D := Z.div_mod k 10 ltac:(lia)). assert (M := Z.mod_pos_bound k 10 ltac:(lia)).
  destruct (Z.ltb_spec k (10 * 10)); lia.
Qed.

Lemma size_order si n n' : 0 <= n <= n' -> n' <= (base_of si - 1) * base_of si ^ 8 ->
  exists s s' m m', size_output si n = Ok s /\ size_output si n' = Ok s' /\
    parse_size s = Ok m /\ parse_size s' = Ok m' /\ m <= m'.
Proof.
  intros Hn Hn'. assert (Pb := base_pos si). assert (HB : base_of si = 1000 \/ base_of si = 1024) by (destruct si; auto).
  destruct (Z.lt_ge_cases n' (base_of si)) as [H'|H'].
  { exists (str_of_Z n), (str_of_Z n'), n, n'. unfold size_output, format_size. change (if si then 1000 else 1024) with (base_of si).
    destruct (Z.ltb_spec n (base_of si)); [|lia]. destruct (Z.ltb_spec n' (base_of si)); [|lia].
    destruct (str_of_Z_dec n ltac:(lia)) as [D V]. destruct (str_of_Z_dec n' ltac:(lia)) as [D' V'].
    rewrite !parse_size_bytes by assumption. rewrite V, V'. repeat split. lia. }
  destruct (size_form si n' ltac:(lia)) as (j' & k' & u' & a' & b' & E' & Hj' & Hu' & Hb' & Hk' & Ek' & O').
  assert (R' := printed_read si k' j' u' Hj' Hu' ltac:(lia)).
  assert (T' := tenths_range k' (base_of si) Hk' ltac:(lia)).
  assert (PY : forall j, 1 <= j <= 8 -> base_of si <= base_of si ^ j <= 2 ^ 81).
  { intros j Hj. split.
    - rewrite <- (Z.pow_1_r (base_of si)) at 1. apply Z.pow_le_mono_r; lia.
    - apply Z.le_trans with (base_of si ^ 8); [apply Z.pow_le_mono_r; lia|destruct si; vm_compute; discriminate]. }
  assert (Small : forall k, 10 <= k < 10 * base_of si -> 0 < tnum k < 2 ^ 40 /\ 0 < tden k <= 10).
  { intros k Hk. destruct (tenths_mono k k ltac:(lia)) as (P1 & P2 & _). destruct (tenths_range k (base_of si) Hk ltac:(lia)) as (_ & P3 & _).
    change (2 ^ 40) with 1099511627776. nia. }
  destruct (Small k' Hk') as [S1' S2'].
  destruct (product_near (tnum k') (tden k') (base_of si ^ j') S1' ltac:(lia) ltac:(specialize (PY j' Hj'); lia))
    as (m' & Em' & L' & U'). rewrite Em' in R'.
  destruct (Z.lt_ge_cases n (base_of si)) as [H|H].
  - exists (str_of_Z n), (printed k' ++ with_unit si u'), n, m'.
    split; [|split; [exact O'|]].
    { unfold size_output, format_size. change (if si then 1000 else 1024) with (base_of si).
      destruct (Z.ltb_spec n (base_of si)); [reflexivity|lia]. }
    destruct (str_of_Z_dec n ltac:(lia)) as [D V]. rewrite parse_size_bytes by assumption. rewrite V.
    split; [reflexivity|]. split; [exact R'|].
    assert (X := PY j' Hj'). set (Y := base_of si ^ j') in *. clearbody Y.
    assert (tden k' * Y <= tnum k' * Y) by (apply Z.mul_le_mono_nonneg_r; lia).
    assert (Y * 999999 <= (m' + 1) * 1000000) by nia. lia.
  - destruct (size_form si n ltac:(lia)) as (j & k & u & a & b & E & Hj & Hu & Hb & Hk & Ek & O).
    assert (R := printed_read si k j u Hj Hu ltac:(lia)).
    destruct (Small k Hk) as [S1 S2].
    destruct (product_near (tnum k) (tden k) (base_of si ^ j) S1 ltac:(lia) ltac:(specialize (PY j Hj); lia))
      as (m & Em & L & U). rewrite Em in R.
    exists (printed k ++ with_unit si u), (printed k' ++ with_unit si u'), m, m'.
    split; [exact O|]. split; [exact O'|]. split; [exact R|]. split; [exact R'|].
    destruct (scale_order si n n' ltac:(lia) ltac:(lia) UNITS 0 [] [] n 1 n' 1 ltac:(lia) eq_refl
      (state_0 si n ltac:(lia)) (state_0 si n' ltac:(lia)) ltac:(lia))
      as (i & i' & v & v' & x & y & x' & y' & F & F' & Hi & Hi' & Hv & Hv' & Ord).
    rewrite E in F. injection F as <- <- <-. rewrite E' in F'. injection F' as <- <- <-.
    assert (j = i) by (apply (unit_index j i u); lia || assumption). subst i.
    assert (j' = i') by (apply (unit_index j' i' u'); lia || assumption). subst i'.
    destruct Ord as [Lt|[<- Le]].
    + (* a smaller unit *)
      assert (X := PY j Hj). assert (X' := PY j' Hj').
      assert (Y2 : base_of si * base_of si ^ j <= base_of si ^ j').
      { rewrite <- Z.pow_succ_r by lia. apply Z.pow_le_mono_r; lia. }
      destruct (tenths_range k (base_of si) Hk ltac:(lia)) as (_ & _ & _ & T1 & T2).
      set (Y := base_of si ^ j) in *. set (Y' := base_of si ^ j') in *. clearbody Y Y'.
      assert (Top : tnum k <= (base_of si - 1) * tden k).
      { destruct (Z.le_gt_cases 100 k); [auto|]. assert (tnum k < 10 * tden k) by auto. nia. }
      assert (P1 : tnum k * Y <= (base_of si - 1) * tden k * Y) by (apply Z.mul_le_mono_nonneg_r; lia).
      assert (P2 : tden k' * Y' <= tnum k' * Y') by (apply Z.mul_le_mono_nonneg_r; lia).
      assert (Q1 : m * 1000000 <= (base_of si - 1) * Y * 1000001).
      { apply (Z.mul_le_mono_pos_r _ _ (tden k)); [apply S2|].
        transitivity (tnum k * Y * 1000001); [clear -L; lia|clear -P1; lia]. }
      assert (Q2 : Y' * 999999 <= (m' + 1) * 1000000).
      { apply (Z.mul_le_mono_pos_r _ _ (tden k')); [apply S2'|].
        transitivity (tnum k' * Y' * 999999); [clear -P2; lia|clear -U'; lia]. }
      destruct HB as [HB|HB]; rewrite HB in *; lia.
    + assert (Kk : k <= k').
      { rewrite <- (tenths_digit k a b), <- (tenths_digit k' a' b') by (try assumption; change (2 ^ 40) with 1099511627776; lia).
        apply rhe_mono_frac; [assumption|assumption|nia]. }
      destruct (tenths_mono k k' ltac:(lia)) as (_ & _ & Fr).
      apply (product_mono (tnum k) (tden k) (tnum k') (tden k') (base_of si ^ j)); try assumption; try lia.
Qed.

(** Without the limit. *)
Lemma shown_unique_huge s : Shown true (1000 ^ 9) s -> s <> $"1.0YB".
Proof.
  intros H E. destruct H as [H|e u a b Hu Ha Hb Err|e u m Hu Hm Err].
  - clear E. vm_compute in H. discriminate H.
  - assert (T : 10 * a + b <= 99) by lia. destruct (unit_size true e u Hu) as [_ He].
    assert (Y : base_of true ^ e <= base_of true ^ 8) by (apply Z.pow_le_mono_r; [now vm_compute|lia]).
    change (base_of true ^ 8) with 1000000000000000000000000 in Y.
    change (1000 ^ 9) with 1000000000000000000000000000 in Err. set (X := base_of true ^ e) in *. clearbody X.
    assert (0 <= X) by lia. nia.
  - destruct (unit_size true e u Hu) as [_ He].
    destruct Hu as (c & Hc & ->). clear Err.
    assert (P := str_of_Z_dec m ltac:(lia)). destruct P as [[Hn Hd] _].
    assert (Hdot : In DOT (str_of_Z m)).
    { assert (In DOT (str_of_Z m ++ [c; 66%N])) as I.
      { assert (F := f_equal (fun l => In DOT l) E). cbn beta in F. rewrite F. vm_compute. auto. }
      apply in_app_or in I as [I|I]; [assumption|]. exfalso.
      repeat (destruct Hc as [Hc|Hc]; [injection Hc as <- _; vm_compute in I; intuition discriminate|]). destruct Hc. }
    specialize (Hd _ Hdot). unfold DOT in Hd. lia.
Qed.
Lemma size_huge : exists si n s, 0 <= n /\ size_output si n = Ok s /\ ~ Shown si n s /\
  exists m, parse_size s = Ok m /\ 900 * m < n.
Proof.
  exists true, (1000 ^ 9), ($"1.0YB"). split; [lia|]. split; [vm_compute; reflexivity|]. split.
  - intros H. now apply shown_unique_huge in H.
  - eexists. split; [vm_compute; reflexivity|]. now vm_compute.
Qed.
Lemma order_huge : exists si n n' s s' m m', 0 <= n <= n' /\ size_output si n = Ok s /\ size_output si n' = Ok s' /\
  parse_size s = Ok m /\ parse_size s' = Ok m' /\ m' < m.
Proof.
  exists true, (999 * 1000 ^ 8), (1000 ^ 9), ($"999YB"), ($"1.0YB"). eexists _, _.
  split; [split; vm_compute; discriminate|]. split; [vm_compute; reflexivity|]. split; [vm_compute; reflexivity|].
  split; [vm_compute; reflexivity|]. split; [vm_compute; reflexivity|]. now vm_compute.
Qed.
