From Coq Require Import List NArith ZArith Bool Lia ZifyBool.
From Verif Require Import Py Re ConvertModel ConvertSpec.
Import ListNotations.
Local Open Scope Z_scope.

Lemma digits_forallb s : digits s <-> s <> [] /\ forallb is_d s = true.
Proof.
  unfold digits. rewrite forallb_forall. unfold is_d, between.
  split; intros [H1 H2]; (split; [exact H1|]); intros c Hc; specialize (H2 c Hc); lia.
Qed.
Lemma digits_val_cons c t : Z.of_N (digits_val (c :: t)) =
  Z.of_N (dig c) * 10 ^ Z.of_nat (length t) + Z.of_N (digits_val t).
Proof.
  change (c :: t) with ([c] ++ t). rewrite digits_val_app.
  change (digits_val [c]) with (dig c).
  rewrite N2Z.inj_add, N2Z.inj_mul, N2Z.inj_pow, nat_N_Z. reflexivity.
Qed.
Lemma decimal_val s : forallb is_d s = true -> decimal s = Z.of_N (digits_val s).
Proof.
  induction s as [|c t IH]; [reflexivity|]. cbn [forallb]. rewrite andb_true_iff. intros [Hc Ht].
  rewrite digits_val_cons. cbn [decimal]. rewrite IH by assumption.
  replace (Z.of_N (dig c)) with (Z.of_N c - 48) by (unfold dig, is_d, between in *; lia). reflexivity.
Qed.

Lemma span p (s : str) : exists a b, s = a ++ b /\ forallb p a = true /\ stops p b.
Proof.
  induction s as [|c t IH]; [now exists [], []|].
  destruct (p c) eqn:E; [|now exists [], (c :: t)].
  destruct IH as (a & b & -> & H1 & H2). exists (c :: a), b. cbn. now rewrite E.
Qed.

Definition is_unit (c : char) : bool := existsb (N.eqb c) [115;109;104;100;119;77;121]%N.
Definition ucls := Cls false false (map CChar [115;109;104;100;119;77;121]%N).
Lemma mem_ucls c : mem ucls c = is_unit c.
Proof.
  unfold ucls. rewrite mem_pos. unfold items_mem, is_unit. cbn [map existsb item_mem].
  now rewrite !(N.eqb_sym c).
Qed.
Definition dcls := Cls false false [CDigit false].
Lemma mem_dcls c : mem dcls c = is_d c.
Proof. unfold dcls. rewrite mem_pos. cbn. now rewrite orb_false_r; destruct (is_d c). Qed.

Lemma mem_dcls_all s : forallb (mem dcls) s = forallb is_d s.
Proof. induction s; cbn [forallb]; [reflexivity|]. now rewrite mem_dcls, IHs. Qed.

Notation first := (fun (s' : str) (cs : caps) => Some (s', cs)).

(** What one match of the regular expression consumes. *)
Lemma dur_match n0 ds rest : ds <> [] -> forallb is_d ds = true -> stops is_d rest ->
  m n0 duration_re (ds ++ rest) [] first =
  Some (match rest with
        | u :: t => if is_unit u then (t, [(2%nat, [u]); (1%nat, ds)]) else (rest, [(1%nat, ds)])
        | [] => (rest, [(1%nat, ds)])
        end).
Proof.
  intros Hn Hd Hs. destruct ds as [|c ds]; [easy|]. cbn [forallb] in Hd.
  apply andb_true_iff in Hd as [Hc Hd].
  unfold duration_re. cbn [m app].
  change {| c_icase := false; c_neg := false; c_items := [CDigit false] |} with dcls.
  change {| c_icase := _; c_neg := _; c_items := _ |} with ucls.
  rewrite mem_dcls, Hc. apply star_g_run.
  - now rewrite mem_dcls_all.
  - destruct rest; [exact I|]. cbn [stops]. now rewrite mem_dcls.
  - replace (firstn _ (c :: ds ++ rest)) with (c :: ds)
      by (symmetry; apply (firstn_sub (c :: ds) rest)).
    destruct rest as [|u t]; [reflexivity|]. rewrite mem_ucls. destruct (is_unit u); [|reflexivity].
    cbn [orelse]. do 4 f_equal. change (u :: t) with ([u] ++ t). now rewrite firstn_sub.
Qed.
Lemma dur_nomatch n0 s : stops is_d s -> m n0 duration_re s [] first = None.
Proof.
  intros Hs. unfold duration_re. cbn [m].
  change {| c_icase := false; c_neg := false; c_items := [CDigit false] |} with dcls.
  destruct s as [|c t]; [reflexivity|]. rewrite mem_dcls. cbn in Hs. now rewrite Hs.
Qed.

Lemma unit_of_iff c k : unit_of c k <-> is_unit c = true /\ k = unit_seconds (Some [c]).
Proof.
  split.
  - intros []; now vm_compute.
  - intros [H ->]. unfold is_unit in H. cbn [existsb] in H.
    repeat (apply orb_true_iff in H as [H|H]; [apply N.eqb_eq in H; subst c; cbv; constructor|]).
    discriminate.
Qed.
Lemma unit_not_digit c : is_unit c = true -> is_d c = false.
Proof. unfold is_unit, is_d, between. cbn [existsb]. lia. Qed.
Definition sloppy_seconds (c : char) : Z := if is_unit c then unit_seconds (Some [c]) else 0.
Lemma weight_iff c k : weight c k <-> is_d c = false /\ k = sloppy_seconds c.
Proof.
  unfold weight, sloppy_seconds. split.
  - intros [H|(H1 & H2 & ->)].
    + apply unit_of_iff in H as [H ->]. rewrite H. split; [now apply unit_not_digit|reflexivity].
    + split; [unfold is_d, between; lia|]. destruct (is_unit c) eqn:E; [|reflexivity].
      exfalso. eapply H1. apply unit_of_iff. eauto.
  - intros [H ->]. destruct (is_unit c) eqn:E.
    + left. apply unit_of_iff. auto.
    + right. repeat split; [|unfold is_d, between in H; lia].
      intros k' Hk. apply unit_of_iff in Hk as [Hk _]. congruence.
Qed.

(** Scanning after a part, with [sk] skipped so far. *)
Lemma scan_nomatch n0 fuel sk c t : is_d c = false ->
  scan_from n0 (S fuel) duration_re sk (c :: t) = scan_from n0 fuel duration_re (c :: sk) t.
Proof. intros H. cbn [scan_from]. now rewrite dur_nomatch. Qed.
Lemma scan_match n0 fuel sk ds rest : ds <> [] -> forallb is_d ds = true -> stops is_d rest ->
  scan_from n0 (S fuel) duration_re sk (ds ++ rest) =
  let '(rest', u) := match rest with
                     | u :: t => if is_unit u then (t, [u]) else (rest, [])
                     | [] => (rest, [])
                     end in
  let '(l, tail) := scan_from n0 fuel duration_re [] rest' in
  ((rev sk, ds ++ u, match u with [] => [] | _ => [(2%nat, u)] end ++ [(1%nat, ds)]) :: l, tail).
Proof.
  intros Hn Hd Hs. destruct ds as [|c ds]; [easy|]. cbn [app scan_from].
  change (c :: ds ++ rest) with ((c :: ds) ++ rest). rewrite dur_match by assumption.
  destruct rest as [|u t].
  - rewrite (proj2 (Nat.ltb_lt _ _)) by (rewrite app_length; cbn; lia).
    destruct (scan_from n0 fuel duration_re [] []). unfold str, char in *. rewrite firstn_sub.
    now rewrite app_nil_r.
  - destruct (is_unit u) eqn:E.
    + rewrite (proj2 (Nat.ltb_lt _ _)) by (rewrite app_length; cbn; lia).
      destruct (scan_from n0 fuel duration_re [] t).
      replace ((c :: ds) ++ u :: t) with (((c :: ds) ++ [u]) ++ t) by now rewrite <- app_assoc.
      unfold str, char in *. now rewrite firstn_sub.
    + rewrite (proj2 (Nat.ltb_lt _ _)) by (rewrite app_length; cbn; lia).
      destruct (scan_from n0 fuel duration_re [] (u :: t)). unfold str, char in *. rewrite firstn_sub.
      now rewrite app_nil_r.
Qed.

Lemma loop_step sk ds u l pos d : ds <> [] -> forallb is_d ds = true ->
  duration_loop ((rev sk, ds ++ u, match u with [] => [] | _ => [(2%nat, u)] end ++ [(1%nat, ds)]) :: l)
    pos (pos + Z.of_nat (length sk)) d =
  duration_loop l (pos + Z.of_nat (length sk) + Z.of_nat (length (ds ++ u)))
    (pos + Z.of_nat (length sk) + Z.of_nat (length ds) + 1)
    (d + decimal ds * match u with [] => 0 | _ => unit_seconds (Some u) end).
Proof.
  intros Hn Hd. cbn [duration_loop]. rewrite rev_length, Z.eqb_refl. cbn [negb].
  rewrite decimal_val by assumption.
  destruct u as [|x u]; cbn [app group Nat.eqb]; rewrite py_int_digits by assumption; reflexivity.
Qed.

Lemma sloppy_loop s v : Sloppy s v -> forall n0 fuel sk pos d, (length s <= fuel)%nat ->
  duration_loop (fst (scan_from n0 fuel duration_re sk s)) pos (pos + Z.of_nat (length sk)) d =
  Ok (pos + Z.of_nat (length sk) + Z.of_nat (length s), d + v).
Proof.
  induction 1 as [|ds c k s v Hd Hw Hs IH]; intros n0 fuel sk pos d Hf.
  - destruct fuel; cbn [scan_from fst duration_loop length]; do 2 f_equal; lia.
  - apply digits_forallb in Hd as [Hn Hd]. apply weight_iff in Hw as [Hc ->].
    rewrite app_length in Hf. cbn [length] in Hf. destruct fuel as [|fuel]; [lia|].
    rewrite scan_match by (auto; exact Hc). unfold sloppy_seconds. destruct (is_unit c) eqn:E.
    + destruct (scan_from n0 fuel duration_re [] s) as [l tail] eqn:Es.
      cbn [fst]. rewrite loop_step by assumption.
      replace (pos + Z.of_nat (length sk) + Z.of_nat (length ds) + 1)
        with (pos + Z.of_nat (length sk) + Z.of_nat (length (ds ++ [c])) + Z.of_nat (@length char []))
        by (rewrite app_length; cbn [length]; lia).
      change l with (fst (l, tail)). rewrite <- Es. rewrite IH by lia.
      rewrite !app_length. cbn [length]. do 2 f_equal; lia.
    + destruct fuel as [|fuel]; [destruct ds; cbn in *; [easy|lia]|].
      rewrite scan_nomatch by assumption.
      destruct (scan_from n0 fuel duration_re [c] s) as [l tail] eqn:Es.
      cbn [fst]. rewrite (loop_step sk ds []) by assumption.
      replace (pos + Z.of_nat (length sk) + Z.of_nat (length ds) + 1)
        with (pos + Z.of_nat (length sk) + Z.of_nat (length (ds ++ [])) + Z.of_nat (@length char [c]))
        by (rewrite app_nil_r; cbn [length]; lia).
      change l with (fst (l, tail)). rewrite <- Es.
      rewrite IH by (destruct ds; cbn in *; [easy|lia]).
      rewrite !app_length. cbn [length]. do 2 f_equal; lia.
Qed.

(** Once something else was skipped the loop fails or stops where it was. *)
Lemma loop_stuck n0 : forall fuel sk s pos end_ d e v,
  end_ < pos + Z.of_nat (length sk) ->
  duration_loop (fst (scan_from n0 fuel duration_re sk s)) pos end_ d = Ok (e, v) -> e = end_.
Proof.
  induction fuel as [|fuel IH]; intros sk s pos end_ d e v Hlt.
  - cbn. now intros [= <- _].
  - destruct (span is_d s) as ([|c ds] & rest & -> & Hd & Hs).
    + destruct rest as [|c t]; [cbn; now intros [= <- _]|]. cbn [app].
      rewrite scan_nomatch by assumption. intros H. eapply IH; [|exact H]. cbn [length]. lia.
    + rewrite scan_match by easy. destruct rest as [|u t]; [|destruct (is_unit u)];
        cbn match beta; destruct (scan_from _ _ _ _ _) as [l tail];
        cbn [fst duration_loop]; rewrite rev_length;
        destruct (Z.eqb_spec (pos + Z.of_nat (length sk)) end_); try lia; discriminate.
Qed.

Lemma loop_sloppy n0 : forall fuel s sk pos d v, (length s <= fuel)%nat ->
  duration_loop (fst (scan_from n0 fuel duration_re sk s)) pos (pos + Z.of_nat (length sk)) d =
  Ok (pos + Z.of_nat (length sk) + Z.of_nat (length s), v) ->
  exists w, Sloppy s w /\ v = d + w.
Proof.
  induction fuel as [fuel IH] using lt_wf_ind. intros s sk pos d v Hf H.
  destruct (span is_d s) as (ds & rest & -> & Hd & Hs).
  destruct ds as [|c0 ds0].
  - destruct rest as [|c t].
    + exists 0. split; [constructor|]. destruct fuel; cbn in H; injection H as _ <-; lia.
    + cbn [app] in *. destruct fuel as [|fuel]; [cbn in Hf; lia|]. rewrite scan_nomatch in H by assumption.
      apply loop_stuck in H; cbn [length] in *; lia.
  - remember (c0 :: ds0) as ds eqn:Eds. assert (Hn : ds <> []) by now subst. clear Eds.
    rewrite app_length in Hf, H. destruct fuel as [|fuel]; [destruct ds; cbn in Hf; [easy|lia]|].
    rewrite scan_match in H by assumption. destruct rest as [|u t].
    + destruct (scan_from n0 fuel duration_re [] []) as [l tail] eqn:Es. cbn [fst] in H.
      rewrite (loop_step sk ds []) in H by assumption.
      destruct fuel; cbn in Es; injection Es as <- <-; cbn [duration_loop length] in H;
        injection H as H _; lia.
    + cbn [length] in Hf, H. cbn [stops] in Hs. destruct (is_unit u) eqn:E.
      * destruct (scan_from n0 fuel duration_re [] t) as [l tail] eqn:Es. cbn [fst] in H.
        rewrite loop_step in H by assumption.
        replace (pos + Z.of_nat (length sk) + Z.of_nat (length ds) + 1)
          with (pos + Z.of_nat (length sk) + Z.of_nat (length (ds ++ [u])) + Z.of_nat (@length char []))
          in H by (rewrite app_length; cbn [length]; lia).
        change l with (fst (l, tail)) in H. rewrite <- Es in H.
        replace (pos + Z.of_nat (length sk) + Z.of_nat (length ds + S (length t)))
          with (pos + Z.of_nat (length sk) + Z.of_nat (length (ds ++ [u])) + Z.of_nat (@length char [])
                + Z.of_nat (length t)) in H by (rewrite app_length; cbn [length]; lia).
        apply IH in H as (w & Hw & ->); [|lia|lia].
        exists (decimal ds * unit_seconds (Some [u]) + w). split; [|lia].
        constructor; [now apply digits_forallb| |exact Hw].
        apply weight_iff. unfold sloppy_seconds. now rewrite E.
      * destruct fuel as [|fuel]; [destruct ds; cbn in *; [easy|lia]|].
        rewrite scan_nomatch in H by assumption.
        destruct (scan_from n0 fuel duration_re [u] t) as [l tail] eqn:Es. cbn [fst] in H.
        rewrite (loop_step sk ds []) in H by assumption.
        replace (pos + Z.of_nat (length sk) + Z.of_nat (length ds) + 1)
          with (pos + Z.of_nat (length sk) + Z.of_nat (length (ds ++ [])) + Z.of_nat (@length char [u]))
          in H by (rewrite app_nil_r; cbn [length]; lia).
        change l with (fst (l, tail)) in H. rewrite <- Es in H.
        replace (pos + Z.of_nat (length sk) + Z.of_nat (length ds + S (length t)))
          with (pos + Z.of_nat (length sk) + Z.of_nat (length (ds ++ [])) + Z.of_nat (@length char [u])
                + Z.of_nat (length t)) in H by (rewrite app_nil_r; cbn [length]; lia).
        apply IH in H as (w & Hw & ->); [|lia|destruct ds; cbn in *; [easy|lia]].
        exists (decimal ds * 0 + w). split; [|lia].
        constructor; [now apply digits_forallb| |exact Hw].
        apply weight_iff. unfold sloppy_seconds. now rewrite E.
Qed.

Lemma parse_duration_exact s v : parse_duration s = Ok v <->
  match py_int s with Some n => v = n * 60 | None => Sloppy s v end.
Proof.
  unfold parse_duration. destruct (py_int s) as [n|] eqn:E; [split; congruence|].
  unfold scan. split.
  - destruct (duration_loop _ 0 0 0) as [[e w]|] eqn:L; [|discriminate]. cbn [bindr].
    destruct (Z.eqb_spec e (Z.of_nat (length s))) as [->|]; cbn [negb]; [|discriminate].
    intros [= ->]. apply (loop_sloppy (length s) (length s) s [] 0 0 v) in L; [|reflexivity].
    destruct L as (w & Hw & ->). now rewrite Z.add_0_l.
  - intros H. assert (L := sloppy_loop s v H (length s) (length s) [] 0 0 (le_n _)).
    cbn [length] in L. change (0 + Z.of_nat 0) with 0 in L.
    unfold str, char in *. rewrite L. cbn [bindr]. now rewrite !Z.add_0_l, Z.eqb_refl.
Qed.

Lemma duration_sloppy s v : Duration s v -> Sloppy s v.
Proof.
  induction 1; [constructor|]. constructor; auto. now left.
Qed.
(** A string over digits and unit letters is sloppy only if it is well formed. *)
Lemma sloppy_duration s v :
  (forall c, In c s -> (48 <= c <= 57)%N \/ exists k, unit_of c k) -> Sloppy s v -> Duration s v.
Proof.
  intros H. induction 1 as [|ds c k s v Hd Hw Hs IH]; [constructor|].
  constructor; [exact Hd| |apply IH; intros; apply H; apply in_or_app; right; now right].
  destruct Hw as [Hw|(Hw & Hc & _)]; [exact Hw|].
  destruct (H c) as [?|[k' ?]]; [apply in_or_app; right; now left|lia|now apply Hw in H0].
Qed.

(** A non-empty duration ends in a letter, so int() rejects it. *)
Lemma int_digits_last s c : ~ In c s -> is_d c = false -> forall a, int_digits (a ++ [c]) = None.
Proof.
  intros _ Hc a.
  assert (G : forall n a, (length a <= n)%nat -> int_digits (a ++ [c]) = None).
  { clear a. induction n as [|n IH]; intros a Ha.
    - destruct a; [|cbn in Ha; lia]. cbn. now rewrite Hc.
    - destruct a as [|x [|y a]].
      + cbn. now rewrite Hc.
      + cbn [app int_digits]. destruct (is_d x); [|reflexivity].
        destruct (N.eqb_spec c 95); cbn [int_digits]; [reflexivity|]. now rewrite Hc.
      + cbn [app]. cbn [int_digits]. destruct (is_d x); [|reflexivity].
        destruct (N.eqb y 95).
        * rewrite IH by (cbn in Ha; lia). reflexivity.
        * change (y :: a ++ [c]) with ((y :: a) ++ [c]).
          assert (E := IH (y :: a) ltac:(cbn in *; lia)). cbn [app int_digits] in E |- *.
          now rewrite E. }
  now apply (G (length a)).
Qed.
Lemma strip_last a c : is_space c = false -> exists b, strip (a ++ [c]) = b ++ [c] /\
  exists p, a = p ++ b.
Proof.
  intros Hc. unfold strip, strip_p.
  assert (G : exists b, lstrip_p is_space (a ++ [c]) = b ++ [c] /\ exists p, a = p ++ b).
  { induction a as [|x a IH]; cbn [app lstrip_p].
    - exists []. rewrite Hc. split; [reflexivity|now exists []].
    - destruct (is_space x).
      + destruct IH as (b & E & p & ->). exists b. split; [exact E|now exists (x :: p)].
      + exists (x :: a). split; [reflexivity|now exists []]. }
  destruct G as (b & E & p & ->). rewrite E. exists b. split; [|now exists p].
  apply rstrip_p_id. rewrite rev_app_distr. cbn. exact Hc.
Qed.
Lemma py_int_last a c : is_d c = false -> is_space c = false -> py_int (a ++ [c]) = None.
Proof.
  intros Hd Hs. unfold py_int. destruct (strip_last a c Hs) as (b & E & _). rewrite E.
  destruct b as [|x b]; cbn [app].
  - destruct (N.eqb_spec c 43); [reflexivity|]. destruct (N.eqb_spec c 45); [reflexivity|].
    cbn [int_digits]. now rewrite Hd.
  - destruct (N.eqb x 43); [now rewrite (int_digits_last [] c) by (auto; easy)|].
    destruct (N.eqb x 45); [now rewrite (int_digits_last [] c) by (auto; easy)|].
    change (x :: b ++ [c]) with ((x :: b) ++ [c]). now rewrite (int_digits_last [] c) by (auto; easy).
Qed.
Lemma duration_last s v : Duration s v -> s <> [] -> exists a c k, s = a ++ [c] /\ unit_of c k.
Proof.
  induction 1 as [|ds u k s v Hd Hu Hs IH]; [easy|]. intros _.
  destruct s as [|x s].
  - exists ds, u, k. auto.
  - destruct IH as (a & c & k' & E & Hc); [easy|]. exists (ds ++ u :: a), c, k'.
    rewrite E, <- app_assoc. auto.
Qed.
Lemma unit_not_space c : is_unit c = true -> is_space c = false.
Proof. unfold is_unit, is_space, between. cbn [existsb]. lia. Qed.
Lemma duration_int s v : Duration s v -> s <> [] -> py_int s = None.
Proof.
  intros H Hn. destruct (duration_last s v H Hn) as (a & c & k & -> & Hc).
  apply unit_of_iff in Hc as [Hc _]. apply py_int_last; [now apply unit_not_digit|now apply unit_not_space].
Qed.

Lemma parse_duration_value s v : Duration s v -> parse_duration s = Ok v.
Proof.
  intros H. apply parse_duration_exact. destruct s as [|c s].
  - inversion H; subst; [constructor|]. destruct ds; discriminate.
  - rewrite (duration_int _ _ H) by easy. now apply duration_sloppy.
Qed.
Lemma parse_duration_minutes s : digits s -> parse_duration s = Ok (decimal s * 60).
Proof.
  intros H. apply digits_forallb in H as [Hn Hd]. apply parse_duration_exact.
  rewrite py_int_digits by assumption. now rewrite decimal_val.
Qed.
(** Over digits and unit letters nothing else is accepted. *)
Lemma parse_duration_only s v :
  (forall c, In c s -> (48 <= c <= 57)%N \/ exists k, unit_of c k) ->
  parse_duration s = Ok v -> (digits s /\ v = decimal s * 60) \/ Duration s v.
Proof.
  intros H E. apply parse_duration_exact in E. destruct (py_int s) as [n|] eqn:Ei.
  - left. subst v. destruct s as [|x s']; [discriminate|].
    destruct (forallb is_d (x :: s')) eqn:Ed.
    + split; [now apply digits_forallb|]. rewrite py_int_digits in Ei by easy.
      injection Ei as <-. now rewrite decimal_val.
    + exfalso.
      assert (Hdu : forall c, In c (x :: s') -> is_d c = true \/ is_unit c = true).
      { intros c Hc. destruct (H c Hc) as [Hd|[k Hk]].
        - left. unfold is_d, between. lia.
        - right. now apply unit_of_iff in Hk as [? _]. }
      assert (Hsp : forall c, In c (x :: s') -> is_space c = false).
      { intros c Hc. destruct (Hdu c Hc); [now apply is_d_not_space|now apply unit_not_space]. }
      assert (Est : strip (x :: s') = x :: s').
      { unfold strip, strip_p. rewrite lstrip_p_id by (apply Hsp; now left).
        assert (R : forall c, In c (rev (x :: s')) -> is_space c = false)
          by (intros c Hc; apply Hsp, in_rev, Hc).
        apply rstrip_p_id. unfold str, char in *.
        destruct (rev (x :: s')); [exact I|apply R; now left]. }
      unfold py_int in Ei. rewrite Est in Ei.
      assert (Hx : N.eqb x 43 = false /\ N.eqb x 45 = false).
      { destruct (Hdu x (or_introl eq_refl)) as [Hx|Hx];
          [unfold is_d, between in Hx|unfold is_unit in Hx; cbn [existsb] in Hx]; lia. }
      destruct Hx as [Hx1 Hx2]. rewrite Hx1, Hx2 in Ei.
      assert (G : forall s, (forall c, In c s -> is_d c = true \/ is_unit c = true) ->
                  forall r, int_digits s = Some r -> forallb is_d s = true).
      { clear. induction s as [|c t IH]; intros Hs r; [reflexivity|]. cbn [int_digits forallb].
        destruct (is_d c); [|discriminate]. destruct t as [|u t']; [reflexivity|].
        destruct (N.eqb_spec u 95) as [->|].
        - destruct (Hs 95%N) as [Hu|Hu]; [right; now left|discriminate|discriminate].
        - destruct (int_digits (u :: t')) eqn:Ed; [|discriminate]. intros _.
          cbn [andb]. eapply IH; [intros; apply Hs; now right|reflexivity]. }
      destruct (int_digits (x :: s')) eqn:Eg; [|discriminate].
      apply (G _ Hdu) in Eg. congruence.
  - right. now apply sloppy_duration.
Qed.

(** Formatting. *)
Lemma pad2_digits n : 0 <= n -> digits (pad2 n) /\ decimal (pad2 n) = n.
Proof.
  intros Hn. unfold pad2. rewrite str_of_Z_nonneg by assumption.
  assert (D := str_of_N_digits (Z.to_N n)).
  assert (N0 := uint_str_nonnil (Z.to_N n)).
  assert (V : decimal (str_of_N (Z.to_N n)) = n)
    by (rewrite decimal_val, digits_val_str_of_N by assumption; lia).
  destruct (Nat.ltb _ 2).
  - split; [apply digits_forallb; split; [easy|]; cbn [app lit forallb]; exact D|].
    change (decimal ((48%N) :: str_of_N (Z.to_N n)) = n). cbn [decimal]. rewrite V. lia.
  - split; [now apply digits_forallb|exact V].
Qed.
Lemma str_of_Z_dec n : 0 <= n -> digits (str_of_Z n) /\ decimal (str_of_Z n) = n.
Proof.
  intros Hn. rewrite str_of_Z_nonneg by assumption.
  assert (D := str_of_N_digits (Z.to_N n)).
  split; [apply digits_forallb; split; [apply uint_str_nonnil|exact D]|].
  rewrite decimal_val, digits_val_str_of_N by assumption. lia.
Qed.
Lemma duration_app s v ds u k : digits ds -> unit_of u k -> Duration s v ->
  Duration (ds ++ [u] ++ s) (decimal ds * k + v).
Proof. intros. cbn [app]. now constructor. Qed.
Lemma format_is_duration n : 0 <= n -> Duration (format_duration n) n.
Proof.
  intros Hn. unfold format_duration.
  assert (H0 : 0 <= n / 3600) by (apply Z.div_pos; lia).
  assert (M0 : 0 <= n mod 3600 / 60) by (apply Z.div_pos; [apply Z.mod_pos_bound; lia|lia]).
  assert (S0 : 0 <= n mod 60) by (apply Z.mod_pos_bound; lia).
  destruct (str_of_Z_dec _ H0) as [HD HV]. destruct (str_of_Z_dec _ M0) as [MD MV].
  destruct (pad2_digits _ M0) as [PD PV]. destruct (pad2_digits _ S0) as [SD SV].
  assert (ES : Duration (pad2 (n mod 60) ++ [115%N]) (n mod 60)).
  { rewrite <- SV at 2. replace (decimal (pad2 (n mod 60))) with (decimal (pad2 (n mod 60)) * 1 + 0) by lia.
    apply (duration_app [] 0); [exact SD|constructor|constructor]. }
  assert (Ar : n = n / 3600 * 3600 + (n mod 3600 / 60 * 60 + n mod 60)).
  { rewrite (Z.mul_comm (n mod 3600 / 60)).
    assert (n mod 60 = (n mod 3600) mod 60).
    { rewrite (Z.div_mod n 3600) at 1 by lia.
      replace (3600 * (n / 3600) + n mod 3600) with (n mod 3600 + (60 * (n / 3600)) * 60) by ring.
      apply Z.mod_add. lia. }
    rewrite H, <- Z.div_mod by lia. rewrite Z.mul_comm. apply Z.div_mod. lia. }
  destruct (Z.eqb_spec (n / 3600) 0) as [E|E]; cbn [negb].
  - assert (G := duration_app _ _ (str_of_Z (n mod 3600 / 60)) 109%N 60 MD u_m ES).
    rewrite MV in G. replace (n mod 3600 / 60 * 60 + n mod 60) with n in G by lia. exact G.
  - assert (G := duration_app _ _ _ 109%N 60 PD u_m ES).
    apply (duration_app _ _ (str_of_Z (n / 3600)) 104%N 3600 HD u_h) in G.
    rewrite HV, PV in G. rewrite <- Ar in G. exact G.
Qed.
Lemma duration_roundtrip n : 0 <= n -> parse_duration (format_duration n) = Ok n.
Proof. intros H. now apply parse_duration_value, format_is_duration. Qed.
