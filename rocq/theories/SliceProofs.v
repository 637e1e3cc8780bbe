(** Selection of results with --limit. *)
From Coq Require Import List NArith ZArith Bool Lia.
From Verif Require Import Py ArgumentsModel ArgumentsSpec.
Import ListNotations.
Local Open Scope Z_scope.

Lemma picks_ext {A} (P Q : Z -> Prop) i (l k : list A) :
  (forall j, i <= j < i + Z.of_nat (length l) -> (P j <-> Q j)) -> Picks P i l k -> Picks Q i l k.
Proof.
  intros H K. induction K as [i|i x l k Pi _ IH|i x l k Pi _ IH]; [constructor| |];
    cbn [length] in H; [apply picks_yes|apply picks_no]; try (apply IH; intros j Hj; apply H; lia).
  - apply H; [lia|assumption].
  - intros Q0. apply Pi. apply H; [lia|assumption].
Qed.
Lemma picks_firstn {A} (lo hi i : Z) (l : list A) :
  Picks (fun j => lo <= j < hi) i l (firstn (Z.to_nat (hi - Z.max lo i)) (skipn (Z.to_nat (lo - i)) l)).
Proof.
  revert i. induction l as [|x l IH]; intros i.
  - rewrite skipn_nil, firstn_nil. constructor.
  - destruct (Z_le_gt_dec lo i) as [Hlo|Hlo].
    + replace (Z.to_nat (lo - i)) with 0%nat by lia. cbn [skipn].
      destruct (Z_lt_ge_dec i hi) as [Hhi|Hhi].
      * replace (Z.to_nat (hi - Z.max lo i)) with (S (Z.to_nat (hi - Z.max lo (i + 1)))) by lia.
        cbn [firstn]. apply picks_yes; [lia|]. specialize (IH (i + 1)).
        replace (Z.to_nat (lo - (i + 1))) with 0%nat in IH by lia. exact IH.
      * replace (Z.to_nat (hi - Z.max lo i)) with 0%nat by lia. cbn [firstn]. apply picks_no; [lia|].
        specialize (IH (i + 1)). replace (Z.to_nat (hi - Z.max lo (i + 1))) with 0%nat in IH by lia. exact IH.
    + replace (Z.to_nat (lo - i)) with (S (Z.to_nat (lo - (i + 1)))) by lia. cbn [skipn].
      apply picks_no; [lia|]. specialize (IH (i + 1)).
      replace (Z.max lo i) with (Z.max lo (i + 1)) by lia. exact IH.
Qed.
Lemma picks_slice {A} (l : list A) start stop :
  Picks (in_slice (Z.of_nat (length l)) (start, stop)) 0 l (slice l (Some start) stop).
Proof.
  unfold slice. set (n := Z.of_nat (length l)).
  set (a := slice_bound n start). set (b := match stop with None => n | Some i => slice_bound n i end).
  assert (A0 : 0 <= a) by (unfold a, slice_bound; destruct (start <? 0) eqn:E; lia).
  pose proof (picks_firstn a b 0 l) as H. rewrite Z.max_l in H by lia. rewrite Z.sub_0_r in H.
  eapply picks_ext; [|exact H]. cbn [Z.add]. intros j Hj. unfold in_slice. cbn [fst snd].
  fold n in Hj. subst a b. unfold slice_bound, from_start in *.
  destruct (start <? 0) eqn:E1; destruct stop as [s|]; [destruct (s <? 0) eqn:E2| |destruct (s <? 0) eqn:E2|]; lia.
Qed.
Lemma limit_picks {A} (l : list A) start stop :
  Picks (in_slice (Z.of_nat (length l)) (start, stop)) 0 l (entries_range (Some (start, stop)) l).
Proof. apply picks_slice. Qed.
Lemma picks_det {A} (P : Z -> Prop) i (l k k' : list A) : Picks P i l k -> Picks P i l k' -> k = k'.
Proof.
  intros H. revert k'. induction H; intros k' H'; inversion H'; subst; try reflexivity; try contradiction.
  - f_equal. auto.
  - auto.
Qed.
(** Pages *)
Lemma page_picks {A} (n p : Z) (l : list A) : 0 < n -> 0 <= p ->
  Picks (fun i => i / n = p) 0 l (entries_range (Some (n * p, Some (n * (p + 1)))) l).
Proof.
  intros Hn Hp. eapply picks_ext; [|apply limit_picks]. cbn [Z.add]. intros j Hj.
  unfold in_slice, from_start. cbn [fst snd].
  destruct (Z.ltb_spec (n * p) 0); [nia|]. destruct (Z.ltb_spec (n * (p + 1)) 0); [nia|].
  split.
  - intros [H1 H2]. symmetry. apply (Z.div_unique_pos j n p (j - n * p)); lia.
  - intros <-. pose proof (Z.mul_div_le j n Hn). pose proof (Z.mul_succ_div_gt j n Hn). lia.
Qed.
Lemma page_eq {A} (n p : Z) (l : list A) : 0 < n -> 0 <= p ->
  entries_range (Some (n * p, Some (n * (p + 1)))) l = firstn (Z.to_nat n) (skipn (Z.to_nat (n * p)) l).
Proof.
  intros Hn Hp. cbn [entries_range]. unfold slice, slice_bound.
  destruct (Z.ltb_spec (n * p) 0); [nia|]. destruct (Z.ltb_spec (n * (p + 1)) 0); [nia|].
  set (len := Z.of_nat (length l)).
  destruct (Z_le_gt_dec len (n * p)) as [H1|H1].
  - rewrite !skipn_all2 by (unfold len in *; lia). now rewrite !firstn_nil.
  - replace (Z.to_nat (Z.min (n * p) len)) with (Z.to_nat (n * p)) by lia.
    destruct (Z_le_gt_dec (n * (p + 1)) len) as [H2|H2].
    + f_equal. lia.
    + rewrite !firstn_all2; [reflexivity| |]; rewrite skipn_length; unfold len in *; lia.
Qed.
Lemma chunks {A} (m : nat) (l : list A) k : (length l <= m * k)%nat ->
  concat (map (fun p => firstn m (skipn (m * p) l)) (seq 0 k)) = l.
Proof.
  revert l; induction k as [|k IH]; intros l H.
  - rewrite Nat.mul_0_r in H. destruct l; [reflexivity|cbn in H; lia].
  - cbn [seq map concat]. rewrite Nat.mul_0_r. cbn [skipn].
    rewrite <- seq_shift, map_map.
    rewrite (map_ext _ (fun p => firstn m (skipn (m * p) (skipn m l)))).
    + rewrite IH; [apply firstn_skipn|]. rewrite skipn_length. lia.
    + intros p. f_equal. rewrite Nat.mul_succ_r, Nat.add_comm. clear. revert l. generalize (m * p)%nat as x.
      induction m as [|m IH]; intros x l; [reflexivity|]. cbn [Nat.add]. destruct l as [|y l]; cbn [skipn].
      * now rewrite skipn_nil.
      * apply IH.
Qed.
Lemma pages_all {A} (n : Z) (l : list A) k : 0 < n -> Z.of_nat (length l) <= n * Z.of_nat k ->
  concat (map (fun p => entries_range (Some (n * Z.of_nat p, Some (n * (Z.of_nat p + 1)))) l) (seq 0 k)) = l.
Proof.
  intros Hn H. rewrite (map_ext _ (fun p => firstn (Z.to_nat n) (skipn (Z.to_nat n * p) l))).
  - apply chunks. nia.
  - intros p. rewrite page_eq by lia. f_equal. f_equal. nia.
Qed.

From Verif Require Import ConvertSpec DurationProofs ArgsModel ArgsValueSpec ArgsValueProofs ArgsTableProofs.
Lemma slice_text_plain t start stop : SliceText t (start, stop) ->
  exists t' e, t = t' ++ e /\ (e = [] \/ e = [NL]) /\ SliceText t' (start, stop).
Proof. intros H. exists t, []. rewrite app_nil_r. auto. Qed.
Lemma str_of_Z_text z : 0 <= z -> digits (str_of_Z z) /\ decimal (str_of_Z z) = z.
Proof.
  intros H. rewrite str_of_Z_nonneg by assumption. pose proof (str_of_N_digits (Z.to_N z)) as D. split.
  - apply digits_forallb. split; [apply uint_str_nonnil|exact D].
  - rewrite decimal_val by exact D. rewrite digits_val_str_of_N. lia.
Qed.
Lemma page_convert cpus n p : 0 <= n -> 0 <= p ->
  convert cpus TSlice (str_of_Z n ++ $"," ++ str_of_Z p) = Ok (ASlice (n * p) (Some (n * (p + 1)))).
Proof.
  intros Hn Hp. apply c31_limit, slice_text_plain. destruct (str_of_Z_text n Hn) as [D1 E1].
  destruct (str_of_Z_text p Hp) as [D2 E2]. pose proof (slice_page _ _ D1 D2) as S. rewrite E1, E2 in S. exact S.
Qed.
Lemma c35_page {A} cpus n p (l : list A) : 0 < n -> 0 <= p ->
  exists start stop, convert cpus TSlice (str_of_Z n ++ $"," ++ str_of_Z p) = Ok (ASlice start stop) /\
    Picks (fun i => i / n = p) 0 l (entries_range (Some (start, stop)) l).
Proof. intros Hn Hp. eexists _, _. split; [apply page_convert; lia|]. now apply page_picks. Qed.
Lemma c35_all {A} cpus n (l : list A) k pages : 0 < n -> Z.of_nat (length l) <= n * Z.of_nat k ->
  Forall2 (fun p page => exists start stop, convert cpus TSlice (str_of_Z n ++ $"," ++ str_of_Z (Z.of_nat p)) = Ok (ASlice start stop) /\
                           page = entries_range (Some (start, stop)) l) (seq 0 k) pages ->
  concat pages = l.
Proof.
  intros Hn Hk F. rewrite <- (pages_all n l k Hn Hk). f_equal. induction F as [|p page ps pages (a & b & E & ->) _ IH]; [reflexivity|].
  cbn [map]. rewrite page_convert in E by lia. injection E as <- <-. now f_equal.
Qed.
Lemma range_natural s r : RangeText s r -> natural_range r.
Proof.
  assert (D : forall ds, digits ds -> 0 <= decimal ds) by (intros ds H; apply digits_ds in H as [H _]; now apply dec_nonneg).
  destruct 1; unfold natural_range; cbn [fst snd];
    repeat match goal with H : digits _ |- _ => apply D in H end; lia.
Qed.
Lemma c33_text cpus s l : convert cpus TRanges s = Ok (ARanges l) -> l <> [] /\ Forall natural_range l.
Proof.
  intros H. apply c31_depth in H. induction H as [b t r x Hb T Hr|b t r x s xs Hb T Hr H IH].
  - split; [discriminate|]. constructor; [now apply range_natural in T|constructor].
  - split; [discriminate|]. constructor; [now apply range_natural in T|apply IH].
Qed.
