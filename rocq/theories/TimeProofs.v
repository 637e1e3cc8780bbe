(** Proofs about convert.parse_time: which texts are understood, and how. *)
From Coq Require Import List NArith ZArith Bool Lia.
From Verif Require ArgsValueProofs.
From Verif Require Import Py Re FloatLib ConvertModel TimeModel TimeSpec.
Import ListNotations.

Local Open Scope N_scope.
(** * The regular expressions *)
Definition ic (i : citem) : cls := Cls true false [i].
Definition one (i : citem) : re := Chr (ic i).
Definition pair_of (i j : citem) : re := Cat (Cat Eps (one i)) (one j).
Definition rY : re := Cat (Cat (Cat (Cat Eps (one (CDigit false))) (one (CDigit false))) (one (CDigit false))) (one (CDigit false)).
Definition rm : re :=
  Alt (Alt (pair_of (CChar 49) (CRange 48 50)) (pair_of (CChar 48) (CRange 49 57))) (Cat Eps (one (CRange 49 57))).
Definition rd : re :=
  Alt (Alt (Alt (Alt (pair_of (CChar 51) (CRange 48 49)) (pair_of (CRange 49 50) (CDigit false)))
    (pair_of (CChar 48) (CRange 49 57))) (Cat Eps (one (CRange 49 57)))) (pair_of (CChar 32) (CRange 49 57)).
Definition rH : re :=
  Alt (Alt (pair_of (CChar 50) (CRange 48 51)) (pair_of (CRange 48 49) (CDigit false))) (Cat Eps (one (CDigit false))).
Definition rM : re := Alt (pair_of (CRange 48 53) (CDigit false)) (Cat Eps (one (CDigit false))).
Definition rS : re :=
  Alt (Alt (pair_of (CChar 54) (CRange 48 49)) (pair_of (CRange 48 53) (CDigit false))) (Cat Eps (one (CDigit false))).
Definition dash : re := one (CChar 45).
Definition colon : re := one (CChar 58).
Definition blank : re := Cat (one (CSpace false)) (Star true (ic (CSpace false))).
Definition seq (l : list re) : re := fold_left Cat l Eps.

Lemma compile1 : compile true (pattern ($"%Y-%m-%d %H:%M:%S"))
  = COk (seq [Grp 1%nat rY; dash; Grp 2%nat rm; dash; Grp 3%nat rd; blank; Grp 4%nat rH; colon; Grp 5%nat rM; colon; Grp 6%nat rS]).
Proof. vm_compute. reflexivity. Qed.
Lemma compile2 : compile true (pattern ($"%Y-%m-%d %H:%M"))
  = COk (seq [Grp 1%nat rY; dash; Grp 2%nat rm; dash; Grp 3%nat rd; blank; Grp 4%nat rH; colon; Grp 5%nat rM]).
Proof. vm_compute. reflexivity. Qed.
Lemma compile3 : compile true (pattern ($"%Y%m%d%H%M"))
  = COk (seq [Grp 1%nat rY; Grp 2%nat rm; Grp 3%nat rd; Grp 4%nat rH; Grp 5%nat rM]).
Proof. vm_compute. reflexivity. Qed.
Lemma compile4 : compile true (pattern ($"%Y-%m-%d")) = COk (seq [Grp 1%nat rY; dash; Grp 2%nat rm; dash; Grp 3%nat rd]).
Proof. vm_compute. reflexivity. Qed.
Lemma compile5 : compile true (pattern ($"%Y%m%d")) = COk (seq [Grp 1%nat rY; Grp 2%nat rm; Grp 3%nat rd]).
Proof. vm_compute. reflexivity. Qed.
Lemma compile6 : compile true (pattern ($"%H:%M:%S")) = COk (seq [Grp 1%nat rH; colon; Grp 2%nat rM; colon; Grp 3%nat rS]).
Proof. vm_compute. reflexivity. Qed.
Lemma compile7 : compile true (pattern ($"%H:%M")) = COk (seq [Grp 1%nat rH; colon; Grp 2%nat rM]).
Proof. vm_compute. reflexivity. Qed.
Lemma compile8 : compile true (pattern ($"%H%M")) = COk (seq [Grp 1%nat rH; Grp 2%nat rM]).
Proof. vm_compute. reflexivity. Qed.

Local Close Scope N_scope.
(** * Characters *)
Lemma lower_cases c : lower_c c = c \/ (97 <= lower_c c <= 122)%N \/ (224 <= lower_c c <= 254)%N.
Proof.
  unfold lower_c, is_upper_AZ, between.
  destruct (N.leb_spec 65 c), (N.leb_spec c 90), (N.leb_spec 192 c), (N.leb_spec c 222), (N.eqb_spec c 215);
    cbn [andb orb negb]; auto; lia.
Qed.
Lemma upper_cases c : upper_c c = c \/ (65 <= upper_c c <= 90)%N \/ (192 <= upper_c c <= 222)%N.
Proof.
  unfold upper_c, is_lower_az, between.
  destruct (N.leb_spec 97 c), (N.leb_spec c 122), (N.leb_spec 224 c), (N.leb_spec c 254), (N.eqb_spec c 247);
    cbn [andb orb negb]; auto; lia.
Qed.
(** Ignoring case makes no difference for characters that are not letters. *)
Lemma mem_ic i c : (forall x, (65 <= x <= 90)%N \/ (97 <= x <= 122)%N \/ (192 <= x <= 222)%N \/ (224 <= x <= 254)%N ->
  item_mem i x = false) -> mem (ic i) c = item_mem i c.
Proof.
  intros H. unfold mem, ic, items_mem. cbn [c_neg c_icase c_items existsb andb]. rewrite !orb_false_r, xorb_false_l.
  assert (L : item_mem i (lower_c c) = true -> item_mem i c = true).
  { destruct (lower_cases c) as [->|[L|L]]; [auto| |]; rewrite H by lia; discriminate. }
  assert (U : item_mem i (upper_c c) = true -> item_mem i c = true).
  { destruct (upper_cases c) as [->|[L'|L']]; [auto| |]; rewrite H by lia; discriminate. }
  destruct (item_mem i c), (item_mem i (lower_c c)), (item_mem i (upper_c c)); cbn; auto; exfalso;
    try (now discriminate L); now discriminate U.
Qed.
Lemma mem_chr x c : (x < 65)%N -> mem (ic (CChar x)) c = true <-> c = x.
Proof.
  intros L. rewrite mem_ic; cbn [item_mem].
  - rewrite N.eqb_eq. split; auto.
  - intros y H. apply N.eqb_neq. lia.
Qed.
Lemma mem_range a b c : (b < 65)%N -> mem (ic (CRange a b)) c = true <-> (a <= c <= b)%N.
Proof.
  intros L. rewrite mem_ic; cbn [item_mem]; unfold between.
  - rewrite andb_true_iff, !N.leb_le. reflexivity.
  - intros y H. apply andb_false_iff. right. apply N.leb_gt. lia.
Qed.
Lemma mem_digit c : mem (ic (CDigit false)) c = true <-> digit c.
Proof.
  rewrite mem_ic; cbn [item_mem]; unfold is_d, between, digit; rewrite ?xorb_false_l.
  - rewrite andb_true_iff, !N.leb_le. reflexivity.
  - intros y H. rewrite xorb_false_l. apply andb_false_iff. right. apply N.leb_gt. lia.
Qed.
Lemma mem_space c : mem (ic (CSpace false)) c = is_space c.
Proof.
  rewrite mem_ic; cbn [item_mem]; rewrite ?xorb_false_l; [reflexivity|].
  intros y H. rewrite xorb_false_l. unfold is_space, between.
  rewrite !orb_false_iff, !andb_false_iff, !N.leb_gt, !N.eqb_neq. lia.
Qed.

Local Open Scope Z_scope.

(** * Texts of digits *)
Lemma is_d_iff c : is_d c = true <-> digit c.
Proof. unfold is_d, between, digit. rewrite andb_true_iff, !N.leb_le. reflexivity. Qed.
Lemma digits_forallb t : Forall digit t -> forallb is_d t = true.
Proof. intros H. apply forallb_forall. rewrite Forall_forall in H. intros c Hc. now apply is_d_iff, H. Qed.
Lemma value_val t : forall acc, Forall digit t -> 0 <= acc ->
  value t acc = Z.of_N (fold_left (fun a c => a * 10 + dig c)%N t (Z.to_N acc)).
Proof.
  induction t as [|c t IH]; cbn [value fold_left]; intros acc H A.
  - now rewrite Z2N.id.
  - inversion H as [|? ? Hc Ht]; subst. unfold digit in Hc. rewrite IH by (auto; lia). do 2 f_equal.
    unfold dig. lia.
Qed.
Lemma value_digits t : Forall digit t -> value t 0 = Z.of_N (digits_val t).
Proof. intros H. now apply value_val. Qed.
Lemma py_int_value t : t <> [] -> Forall digit t -> py_int t = Some (value t 0).
Proof. intros N H. rewrite py_int_digits by auto using digits_forallb. now rewrite value_digits. Qed.

Lemma Num_int n z t : n <> O -> Num n z t -> py_int t = Some z.
Proof. intros N (L & H & <-). apply py_int_value; [|exact H]. intros ->. cbn in L. congruence. Qed.
Lemma Short_int z t : Short z t -> py_int t = Some z.
Proof. intros [H|H]; (eapply Num_int; [|exact H]; discriminate). Qed.
Lemma digit_cases c : digit c -> In c [48; 49; 50; 51; 52; 53; 54; 55; 56; 57]%N.
Proof. unfold digit. intros H. cbn [In]. lia. Qed.
Lemma ShortDay_int z t : ShortDay z t -> py_int t = Some z.
Proof.
  intros [H|(c & -> & H)]; [now apply Short_int|].
  destruct H as (_ & H & <-). inversion H as [|? ? Hc _]; subst. apply digit_cases in Hc.
  cbn [In] in Hc. decompose [or] Hc; subst; try reflexivity. contradiction.
Qed.

(** * What a match tells *)
Definition inv (r : re) (P : str -> Prop) : Prop :=
  forall n0 s cs s' cs', Dc n0 r s cs s' cs' -> cs' = cs /\ exists t, s = t ++ s' /\ P t.
Lemma inv_grp r P n n0 s cs s' cs' : inv r P -> Dc n0 (Grp n r) s cs s' cs' ->
  exists t, s = t ++ s' /\ cs' = (n, t) :: cs /\ P t.
Proof.
  intros I (ct & H & ->). apply I in H as (-> & t & -> & H). exists t. rewrite firstn_sub. auto.
Qed.
Lemma inv_words r l (P : str -> Prop) : words r = Some l -> (forall w t, In w l -> spells w t -> P t) -> inv r P.
Proof. intros W H n0 s cs s' cs' X. apply (Dc_words _ _ _ W) in X as (-> & w & a & I & -> & S). eauto 6. Qed.

Ltac spell H :=
  match type of H with
  | spells (_ :: _) _ =>
      let c := fresh "c" in let t := fresh "t" in let M := fresh "M" in
      apply spells_iff in H as (c & t & -> & M & H); spell H
  | spells [] _ => apply spells_nil in H as ->
  end.
Ltac mems :=
  repeat match goal with
  | H : mem (ic (CChar _)) _ = true |- _ => apply mem_chr in H; [subst|reflexivity]
  | H : mem (ic (CRange _ _)) _ = true |- _ => apply mem_range in H; [|reflexivity]
  | H : mem (ic (CDigit _)) _ = true |- _ => apply mem_digit in H
  end.
Ltac digits := repeat constructor; unfold digit in *; lia.
Lemma inv_Y : inv rY (fun t => exists z, Num 4 z t).
Proof.
  eapply inv_words; [cbn; reflexivity|]. intros w t [<-|[]] H. spell H. mems.
  eexists. repeat split. digits.
Qed.
Ltac short := eexists; first [left; repeat split; digits | right; repeat split; digits].
Lemma inv_m : inv rm (fun t => exists z, Short z t).
Proof. eapply inv_words; [cbn; reflexivity|]. intros w t [<-|[<-|[<-|[]]]] H; spell H; mems; short. Qed.
Lemma inv_H : inv rH (fun t => exists z, Short z t).
Proof. eapply inv_words; [cbn; reflexivity|]. intros w t [<-|[<-|[<-|[]]]] H; spell H; mems; short. Qed.
Lemma inv_M : inv rM (fun t => exists z, Short z t).
Proof. eapply inv_words; [cbn; reflexivity|]. intros w t [<-|[<-|[]]] H; spell H; mems; short. Qed.
Lemma inv_S : inv rS (fun t => exists z, Short z t).
Proof. eapply inv_words; [cbn; reflexivity|]. intros w t [<-|[<-|[<-|[]]]] H; spell H; mems; short. Qed.
Lemma inv_d : inv rd (fun t => exists z, ShortDay z t).
Proof.
  eapply inv_words; [cbn; reflexivity|]. intros w t [<-|[<-|[<-|[<-|[<-|[]]]]]] H; spell H; mems;
    try (eexists; left; first [left; repeat split; digits | right; repeat split; digits]).
  eexists. right. eexists. split; [reflexivity|]. repeat split. digits.
Qed.
Lemma inv_dash n0 s cs s' cs' : Dc n0 dash s cs s' cs' -> s = $"-" ++ s' /\ cs' = cs.
Proof. intros (c & -> & H & ->). mems. auto. Qed.
Lemma inv_colon n0 s cs s' cs' : Dc n0 colon s cs s' cs' -> s = $":" ++ s' /\ cs' = cs.
Proof. intros (c & -> & H & ->). mems. auto. Qed.
Lemma inv_blank n0 s cs s' cs' : Dc n0 blank s cs s' cs' -> cs' = cs /\ exists w, Blank w /\ s = w ++ s'.
Proof.
  intros H. apply Dc_plus in H as (a & N & -> & F & ->). split; [reflexivity|]. exists a. split; [|reflexivity].
  split; [exact N|]. apply Forall_forall. rewrite forallb_forall in F. intros c Hc. rewrite <- mem_space. auto.
Qed.

(** * Dates *)
Lemma mod_divide a b : 0 < b -> (a mod b =? 0) = true <-> (b | a).
Proof. intros B. rewrite Z.eqb_eq. apply Z.mod_divide. lia. Qed.
Lemma is_leap_iff y : is_leap y = true <-> leap y.
Proof.
  unfold is_leap, leap. rewrite andb_true_iff, orb_true_iff, negb_true_iff, !mod_divide by lia.
  rewrite <- not_true_iff_false, mod_divide by lia. reflexivity.
Qed.
Lemma days_in_month_length y m : 1 <= m <= 12 -> month_length y m (days_in_month y m).
Proof.
  intros H. assert (C : In m [1; 2; 3; 4; 5; 6; 7; 8; 9; 10; 11; 12]) by (cbn [In]; lia).
  unfold month_length, long_month, days_in_month. cbn [In] in C.
  decompose [or] C; subst; try contradiction;
    first [left; split; [cbn [In]; lia|reflexivity] | right; left; split; [cbn [In]; lia|reflexivity] | right; right].
  split; [reflexivity|]. cbn [Z.eqb Pos.eqb andb]. destruct (is_leap y) eqn:E; [left|right]; (split; [|reflexivity]).
  - now apply is_leap_iff.
  - rewrite <- is_leap_iff, E. discriminate.
Qed.
Lemma month_length_fun y m n n' : month_length y m n -> month_length y m n' -> n = n'.
Proof.
  unfold month_length, long_month. cbn [In].
  intros [[A ->]|[[A ->]|[A [[L ->]|[L ->]]]]] [[B ->]|[[B ->]|[B [[L' ->]|[L' ->]]]]]; auto; try lia; contradiction.
Qed.
Lemma make_datetime_ok y mo d h mi s :
  (exists x, make_datetime y mo d h mi s = Ok x /\ x = DT y mo d h mi s /\ valid x) \/
  make_datetime y mo d h mi s = Err ValueError.
Proof.
  unfold make_datetime.
  destruct (_ && _) eqn:E; [left|now right]. rewrite !andb_true_iff, !Z.leb_le in E.
  eexists. split; [reflexivity|]. split; [reflexivity|]. unfold valid. cbn [year month day hour minute second].
  repeat split; try lia. exists (days_in_month y mo). split; [apply days_in_month_length|]; lia.
Qed.
Lemma make_datetime_valid x : valid x ->
  make_datetime (year x) (month x) (day x) (hour x) (minute x) (second x) = Ok x.
Proof.
  intros (Y & M & (n & L & D') & H & Mi & S'). unfold make_datetime.
  assert (E := month_length_fun _ _ _ _ L (days_in_month_length (year x) (month x) ltac:(lia))). subst n.
  replace (_ && _) with true; [now destruct x|].
  symmetry. rewrite !andb_true_iff, !Z.leb_le. lia.
Qed.

(** * Every format on its own *)
Lemma field_at f cs d n t z def : group_of d f 1 = Some n -> group n cs = Some t -> py_int t = Some z ->
  field f cs d def = Ok z.
Proof. intros A B C. unfold field. now rewrite A, B, C. Qed.
Lemma field_no f cs d def : group_of d f 1 = None -> field f cs d def = Ok def.
Proof. intros A. unfold field. now rewrite A. Qed.

Definition shape1 d s := exists a w b, date_text ($"-") d a /\ Blank w /\ second_text d b /\ s = a ++ w ++ b.
Definition shape2 d s :=
  second d = 0 /\ exists a w b, date_text ($"-") d a /\ Blank w /\ minute_text ($":") d b /\ s = a ++ w ++ b.
Definition shape3 d s := second d = 0 /\ exists a b, date_text [] d a /\ minute_text [] d b /\ s = a ++ b.
Definition shape4 d s := hour d = 0 /\ minute d = 0 /\ second d = 0 /\ date_text ($"-") d s.
Definition shape5 d s := hour d = 0 /\ minute d = 0 /\ second d = 0 /\ date_text [] d s.
Definition shape6 d s := second_text d s.
Definition shape7 d s := second d = 0 /\ minute_text ($":") d s.
Definition shape8 d s := second d = 0 /\ minute_text [] d s.
Definition sound (format : str) (shape : datetime -> str -> Prop) : Prop :=
  forall s, strptime s format = Err ValueError \/ exists d, strptime s format = Ok d /\ valid d /\ shape d s.

Ltac cats E :=
  lazymatch type of E with
  | Dc _ (Cat _ _) _ _ _ _ =>
      let t := fresh "t" in let ct := fresh "ct" in let E1 := fresh "E" in
      destruct E as (t & ct & E1 & E); cats E1; cats E
  | Dc _ Eps _ _ _ _ => destruct E as [-> ->]
  | Dc _ (Grp _ rY) _ _ _ _ => grp E inv_Y
  | Dc _ (Grp _ rm) _ _ _ _ => grp E inv_m
  | Dc _ (Grp _ rd) _ _ _ _ => grp E inv_d
  | Dc _ (Grp _ rH) _ _ _ _ => grp E inv_H
  | Dc _ (Grp _ rM) _ _ _ _ => grp E inv_M
  | Dc _ (Grp _ rS) _ _ _ _ => grp E inv_S
  | Dc _ dash _ _ _ _ => apply inv_dash in E as [-> ->]
  | Dc _ colon _ _ _ _ => apply inv_colon in E as [-> ->]
  | Dc _ blank _ _ _ _ => let w := fresh "w" in let B := fresh "B" in apply inv_blank in E as (-> & w & B & ->)
  end
with grp E I :=
  let t := fresh "u" in let z := fresh "z" in let H := fresh "N" in
  apply (inv_grp _ _ _ _ _ _ _ _ I) in E as (t & -> & -> & z & H).
Ltac ints :=
  repeat match goal with
  | H : Num 4 ?z ?t |- _ => lazymatch goal with _ : py_int t = Some z |- _ => fail | _ => pose proof (Num_int 4 z t ltac:(discriminate) H) end
  | H : Short ?z ?t |- _ => lazymatch goal with _ : py_int t = Some z |- _ => fail | _ => pose proof (Short_int z t H) end
  | H : ShortDay ?z ?t |- _ => lazymatch goal with _ : py_int t = Some z |- _ => fail | _ => pose proof (ShortDay_int z t H) end
  end.
Ltac fields :=
  repeat (first [erewrite field_at; [|reflexivity|reflexivity|eassumption] | erewrite field_no; [|reflexivity]]; cbn [bindr]).
Ltac start C :=
  intros s; unfold strptime; rewrite C;
  let E := fresh "E" in destruct (re_match _ s) as [[[|? ?] cs]|] eqn:E; [|now left|now left];
  apply re_match_some in E; cbn [seq fold_left] in E; cats E; ints; fields;
  let x := fresh "x" in let Hx := fresh in let Ex := fresh in let V := fresh "V" in
  match goal with |- context [make_datetime ?a ?b ?c ?d ?e ?f] =>
    destruct (make_datetime_ok a b c d e f) as [(x & Hx & Ex & V)|Hx]; rewrite Hx; [|now left] end;
  right; exists x; split; [reflexivity|]; split; [exact V|]; subst x.
Ltac finish :=
  repeat match goal with |- _ /\ _ => split end; try assumption; rewrite ?app_nil_r, <- ?app_assoc; try reflexivity.
Lemma sound1 : sound ($"%Y-%m-%d %H:%M:%S") shape1.
Proof.
  start compile1. unfold shape1.
  exists (u ++ $"-" ++ u0 ++ $"-" ++ u1), w, (u2 ++ $":" ++ u3 ++ $":" ++ u4). finish.
  - exists u, u0, u1. finish.
  - exists (u2 ++ $":" ++ u3), u4. finish. exists u2, u3. finish.
Qed.
Lemma sound2 : sound ($"%Y-%m-%d %H:%M") shape2.
Proof.
  start compile2. unfold shape2. finish.
  exists (u ++ $"-" ++ u0 ++ $"-" ++ u1), w, (u2 ++ $":" ++ u3). finish.
  - exists u, u0, u1. finish.
  - exists u2, u3. finish.
Qed.
Lemma sound3 : sound ($"%Y%m%d%H%M") shape3.
Proof.
  start compile3. unfold shape3. finish. exists (u ++ u0 ++ u1), (u2 ++ u3). finish.
  - exists u, u0, u1. finish.
  - exists u2, u3. finish.
Qed.
Lemma sound4 : sound ($"%Y-%m-%d") shape4.
Proof. start compile4. unfold shape4. finish. exists u, u0, u1. finish. Qed.
Lemma sound5 : sound ($"%Y%m%d") shape5.
Proof. start compile5. unfold shape5. finish. exists u, u0, u1. finish. Qed.
Lemma sound6 : sound ($"%H:%M:%S") shape6.
Proof. start compile6. unfold shape6. exists (u ++ $":" ++ u0), u1. finish. exists u, u0. finish. Qed.
Lemma sound7 : sound ($"%H:%M") shape7.
Proof. start compile7. unfold shape7. finish. exists u, u0. finish. Qed.
Lemma sound8 : sound ($"%H%M") shape8.
Proof. start compile8. unfold shape8. finish. exists u, u0. finish. Qed.

(** * Texts that are matched *)
Definition nodigit (s : str) : Prop := match s with [] => True | c :: _ => ~ digit c end.
Lemma nd_range a b c : ~ digit c -> (48 <= a)%N -> (b <= 57)%N -> mem (ic (CRange a b)) c = false.
Proof.
  intros N A B. apply not_true_iff_false. intros H. apply N. apply mem_range in H; unfold digit in *; lia.
Qed.
Lemma nd_digit c : ~ digit c -> mem (ic (CDigit false)) c = false.
Proof. intros N. apply not_true_iff_false. now rewrite mem_digit. Qed.
Lemma fwd_Y {R} n n0 z t rest cs (k : str -> caps -> option R) x : Num 4 z t ->
  k rest ((n, t) :: cs) = Some x -> m n0 (Grp n rY) (t ++ rest) cs k = Some x.
Proof.
  intros (L & F & _) K. cbn [m]. rewrite <- K. clear K x.
  assert (G : forall k' : str -> caps -> option R, m n0 rY (t ++ rest) cs k' = k' rest cs).
  { intros k'. destruct t as [|a [|b [|c [|d [|]]]]]; try discriminate.
    inversion F as [|? ? A F1]; subst. inversion F1 as [|? ? B F2]; subst.
    inversion F2 as [|? ? C F3]; subst. inversion F3 as [|? ? D' _]; subst.
    apply mem_digit in A, B, C, D'. cbn [rY m one app]. now rewrite A, B, C, D'. }
  intros. rewrite G, firstn_sub. reflexivity.
Qed.
Ltac digit_case H :=
  apply digit_cases in H; cbn [In] in H; decompose [or] H; clear H; subst; try contradiction.
Ltac closed_mems :=
  repeat match goal with
  | |- context [mem ?p ?c] => let v := eval vm_compute in (mem p c) in change (mem p c) with v
  end.
(** A field that can be matched entirely, whatever comes afterwards *)
Definition fwd (r : re) (t rest : str) : Prop :=
  forall R n0 cs (k : str -> caps -> option R) x, k rest cs = Some x -> m n0 r (t ++ rest) cs k = Some x.
Lemma fwd_grp {R} r t rest n n0 cs (k : str -> caps -> option R) x : fwd r t rest ->
  k rest ((n, t) :: cs) = Some x -> m n0 (Grp n r) (t ++ rest) cs k = Some x.
Proof. intros F K. cbn [m]. apply F. now rewrite firstn_sub. Qed.
Ltac fwd_case r :=
  intros R n0 cs k x K; cbn [app]; cbn [m r pair_of one];
  repeat match goal with
  | H : ~ digit ?c |- _ =>
      rewrite ?(nd_digit c H), ?(nd_range 48 51 c H), ?(nd_range 48 49 c H), ?(nd_range 48 50 c H),
        ?(nd_range 49 57 c H) by lia; clear H
  end; closed_mems; rewrite K; reflexivity.
Ltac fwd_short S Z r :=
  let L := fresh in let F := fresh in let A := fresh in let B := fresh in let F' := fresh in
  destruct S as [(L & F & <-)|(L & F & <-)];
  [ match type of L with length ?t = _ => destruct t as [|? [|? ?]]; try discriminate end;
    inversion F as [|? ? A _]; subst; clear F L;
    match goal with N : nodigit ?rest |- _ => destruct rest as [|? ?]; cbn [nodigit] in N end;
    digit_case A; try (exfalso; cbn in Z; lia); fwd_case r
  | match type of L with length ?t = _ => destruct t as [|? [|? [|? ?]]]; try discriminate end;
    inversion F as [|? ? A F']; subst; inversion F' as [|? ? B _]; subst; clear F F' L;
    digit_case A; digit_case B; try (exfalso; cbn in Z; lia); fwd_case r ].
Lemma fwd_m z t rest : Short z t -> 1 <= z <= 12 -> nodigit rest -> fwd rm t rest.
Proof. intros S Z N. fwd_short S Z rm. Qed.
Lemma fwd_H z t rest : Short z t -> 0 <= z <= 23 -> nodigit rest -> fwd rH t rest.
Proof. intros S Z N. fwd_short S Z rH. Qed.
Lemma fwd_M z t rest : Short z t -> 0 <= z <= 59 -> nodigit rest -> fwd rM t rest.
Proof. intros S Z N. fwd_short S Z rM. Qed.
Lemma fwd_S z t rest : Short z t -> 0 <= z <= 59 -> nodigit rest -> fwd rS t rest.
Proof. intros S Z N. fwd_short S Z rS. Qed.
Lemma fwd_d z t rest : ShortDay z t -> 1 <= z <= 31 -> nodigit rest -> fwd rd t rest.
Proof.
  intros [S|(c & -> & (_ & F & <-))] Z N; [fwd_short S Z rd|].
  inversion F as [|? ? A _]; subst. digit_case A; try (exfalso; cbn in Z; lia); fwd_case rd.
Qed.
Lemma fwd_blank w rest : Blank w -> stops is_space rest -> fwd blank w rest.
Proof.
  intros [W F] S R n0 cs k x K. unfold blank, one. cbn [m]. destruct w as [|c w]; [easy|]. cbn [app].
  inversion F as [|? ? C F']; subst. rewrite mem_space, C.
  assert (E : forall p q (s : str) (k : str -> option R), (forall c, p c = q c) -> star_g p s k = star_g q s k).
  { intros p q s k' H. induction s as [|a s IH]; cbn [star_g]; [reflexivity|]. now rewrite H, IH. }
  rewrite (E _ _ _ _ mem_space). apply star_g_run; [|exact S|exact K].
  apply forallb_forall. rewrite Forall_forall in F'. auto.
Qed.
Lemma fwd_dash rest : fwd dash ($"-") rest.
Proof. intros R n0 cs k x K. exact K. Qed.
Lemma fwd_colon rest : fwd colon ($":") rest.
Proof. intros R n0 cs k x K. exact K. Qed.

Lemma m_cat {R} n0 a b s cs (k : str -> caps -> option R) :
  m n0 (Cat a b) s cs k = m n0 a s cs (fun s' cs' => m n0 b s' cs' k).
Proof. reflexivity. Qed.
Lemma m_eps {R} n0 s cs (k : str -> caps -> option R) : m n0 Eps s cs k = k s cs.
Proof. reflexivity. Qed.
Lemma valid_bounds d : valid d -> 1 <= month d <= 12 /\ 1 <= day d <= 31 /\ 0 <= hour d <= 23 /\
  0 <= minute d <= 59 /\ 0 <= second d <= 59.
Proof.
  intros (Y & M & (n & L & D') & H & Mi & S'). repeat split; try lia.
  destruct L as [[_ ->]|[[_ ->]|[_ [[_ ->]|[_ ->]]]]]; lia.
Qed.
Lemma Short_first z t rest : Short z t -> stops is_space (t ++ rest).
Proof.
  intros [(L & F & _)|(L & F & _)]; (destruct t as [|c t]; [discriminate|]); inversion F; subst;
    cbn [app stops]; now apply is_d_not_space, is_d_iff.
Qed.
Lemma Blank_first w rest : Blank w -> nodigit (w ++ rest).
Proof.
  intros [N F]. destruct w as [|c w]; [easy|]. inversion F; subst. cbn [app nodigit].
  rewrite <- is_d_iff. intros H. apply is_d_not_space in H. congruence.
Qed.
Lemma dash_first rest : nodigit ($"-" ++ rest).
Proof. cbn. unfold digit. lia. Qed.
Lemma colon_first rest : nodigit ($":" ++ rest).
Proof. cbn. unfold digit. lia. Qed.
Ltac go :=
  cbv beta;
  lazymatch goal with
  | |- m _ (Grp _ rY) _ _ _ = _ => eapply fwd_Y; [eassumption|]; go
  | |- m _ (Grp _ rm) _ _ _ = _ => apply fwd_grp; [eapply fwd_m; [eassumption|lia|follow]|]; go
  | |- m _ (Grp _ rd) _ _ _ = _ => apply fwd_grp; [eapply fwd_d; [eassumption|lia|follow]|]; go
  | |- m _ (Grp _ rH) _ _ _ = _ => apply fwd_grp; [eapply fwd_H; [eassumption|lia|follow]|]; go
  | |- m _ (Grp _ rM) _ _ _ = _ => apply fwd_grp; [eapply fwd_M; [eassumption|lia|follow]|]; go
  | |- m _ (Grp _ rS) _ _ _ = _ => apply fwd_grp; [eapply fwd_S; [eassumption|lia|follow]|]; go
  | |- m _ dash _ _ _ = _ => apply fwd_dash; go
  | |- m _ colon _ _ _ = _ => apply fwd_colon; go
  | |- m _ blank _ _ _ = _ => apply fwd_blank; [assumption|eapply Short_first; eassumption|]; go
  | |- _ => reflexivity
  end
with follow := first [exact I | apply dash_first | apply colon_first | apply Blank_first; assumption].
Ltac run C s' :=
  unfold strptime; rewrite C;
  match goal with |- context [re_match ?r ?s] =>
    let E := fresh "E" in let cs := fresh "cs" in
    evar (cs : caps); assert (E : re_match r s = Some ([], cs));
    [ replace s with s' by (rewrite <- ?app_assoc, ?app_nil_r; reflexivity); unfold re_match;
      generalize (length s'); intro; cbn [seq fold_left]; rewrite !m_cat, m_eps; unfold cs; go
    | rewrite E; subst cs; ints; fields ] end.
Lemma complete1 d s : valid d -> shape1 d s -> strptime s ($"%Y-%m-%d %H:%M:%S") = Ok d.
Proof.
  intros V (a & w & b & (y & mo & dd & Ny & Nm & Nd & ->) & B & (t & u & (h & mi & Nh & Nmi & ->) & Nu & ->) & ->).
  assert (Q := valid_bounds d V).
  run compile1 (y ++ $"-" ++ mo ++ $"-" ++ dd ++ w ++ h ++ $":" ++ mi ++ $":" ++ u ++ []).
  now apply make_datetime_valid.
Qed.
Lemma complete2 d s : valid d -> shape2 d s -> strptime s ($"%Y-%m-%d %H:%M") = Ok d.
Proof.
  intros V (Z & a & w & b & (y & mo & dd & Ny & Nm & Nd & ->) & B & (h & mi & Nh & Nmi & ->) & ->).
  assert (Q := valid_bounds d V).
  run compile2 (y ++ $"-" ++ mo ++ $"-" ++ dd ++ w ++ h ++ $":" ++ mi ++ []).
  rewrite <- Z. now apply make_datetime_valid.
Qed.
Lemma complete4 d s : valid d -> shape4 d s -> strptime s ($"%Y-%m-%d") = Ok d.
Proof.
  intros V (Z1 & Z2 & Z3 & (y & mo & dd & Ny & Nm & Nd & ->)). assert (Q := valid_bounds d V).
  run compile4 (y ++ $"-" ++ mo ++ $"-" ++ dd ++ []).
  rewrite <- Z1 at 1. rewrite <- Z2 at 1. rewrite <- Z3 at 1. now apply make_datetime_valid.
Qed.
Definition at_time (d : datetime) : datetime := DT 1900 1 1 (hour d) (minute d) (second d).
Lemma at_time_valid d : valid d -> valid (at_time d).
Proof.
  intros V. apply valid_bounds in V. unfold valid, at_time. cbn [year month day hour minute second].
  repeat split; try lia. exists 31. split; [|lia]. left. split; [unfold long_month; cbn [In]; auto|reflexivity].
Qed.
Lemma complete6 d s : valid d -> shape6 d s -> strptime s ($"%H:%M:%S") = Ok (at_time d).
Proof.
  intros V (t & u & (h & mi & Nh & Nmi & ->) & Nu & ->). assert (Q := valid_bounds d V).
  run compile6 (h ++ $":" ++ mi ++ $":" ++ u ++ []).
  apply at_time_valid in V. now apply make_datetime_valid in V.
Qed.
Lemma complete7 d s : valid d -> shape7 d s -> strptime s ($"%H:%M") = Ok (at_time d).
Proof.
  intros V (Z & (h & mi & Nh & Nmi & ->)). assert (Q := valid_bounds d V).
  run compile7 (h ++ $":" ++ mi ++ []).
  rewrite <- Z. apply at_time_valid in V. now apply make_datetime_valid in V.
Qed.

(** * Telling the formats apart: by their dashes and colons *)
Fixpoint cnt (c : char) (s : str) : nat :=
  match s with [] => 0 | x :: s => (if N.eqb x c then 1 else 0) + cnt c s end%nat.
Lemma cnt_app c a b : cnt c (a ++ b) = (cnt c a + cnt c b)%nat.
Proof. induction a as [|x a IH]; cbn [cnt app]; [reflexivity|]. rewrite IH. lia. Qed.
Lemma cnt_none c s : (forall x, In x s -> x <> c) -> cnt c s = 0%nat.
Proof.
  induction s as [|x s IH]; intros H; cbn [cnt]; [reflexivity|]. rewrite IH by (intros; apply H; now right).
  destruct (N.eqb_spec x c) as [->|]; [|reflexivity]. exfalso. apply (H c (or_introl eq_refl) eq_refl).
Qed.
Definition sep (c : char) : Prop := c = 45%N \/ c = 58%N.
Lemma cnt_Num c n z t : sep c -> Num n z t -> cnt c t = 0%nat.
Proof.
  intros S (_ & F & _). apply cnt_none. rewrite Forall_forall in F. intros x Hx ->. apply F in Hx.
  unfold digit in Hx. destruct S; subst; lia.
Qed.
Lemma cnt_Short c z t : sep c -> Short z t -> cnt c t = 0%nat.
Proof. intros S [H|H]; eapply cnt_Num; eauto. Qed.
Lemma cnt_ShortDay c z t : sep c -> ShortDay z t -> cnt c t = 0%nat.
Proof.
  intros S [H|(x & -> & H)]; [eapply cnt_Short; eauto|]. apply (cnt_Num c) in H; [|exact S]. cbn [cnt] in *.
  rewrite H. destruct S; subst; reflexivity.
Qed.
Lemma cnt_Blank c w : sep c -> Blank w -> cnt c w = 0%nat.
Proof.
  intros S [_ F]. apply cnt_none. rewrite Forall_forall in F. intros x Hx ->. apply F in Hx.
  destruct S; subst; discriminate.
Qed.
Definition counts (s : str) : nat * nat := (cnt 45%N s, cnt 58%N s).
Ltac count :=
  unfold counts; rewrite ?cnt_app;
  repeat match goal with
  | H : Num 4 ?z ?t |- _ => rewrite ?(cnt_Num 45%N 4 z t (or_introl eq_refl) H), ?(cnt_Num 58%N 4 z t (or_intror eq_refl) H); clear H
  | H : Short ?z ?t |- _ => rewrite ?(cnt_Short 45%N z t (or_introl eq_refl) H), ?(cnt_Short 58%N z t (or_intror eq_refl) H); clear H
  | H : ShortDay ?z ?t |- _ => rewrite ?(cnt_ShortDay 45%N z t (or_introl eq_refl) H), ?(cnt_ShortDay 58%N z t (or_intror eq_refl) H); clear H
  | H : Blank ?t |- _ => rewrite ?(cnt_Blank 45%N t (or_introl eq_refl) H), ?(cnt_Blank 58%N t (or_intror eq_refl) H); clear H
  end; reflexivity.
Lemma counts1 d s : shape1 d s -> counts s = (2, 2)%nat.
Proof.
  intros (a & w & b & (y & mo & dd & Ny & Nm & Nd & ->) & B & (t & u & (h & mi & Nh & Nmi & ->) & Nu & ->) & ->). count.
Qed.
Lemma counts2 d s : shape2 d s -> counts s = (2, 1)%nat.
Proof. intros (_ & a & w & b & (y & mo & dd & Ny & Nm & Nd & ->) & B & (h & mi & Nh & Nmi & ->) & ->). count. Qed.
Lemma counts3 d s : shape3 d s -> counts s = (0, 0)%nat.
Proof. intros (_ & a & b & (y & mo & dd & Ny & Nm & Nd & ->) & (h & mi & Nh & Nmi & ->) & ->). count. Qed.
Lemma counts4 d s : shape4 d s -> counts s = (2, 0)%nat.
Proof. intros (_ & _ & _ & (y & mo & dd & Ny & Nm & Nd & ->)). count. Qed.
Lemma counts5 d s : shape5 d s -> counts s = (0, 0)%nat.
Proof. intros (_ & _ & _ & (y & mo & dd & Ny & Nm & Nd & ->)). count. Qed.
Lemma counts6 d s : shape6 d s -> counts s = (0, 2)%nat.
Proof. intros (t & u & (h & mi & Nh & Nmi & ->) & Nu & ->). count. Qed.
Lemma counts7 d s : shape7 d s -> counts s = (0, 1)%nat.
Proof. intros (_ & (h & mi & Nh & Nmi & ->)). count. Qed.
Lemma counts8 d s : shape8 d s -> counts s = (0, 0)%nat.
Proof. intros (_ & (h & mi & Nh & Nmi & ->)). count. Qed.

Lemma fails f shape c s : sound f shape -> (forall d s, shape d s -> counts s = c) -> counts s <> c ->
  strptime s f = Err ValueError.
Proof. intros S C N. destruct (S s) as [H|(d & _ & _ & H)]; [exact H|]. now apply C in H. Qed.
Section Try.
  Variables (timestamp : datetime -> res Z) (now : datetime).
  Lemma try1 d s : valid d -> shape1 d s -> try_formats timestamp now time_formats s = Some (timestamp d).
  Proof. intros V H. cbn [try_formats time_formats]. now rewrite (complete1 d). Qed.
  Lemma try2 d s : valid d -> shape2 d s -> try_formats timestamp now time_formats s = Some (timestamp d).
  Proof.
    intros V H. assert (C := counts2 d s H). cbn [try_formats time_formats].
    rewrite (fails _ _ _ s sound1 counts1) by (rewrite C; discriminate). now rewrite (complete2 d).
  Qed.
  Lemma try4 d s : valid d -> shape4 d s -> try_formats timestamp now time_formats s = Some (timestamp d).
  Proof.
    intros V H. assert (C := counts4 d s H). cbn [try_formats time_formats].
    rewrite (fails _ _ _ s sound1 counts1), (fails _ _ _ s sound2 counts2), (fails _ _ _ s sound3 counts3)
      by (rewrite C; discriminate). now rewrite (complete4 d).
  Qed.
  Lemma try6 d s : valid d -> shape6 d s ->
    try_formats timestamp now time_formats s = Some (moment timestamp now FTime (at_time d)).
  Proof.
    intros V H. assert (C := counts6 d s H). cbn [try_formats time_formats].
    rewrite (fails _ _ _ s sound1 counts1), (fails _ _ _ s sound2 counts2), (fails _ _ _ s sound3 counts3),
      (fails _ _ _ s sound4 counts4), (fails _ _ _ s sound5 counts5) by (rewrite C; discriminate).
    now rewrite (complete6 d).
  Qed.
  Lemma try7 d s : valid d -> shape7 d s ->
    try_formats timestamp now time_formats s = Some (moment timestamp now FTime (at_time d)).
  Proof.
    intros V H. assert (C := counts7 d s H). cbn [try_formats time_formats].
    rewrite (fails _ _ _ s sound1 counts1), (fails _ _ _ s sound2 counts2), (fails _ _ _ s sound3 counts3),
      (fails _ _ _ s sound4 counts4), (fails _ _ _ s sound5 counts5), (fails _ _ _ s sound6 counts6)
      by (rewrite C; discriminate).
    now rewrite (complete7 d).
  Qed.
End Try.

(** * Numbers *)
Lemma int_digits_chars s d : int_digits s = Some d -> Forall number_char s.
Proof.
  revert d. assert (G : forall n s d, (length s <= n)%nat -> int_digits s = Some d -> Forall number_char s).
  { clear s. induction n as [|n IH]; intros s d L H; (destruct s as [|c t]; [discriminate|]); cbn [length] in L; [lia|].
    cbn [int_digits] in H. destruct (is_d c) eqn:C; [|discriminate].
    apply is_d_iff in C. constructor; [now left|]. destruct t as [|u t']; [constructor|].
    destruct (N.eqb_spec u 95) as [->|].
    - constructor; [right; now left|]. destruct (int_digits t') eqn:E; [|discriminate].
      eapply IH; [|exact E]. cbn [length] in L. lia.
    - destruct (int_digits (u :: t')) eqn:E; [|discriminate]. eapply IH; [|exact E]. lia. }
  intros d. now apply (G (length s)).
Qed.
Lemma opt_digits_chars s d : opt_digits s = Some d -> Forall number_char s.
Proof. destruct s; [constructor|]. apply int_digits_chars. Qed.
Lemma mantissa_chars s x : mantissa s = Some x -> Forall number_char s.
Proof.
  unfold mantissa. assert (J := join_split DOT s). destruct (split_on DOT s) as [|a [|b [|? ?]]]; try discriminate.
  - cbn [join_with] in J. subst a. destruct (int_digits s) eqn:E; [|discriminate]. intros _.
    eapply int_digits_chars, E.
  - cbn [join_with] in J. intros H. rewrite <- J.
    assert (X : exists d e, opt_digits a = Some d /\ opt_digits b = Some e).
    { destruct (opt_digits a) as [d|], (opt_digits b) as [e|]; [eauto| | |]; exfalso; destruct a, b; discriminate. }
    destruct X as (d & e & A & B). apply opt_digits_chars in A, B. apply Forall_app. split; [exact A|].
    apply Forall_app. split; [|exact B]. constructor; [|constructor]. right. right. now left.
Qed.
Lemma signed_split s neg u : signed s = (neg, u) -> exists sg, sign sg /\ s = sg ++ u.
Proof.
  unfold signed. destruct s as [|c t]; [intros [= _ <-]; exists []; split; [now left|reflexivity]|].
  destruct (N.eqb_spec c 43) as [->|]; [intros [= _ <-]; exists ($"+"); split; [right; now left|reflexivity]|].
  destruct (N.eqb_spec c 45) as [->|]; [intros [= _ <-]; exists ($"-"); split; [right; right; now left|reflexivity]|].
  intros [= _ <-]. exists []. split; [now left|reflexivity].
Qed.
Lemma split_exp_split s a b : split_exp s = (a, b) ->
  match b with None => s = a | Some t => exists e, In e ($"eE") /\ s = a ++ e :: t end.
Proof.
  revert a b. induction s as [|c t IH]; cbn [split_exp]; intros a b; [now intros [= <- <-]|].
  unfold is_e. destruct (_ || _)%bool eqn:E.
  - intros [= <- <-]. exists c. split; [|reflexivity]. apply orb_true_iff in E. rewrite !N.eqb_eq in E.
    destruct E as [->| ->]; [now left|right; now left].
  - destruct (split_exp t) as [x y]. intros [= <- <-]. specialize (IH x y eq_refl). destruct y as [y|].
    + destruct IH as (e & I & ->). exists e. auto.
    + now subst.
Qed.
Lemma float_number s f : py_float s = Some f -> number_text s.
Proof.
  unfold py_float. destruct (signed (strip s)) as [neg u] eqn:S. apply signed_split in S as (sg & SG & E).
  destruct (ArgsValueProofs.strip_split is_space s) as (l & r & Es & Fl & Fr & _).
  change (strip_p is_space s) with (strip s) in Es. rewrite E in Es.
  intros H. exists l, (sg ++ u), r. split; [exact Es|]. split.
  { apply Forall_forall. intros c Hc. rewrite forallb_forall in Fl, Fr. apply in_app_or in Hc as [Hc|Hc]; auto. }
  destruct (_ || _)%bool eqn:W1.
  { right. exists sg, u. split; [exact SG|]. split; [reflexivity|]. apply orb_true_iff in W1. rewrite !str_eqb_eq in W1.
    destruct W1 as [->| ->]; [now left|right; now left]. }
  destruct (str_eqb (lower u) ($"nan")) eqn:W2.
  { right. exists sg, u. split; [exact SG|]. split; [reflexivity|]. apply str_eqb_eq in W2. rewrite W2.
    right. right. now left. }
  left. destruct (split_exp u) as [a b] eqn:X. apply split_exp_split in X.
  destruct (mantissa a) as [[ds e1]|] eqn:M; [|discriminate]. destruct (exponent b) as [e2|] eqn:P; [|discriminate].
  apply mantissa_chars in M. destruct b as [t|].
  - destruct X as (e & I & ->). exists sg, a, (e :: t). split; [exact SG|]. split; [exact M|]. split; [reflexivity|].
    right. cbn [exponent] in P. destruct (signed t) as [neg' u'] eqn:S'. apply signed_split in S' as (sg' & SG' & ->).
    destruct (int_digits u') eqn:Q; [|discriminate]. apply int_digits_chars in Q.
    exists e, sg', u'. auto.
  - subst u. exists sg, a, []. rewrite app_nil_r. auto.
Qed.

(** The characters of dates and times *)
Definition plain (c : char) : Prop := digit c \/ c = 45%N \/ c = 58%N \/ is_space c = true.
Lemma plain_lower c : plain c -> lower_c c <> 105%N /\ lower_c c <> 110%N.
Proof.
  intros P. assert (L : (c < 97)%N \/ c = 133%N \/ c = 160%N).
  { destruct P as [P|[->|[->|P]]]; [unfold digit in P; lia|lia|lia|]. unfold is_space, between in P.
    rewrite !orb_true_iff, !andb_true_iff, !N.leb_le, !N.eqb_eq in P. lia. }
  assert (Q : ~ (65 <= c <= 90)%N).
  { destruct P as [P|[->|[->|P]]]; [unfold digit in P; lia|lia|lia|]. unfold is_space, between in P.
    rewrite !orb_true_iff, !andb_true_iff, !N.leb_le, !N.eqb_eq in P. lia. }
  unfold lower_c, is_upper_AZ, between.
  destruct (N.leb_spec 65 c), (N.leb_spec c 90), (N.leb_spec 192 c); cbn [andb orb]; lia.
Qed.
Lemma not_number c s : digit c -> Forall plain s -> number_text (c :: s) -> counts (c :: s) = (0, 0)%nat.
Proof.
  intros C F (a & t & b & E & Sp & H).
  assert (Fc : Forall plain (c :: s)) by (constructor; [now left|exact F]).
  assert (Ea : a = []).
  { destruct a as [|x a]; [reflexivity|]. injection E as <- _. inversion Sp as [|? ? X _]; subst.
    apply is_d_iff, is_d_not_space in C. congruence. }
  subst a. cbn [app] in *.
  assert (Sb : forall x, sep x -> cnt x b = 0%nat).
  { intros x Sx. apply cnt_none. rewrite Forall_forall in Sp. intros y Hy ->. apply Sp in Hy. destruct Sx; subst; discriminate. }
  assert (Sg : forall sg u, sign sg -> c :: s = (sg ++ u) ++ b -> sg = []).
  { intros sg u I X. destruct I as [<-|[<-|[<-|[]]]]; [reflexivity| |]; injection X as -> _; unfold digit in C; lia. }
  destruct H as [(sg & body & ex & I & Fb & -> & X)|(sg & w & I & -> & W)].
  - rewrite (Sg _ _ I E) in E. cbn [app] in E. destruct X as [->|(e & sg' & more & Ie & _ & _ & ->)].
    + rewrite app_nil_r in E. rewrite E. unfold counts. rewrite !cnt_app, !Sb by (unfold sep; auto).
      rewrite !cnt_none; [reflexivity| |]; rewrite Forall_forall in Fb; intros x Hx ->; apply Fb in Hx;
        destruct Hx as [Hx|[Hx|[Hx|[]]]]; try discriminate Hx; unfold digit in Hx; lia.
    + exfalso. rewrite E in Fc. rewrite !Forall_app in Fc. destruct Fc as [[_ Fe] _].
      inversion Fe as [|? ? Pe _]; subst. destruct Ie as [<-|[<-|[]]]; destruct Pe as [Pe|[Pe|[Pe|Pe]]];
        vm_compute in Pe; try discriminate Pe; destruct Pe as [_ Pe]; now apply Pe.
  - exfalso. rewrite (Sg _ _ I E) in E. cbn [app] in E. rewrite E in Fc. apply Forall_app in Fc as [Fw _].
    destruct w as [|x w]; [destruct W as [W|[W|[W|[]]]]; discriminate W|]. inversion Fw as [|? ? Px _]; subst.
    apply plain_lower in Px. cbn [lower map] in W.
    destruct W as [W|[W|[W|[]]]]; injection W as W _; rewrite <- W in Px; tauto.
Qed.
Lemma float_digits t : t <> [] -> Forall digit t -> py_float t = Some (PNum false (rn (value t 0) 1)).
Proof.
  intros N F. assert (B := digits_forallb t F). unfold py_float. rewrite strip_digits by exact B.
  destruct t as [|c t]; [easy|]. inversion F as [|? ? C F']; subst.
  assert (S : signed (c :: t) = (false, c :: t)).
  { unfold signed. unfold digit in C. destruct (N.eqb_spec c 43); [lia|]. destruct (N.eqb_spec c 45); [lia|]. reflexivity. }
  rewrite S. assert (P : plain c) by now left. apply plain_lower in P. cbn [lower map].
  assert (W : forall x w y, x = 105%N \/ x = 110%N -> str_eqb (lower_c c :: w) (x :: y) = false).
  { intros x w y X. destruct (str_eqb _ _) eqn:E; [|reflexivity]. apply str_eqb_eq in E. injection E as E _.
    destruct P. destruct X; congruence. }
  change ($"inf") with (105%N :: $"nf"). change ($"infinity") with (105%N :: $"nfinity"). change ($"nan") with (110%N :: $"an").
  rewrite !W by auto. cbn [orb].
  assert (X : forall s, Forall digit s -> split_exp s = (s, None)).
  { clear. induction s as [|c s IH]; intros F; cbn [split_exp]; [reflexivity|]. inversion F as [|? ? C F']; subst.
    unfold is_e. unfold digit in C. destruct (N.eqb_spec c 101); [lia|]. destruct (N.eqb_spec c 69); [lia|].
    cbn [orb]. now rewrite IH. }
  rewrite X by exact F. unfold mantissa. rewrite split_on_nosep.
  2:{ rewrite Forall_forall in F. intros H. apply F in H. unfold digit, DOT in H. lia. }
  rewrite int_digits_all by assumption. cbn [option_map exponent]. rewrite (value_digits (c :: t)) by exact F.
  cbn [Z.add Z.leb Z.compare Z.pow]. now rewrite Z.mul_1_r.
Qed.
Lemma parse_digits timestamp now clock t : t <> [] -> Forall digit t -> value t 0 < 2 ^ 53 ->
  parse_time timestamp now clock t = Ok (value t 0).
Proof.
  intros N F L. unfold parse_time. rewrite float_digits by assumption. cbn [int_of_float].
  assert (P : 0 <= value t 0) by (rewrite value_digits by exact F; lia).
  destruct (rn_exact (value t 0) 0 0 (value t 0) 1) as (num & den & -> & D' & E); try lia.
  cbn [fint bindr]. change (2 ^ 0) with 1 in E. replace num with (value t 0 * den) by lia. rewrite Z.div_mul by lia. reflexivity.
Qed.

(** * All together *)
Lemma plain_Num n z t : Num n z t -> Forall plain t.
Proof. intros (_ & F & _). eapply Forall_impl; [|exact F]. intros c. now left. Qed.
Lemma plain_Short z t : Short z t -> Forall plain t.
Proof. intros [H|H]; eapply plain_Num; eauto. Qed.
Lemma plain_ShortDay z t : ShortDay z t -> Forall plain t.
Proof.
  intros [H|(c & -> & H)]; [eapply plain_Short; eauto|]. apply plain_Num in H.
  constructor; [|exact H]. right. right. right. reflexivity.
Qed.
Lemma plain_Blank w : Blank w -> Forall plain w.
Proof. intros [_ F]. eapply Forall_impl; [|exact F]. intros c H. right. right. now right. Qed.
Lemma plain_dash : Forall plain ($"-").
Proof. constructor; [right; now left|constructor]. Qed.
Lemma plain_colon : Forall plain ($":").
Proof. constructor; [right; right; now left|constructor]. Qed.
Ltac plains :=
  rewrite ?Forall_app; repeat match goal with |- _ /\ _ => split end;
  first [assumption | eapply plain_Num; eassumption | eapply plain_Short; eassumption | eapply plain_ShortDay; eassumption
        | apply plain_Blank; assumption | apply plain_dash | apply plain_colon | constructor].
Lemma plain1 d s : shape1 d s -> Forall plain s.
Proof.
  intros (a & w & b & (y & mo & dd & Ny & Nm & Nd & ->) & B & (t & u & (h & mi & Nh & Nmi & ->) & Nu & ->) & ->). plains.
Qed.
Lemma plain2 d s : shape2 d s -> Forall plain s.
Proof. intros (_ & a & w & b & (y & mo & dd & Ny & Nm & Nd & ->) & B & (h & mi & Nh & Nmi & ->) & ->). plains. Qed.
Lemma plain3 d s : shape3 d s -> Forall plain s.
Proof. intros (_ & a & b & (y & mo & dd & Ny & Nm & Nd & ->) & (h & mi & Nh & Nmi & ->) & ->). cbn [app]. plains. Qed.
Lemma plain4 d s : shape4 d s -> Forall plain s.
Proof. intros (_ & _ & _ & (y & mo & dd & Ny & Nm & Nd & ->)). plains. Qed.
Lemma plain5 d s : shape5 d s -> Forall plain s.
Proof. intros (_ & _ & _ & (y & mo & dd & Ny & Nm & Nd & ->)). cbn [app]. plains. Qed.
Lemma plain6 d s : shape6 d s -> Forall plain s.
Proof. intros (t & u & (h & mi & Nh & Nmi & ->) & Nu & ->). plains. Qed.
Lemma plain7 d s : shape7 d s -> Forall plain s.
Proof. intros (_ & (h & mi & Nh & Nmi & ->)). plains. Qed.
Lemma plain8 d s : shape8 d s -> Forall plain s.
Proof. intros (_ & (h & mi & Nh & Nmi & ->)). cbn [app]. plains. Qed.
(** All of them begin with a digit. *)
Definition begins (s : str) : Prop := exists c r, s = c :: r /\ digit c.
Lemma begins_Num n z t r : Num (S n) z t -> begins (t ++ r).
Proof.
  intros (L & F & _). destruct t as [|c t]; [discriminate|]. inversion F; subst. exists c, (t ++ r). split; [reflexivity|assumption].
Qed.
Lemma begins_Short z t r : Short z t -> begins (t ++ r).
Proof. intros [H|H]; eapply begins_Num; eauto. Qed.
Lemma begins_date sp d a r : date_text sp d a -> begins (a ++ r).
Proof. intros (y & mo & dd & Ny & _ & _ & ->). rewrite <- app_assoc. eapply begins_Num; eauto. Qed.
Lemma begins_minute sp d a r : minute_text sp d a -> begins (a ++ r).
Proof. intros (h & mi & Nh & _ & ->). rewrite <- app_assoc. eapply begins_Short; eauto. Qed.
Lemma begins_float s : begins s -> Forall plain s -> counts s <> (0, 0)%nat -> py_float s = None.
Proof.
  intros (c & r & -> & C) F N. destruct (py_float (c :: r)) eqn:E; [|reflexivity]. exfalso. apply N.
  inversion F; subst. apply float_number in E. now apply not_number.
Qed.
Lemma Num_length n z t : Num n z t -> length t = n.
Proof. now intros (L & _). Qed.
Lemma date_length sp d a : date_text sp d a -> (4 <= length a)%nat.
Proof. intros (y & mo & dd & Ny & _ & _ & ->). apply Num_length in Ny. rewrite app_length. lia. Qed.
Lemma parse_by timestamp now clock s r : begins s -> Forall plain s -> counts s <> (0, 0)%nat -> (4 <= length s)%nat ->
  try_formats timestamp now time_formats s = Some r -> parse_time timestamp now clock s = r.
Proof.
  intros B P C L T. unfold parse_time. rewrite begins_float by assumption.
  destruct (Nat.leb_spec 4 (length s)); [|lia]. now rewrite T.
Qed.
Lemma parse_moment timestamp now clock d s : valid d ->
  (exists a w b, date_text ($"-") d a /\ Blank w /\ second_text d b /\ s = a ++ w ++ b) \/
  (second d = 0 /\ exists a w b, date_text ($"-") d a /\ Blank w /\ minute_text ($":") d b /\ s = a ++ w ++ b) \/
  (hour d = 0 /\ minute d = 0 /\ second d = 0 /\ date_text ($"-") d s) ->
  parse_time timestamp now clock s = timestamp d.
Proof.
  intros V [H|[H|H]].
  - apply parse_by; [| |now rewrite (counts1 d)| |now apply try1].
    + destruct H as (a & w & b & H & _ & _ & ->). eapply begins_date; eauto.
    + eapply plain1; eauto.
    + destruct H as (a & w & b & H & _ & _ & ->). apply date_length in H. rewrite app_length. lia.
  - apply parse_by; [| |now rewrite (counts2 d)| |now apply try2].
    + destruct H as (_ & a & w & b & H & _ & _ & ->). eapply begins_date; eauto.
    + eapply plain2; eauto.
    + destruct H as (_ & a & w & b & H & _ & _ & ->). apply date_length in H. rewrite app_length. lia.
  - apply parse_by; [| |now rewrite (counts4 d)| |now apply try4].
    + destruct H as (_ & _ & _ & H). rewrite <- (app_nil_r s). eapply begins_date; eauto.
    + eapply plain4; eauto.
    + destruct H as (_ & _ & _ & H). now apply date_length in H.
Qed.
(** A time like 1:2 is too short to be looked at. *)
Lemma parse_daytime timestamp now clock d s : valid d -> daytime_text d s -> (4 <= length s)%nat ->
  parse_time timestamp now clock s = moment timestamp now FTime (at_time d).
Proof.
  intros V [H|H] L.
  - apply parse_by; [| |now rewrite (counts6 d)|exact L|now apply try6].
    + destruct H as (t & u & H & _ & ->). eapply begins_minute; eauto.
    + eapply plain6; eauto.
  - apply parse_by; [| |now rewrite (counts7 d)|exact L|now apply try7].
    + destruct H as (_ & H). rewrite <- (app_nil_r s). eapply begins_minute; eauto.
    + eapply plain7; eauto.
Qed.
