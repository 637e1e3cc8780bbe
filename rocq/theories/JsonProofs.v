(** What json.dump writes is read back. *)
From Coq Require Import List NArith ZArith Bool Lia.
From Coq Require DecimalN DecimalFacts.
From Verif Require Import Py TypeModel FieldModel JsonModel JsonSpec.
Import ListNotations.

(** * Characters *)
Definition nums16 : list N := map N.of_nat (seq 0 16).
Lemma in_nums16 d : (d < 16)%N -> In d nums16.
Proof.
  intros H. unfold nums16. apply in_map_iff. exists (N.to_nat d). split; [apply N2Nat.id|]. apply in_seq. lia.
Qed.
(** every combination of four digits *)
Lemma hex4_table : forallb (fun a => forallb (fun b => forallb (fun c => forallb (fun d =>
  match hex4 (((a * 16 + b) * 16 + c) * 16 + d) with
  | [w; x; y; z] => match hex4_value w x y z with Some n => N.eqb n (((a * 16 + b) * 16 + c) * 16 + d) | None => false end
  | _ => false
  end) nums16) nums16) nums16) nums16 = true.
Proof. vm_compute. reflexivity. Qed.
Lemma hex4_read n : (n < 65536)%N -> exists w x y z, hex4 n = [w; x; y; z] /\ hex4_value w x y z = Some n.
Proof.
  intros H. assert (T := hex4_table).
  set (a := (n / 4096)%N). set (b := (n / 256 mod 16)%N). set (c := (n / 16 mod 16)%N). set (d := (n mod 16)%N).
  assert (E : (((a * 16 + b) * 16 + c) * 16 + d = n)%N).
  { subst a b c d. assert (E1 := N.div_mod n 16 ltac:(discriminate)). assert (E2 := N.div_mod (n / 16) 16 ltac:(discriminate)).
    assert (E3 := N.div_mod (n / 256) 16 ltac:(discriminate)). rewrite N.div_div in E2, E3 by discriminate. change (16 * 16)%N with 256%N in E2. change (256 * 16)%N with 4096%N in E3. lia. }
  assert (Ha : (a < 16)%N) by (subst a; apply N.div_lt_upper_bound; lia).
  assert (Hb : (b < 16)%N) by (unfold b; apply N.mod_lt; discriminate).
  assert (Hc : (c < 16)%N) by (unfold c; apply N.mod_lt; discriminate).
  assert (Hd : (d < 16)%N) by (unfold d; apply N.mod_lt; discriminate).
  rewrite forallb_forall in T. specialize (T a (in_nums16 a Ha)). rewrite forallb_forall in T. specialize (T b (in_nums16 b Hb)).
  rewrite forallb_forall in T. specialize (T c (in_nums16 c Hc)). rewrite forallb_forall in T. specialize (T d (in_nums16 d Hd)).
  rewrite E in T. destruct (hex4 n) as [|w [|x [|y [|z [|]]]]]; try discriminate. exists w, x, y, z. split; auto.
  destruct (hex4_value w x y z) as [m|]; [|discriminate]. apply N.eqb_eq in T. now rewrite T.
Qed.
Definition nums1024 : list N := map N.of_nat (seq 0 1024).
Lemma lor_table : forallb (fun y => N.eqb (N.lor 55296 y) (55296 + y) && N.eqb (N.lor 56320 y) (56320 + y)) nums1024 = true.
Proof. vm_compute. reflexivity. Qed.
Lemma lor_add y : (y < 1024)%N -> N.lor 55296 y = (55296 + y)%N /\ N.lor 56320 y = (56320 + y)%N.
Proof.
  intros H. assert (T := lor_table). rewrite forallb_forall in T. specialize (T y).
  assert (I : In y nums1024) by (unfold nums1024; apply in_map_iff; exists (N.to_nat y); split; [apply N2Nat.id|]; apply in_seq; lia).
  apply T in I. apply andb_true_iff in I as [I1 I2]. apply N.eqb_eq in I1. apply N.eqb_eq in I2. auto.
Qed.

Lemma read_u n s : (n < 65536)%N -> read_chars ($"\u" ++ hex4 n ++ s) = prepend [n] (read_chars s).
Proof.
  intros H. destruct (hex4_read n H) as (w & x & y & z & -> & E). cbn [app].
  change ($"\u" ++ w :: x :: y :: z :: s) with (92%N :: 117%N :: w :: x :: y :: z :: s).
  cbn [read_chars]. change (N.eqb 92 34) with false. change (N.eqb 92 92) with true. change (N.eqb 117 117) with true. cbn match.
  now rewrite E.
Qed.
Lemma prepend_app {A B} (a b : list A) (o : option (list A * B)) : prepend (a ++ b) o = prepend a (prepend b o).
Proof. destruct o as [[l x]|]; cbn; [now rewrite app_assoc|reflexivity]. Qed.
Lemma read_encoded c s : (c < 1114112)%N -> read_chars (encode_char c ++ s) = prepend (utf16 c) (read_chars s).
Proof.
  intros U. unfold encode_char.
  destruct (N.eqb_spec c 92) as [->|N1]; [reflexivity|]. destruct (N.eqb_spec c 34) as [->|N2]; [reflexivity|].
  destruct (N.eqb_spec c 10) as [->|N3]; [reflexivity|]. destruct (N.eqb_spec c 13) as [->|N4]; [reflexivity|].
  destruct (N.eqb_spec c 9) as [->|N5]; [reflexivity|]. destruct (N.eqb_spec c 12) as [->|N6]; [reflexivity|].
  destruct (N.eqb_spec c 8) as [->|N7]; [reflexivity|].
  destruct ((32 <=? c)%N && (c <=? 126)%N) eqn:P.
  - apply andb_true_iff in P as [P1 P2]. apply N.leb_le in P1. cbn [app read_chars].
    rewrite (proj2 (N.eqb_neq c 34) N2), (proj2 (N.eqb_neq c 92) N1), (proj2 (N.ltb_ge c 32) P1). reflexivity.
  - destruct (N.ltb_spec c 65536) as [L|L].
    + rewrite <- app_assoc, read_u by exact L. unfold utf16. now rewrite (proj2 (N.ltb_lt c 65536) L).
    + unfold utf16. rewrite (proj2 (N.ltb_ge c 65536) L). cbv zeta. set (n := (c - 65536)%N).
      assert (Hn : (n < 1048576)%N) by (subst n; lia).
      change 1023%N with (N.ones 10). rewrite !N.land_ones, N.shiftr_div_pow2. change (2 ^ 10)%N with 1024%N.
      rewrite (N.mod_small (n / 1024)) by (apply N.div_lt_upper_bound; lia).
      assert (H1 : (n / 1024 < 1024)%N) by (apply N.div_lt_upper_bound; lia). assert (H2 : (n mod 1024 < 1024)%N) by (apply N.mod_lt; discriminate).
      rewrite (proj1 (lor_add _ H1)), (proj2 (lor_add _ H2)). rewrite <- !app_assoc, !read_u by lia.
      change [55296 + n / 1024; 56320 + n mod 1024]%N with ([55296 + n / 1024] ++ [56320 + n mod 1024])%N. now rewrite prepend_app.
Qed.
Lemma prepend_some {A B} (a : list A) l (b : B) : prepend a (Some (l, b)) = Some (a ++ l, b).
Proof. reflexivity. Qed.
Lemma read_chars_encoded s rest : unicode s -> read_chars (flat_map encode_char s ++ 34%N :: rest) = Some (flat_map utf16 s, rest).
Proof.
  induction 1 as [|c s U H IH]; [reflexivity|]. cbn [flat_map]. rewrite <- app_assoc, read_encoded, IH by exact U. reflexivity.
Qed.
Lemma read_string_encoded s rest : unicode s -> read_string (encode_string s ++ rest) = Some (flat_map utf16 s, rest).
Proof. intros U. unfold encode_string. cbn [app read_string]. change (N.eqb 34 34) with true. cbn match. rewrite <- app_assoc. now apply read_chars_encoded. Qed.

(** * Numbers *)
Lemma take_digits_app d r : forallb is_d d = true -> match r with c :: _ => is_d c = false | [] => True end -> take_digits (d ++ r) = (d, r).
Proof.
  intros H R. induction d as [|c d IH]; cbn [app take_digits].
  - destruct r as [|c r]; [reflexivity|]. cbn [take_digits]. unfold is_d, between in R. now rewrite R.
  - cbn [forallb] in H. apply andb_true_iff in H as [Hc H]. unfold is_d, between in Hc. rewrite Hc. now rewrite IH.
Qed.
Lemma str_of_N_no_zero n c more : str_of_N n = c :: more -> c = 48%N -> more = [].
Proof.
  unfold str_of_N. assert (E : Decimal.unorm (N.to_uint n) = N.to_uint n).
  { rewrite <- DecimalN.Unsigned.to_of. now rewrite DecimalN.Unsigned.of_to. }
  destruct (N.to_uint n) as [|u|u|u|u|u|u|u|u|u|u]; cbn [uint_str]; try discriminate; intros [= <- <-]; try discriminate.
  intros _. clear -E. unfold Decimal.unorm in E. cbn [Decimal.nzhead] in E.
  destruct (Decimal.nzhead u) eqn:Z; try discriminate. 
  - injection E as <-. reflexivity.
  - now apply DecimalFacts.nzhead_nonzero in Z.
Qed.
(** what may follow a value in the texts that are written *)
Definition follows (rest : str) : Prop := exists c t, rest = c :: t /\ (c = 44 \/ c = 93 \/ c = 125)%N.
Lemma digits_number_val s : digits_number s = digits_val s.
Proof. reflexivity. Qed.
Lemma read_natural_str n rest : follows rest -> read_natural (str_of_N n ++ rest) = Some (n, rest).
Proof.
  intros (c & t & -> & C). unfold read_natural. rewrite take_digits_app.
  2: apply str_of_N_digits.
  2: destruct C as [->|[->| ->]]; reflexivity.
  destruct (str_of_N n) as [|d more] eqn:E; [now apply uint_str_nonnil in E|].
  assert (Z : N.eqb d 48 && negb (match more with [] => true | _ => false end) = false).
  { destruct (N.eqb_spec d 48) as [->|]; [|reflexivity]. now rewrite (str_of_N_no_zero n _ _ E). }
  rewrite Z. rewrite <- E, digits_number_val, digits_val_str_of_N. destruct C as [->|[->| ->]]; reflexivity.
Qed.
Lemma digit_first n rest : exists d t, str_of_N n ++ rest = d :: t /\ is_d d = true.
Proof.
  assert (D := str_of_N_digits n). destruct (str_of_N n) as [|d more] eqn:E; [now apply uint_str_nonnil in E|].
  cbn [forallb] in D. apply andb_true_iff in D as [D _]. cbn [app]. eauto.
Qed.
Lemma read_number_str z rest : follows rest -> read_number (str_of_Z z ++ rest) = Some (JInt z, rest).
Proof.
  intros F. destruct z as [|p|p].
  - change (str_of_Z 0) with (str_of_N 0). destruct (digit_first 0 rest) as (d & t & E & D). unfold read_number. rewrite E.
    replace (N.eqb d 45) with false by (destruct (N.eqb_spec d 45) as [->|]; [discriminate|reflexivity]).
    rewrite <- E, read_natural_str by exact F. reflexivity.
  - change (str_of_Z (Z.pos p)) with (str_of_N (N.pos p)). destruct (digit_first (N.pos p) rest) as (d & t & E & D). unfold read_number. rewrite E.
    replace (N.eqb d 45) with false by (destruct (N.eqb_spec d 45) as [->|]; [discriminate|reflexivity]).
    rewrite <- E, read_natural_str by exact F. reflexivity.
  - change (str_of_Z (Z.neg p)) with (45%N :: str_of_N (N.pos p)). cbn [app read_number]. change (N.eqb 45 45) with true. cbn match. rewrite read_natural_str by exact F. reflexivity.
Qed.

(** * Values *)
Lemma read_value_string fuel s rest : unicode s -> read_value (S fuel) (encode_string s ++ rest) = Some (json_string s, rest).
Proof.
  intros U. unfold encode_string. cbn [app read_value skip_ws]. change (N.eqb 34 32 || N.eqb 34 9 || N.eqb 34 10 || N.eqb 34 13) with false.
  cbn match. change (N.eqb 34 34) with true. cbn match. rewrite <- app_assoc. cbn [app]. rewrite read_chars_encoded by exact U. reflexivity.
Qed.
(** elements that are written and read one by one *)
Lemma read_elements_join {A} (read : str -> option (json * str)) (dump : A -> str) (val : A -> json) sep l :
  (sep = $"," \/ sep = $", ") ->
  (forall x rest, In x l -> follows rest -> read (dump x ++ rest) = Some (val x, rest)) ->
  (forall x rest, In x l -> follows rest -> read (32%N :: dump x ++ rest) = Some (val x, rest)) ->
  forall n rest, l <> [] -> length l <= n -> read_elements read n (join_with sep (map dump l) ++ $"]" ++ rest) = Some (map val l, rest).
Proof.
  intros S R R'. assert (G : forall l', (forall x, In x l' -> In x l) -> forall n rest, l' <> [] -> length l' <= n ->
    read_elements read n (join_with sep (map dump l') ++ $"]" ++ rest) = Some (map val l', rest) /\
    read_elements read n (32%N :: join_with sep (map dump l') ++ $"]" ++ rest) = Some (map val l', rest)).
  2: { intros n rest NE L. now apply (G l). }
  induction l' as [|x l' IH]; intros Sub n rest NE L; [easy|]. destruct n as [|n]; [cbn in L; lia|].
  assert (Ix : In x l) by (apply Sub; now left). destruct l' as [|y l'].
  - cbn [map join_with]. assert (F : follows ($"]" ++ rest)) by (exists 93%N, rest; auto).
    split; cbn [read_elements]; rewrite ?R, ?R' by auto; reflexivity.
  - assert (J : join_with sep (map dump (x :: y :: l')) ++ $"]" ++ rest = dump x ++ sep ++ join_with sep (map dump (y :: l')) ++ $"]" ++ rest).
    { change (map dump (x :: y :: l')) with (dump x :: map dump (y :: l')). cbn [map]. cbn [join_with]. now rewrite <- !app_assoc. }
    rewrite J. destruct (IH ltac:(intros z Hz; apply Sub; now right) n rest ltac:(discriminate) ltac:(cbn in L |- *; lia)) as [I1 I2].
    set (tail := join_with sep (map dump (y :: l')) ++ $"]" ++ rest) in *.
    assert (F : follows (sep ++ tail)) by (exists 44%N, (tl sep ++ tail); destruct S as [->| ->]; auto).
    split; cbn [read_elements]; rewrite ?R, ?R' by auto; destruct S as [->| ->];
      [change ($"," ++ tail) with (44%N :: tail)|change ($", " ++ tail) with (44%N :: 32%N :: tail)|change ($"," ++ tail) with (44%N :: tail)|change ($", " ++ tail) with (44%N :: 32%N :: tail)];
      cbn [skip_ws]; change (N.eqb 44 32 || N.eqb 44 9 || N.eqb 44 10 || N.eqb 44 13) with false; cbn match;
      change (N.eqb 44 93) with false; change (N.eqb 44 44) with true; cbn match; rewrite ?I1, ?I2; reflexivity.
Qed.
Lemma read_value_blank fuel s : read_value fuel (32%N :: s) = read_value fuel s.
Proof. destruct fuel; reflexivity. Qed.
Lemma length_join {A} (dump : A -> str) sep l rest : (forall x, In x l -> 1 <= length (dump x)) ->
  length l <= length (join_with sep (map dump l) ++ rest).
Proof.
  intros H. rewrite app_length. induction l as [|x l IH]; [cbn; lia|]. destruct l as [|y l].
  - cbn [map join_with length]. specialize (H x (or_introl eq_refl)). lia.
  - cbn [map join_with length] in IH |- *. rewrite !app_length. specialize (IH ltac:(intros z Hz; apply H; now right)).
    specialize (H x (or_introl eq_refl)). cbn [length] in IH. lia.
Qed.
Lemma encode_string_length s : 1 <= length (encode_string s).
Proof. unfold encode_string. cbn. lia. Qed.
Lemma read_value_array {A} fuel (dump : A -> str) (val : A -> json) sep l rest :
  (sep = $"," \/ sep = $", ") ->
  (forall x, In x l -> exists c t, dump x = c :: t /\ (c = 34 \/ c = 123)%N) ->
  (forall x rest, In x l -> follows rest -> read_value fuel (dump x ++ rest) = Some (val x, rest)) ->
  read_value (S fuel) ($"[" ++ join_with sep (map dump l) ++ $"]" ++ rest) = Some (JArr (map val l), rest).
Proof.
  intros S D R. change ($"[" ++ join_with sep (map dump l) ++ $"]" ++ rest) with (91%N :: join_with sep (map dump l) ++ $"]" ++ rest).
  cbn [read_value]. change (skip_ws (91%N :: join_with sep (map dump l) ++ $"]" ++ rest)) with (91%N :: join_with sep (map dump l) ++ $"]" ++ rest).
  cbn match. change (N.eqb 91 34) with false. change (N.eqb 91 91) with true. cbn match.
  destruct l as [|x l]; [reflexivity|].
  assert (H : exists d r, skip_ws (join_with sep (map dump (x :: l)) ++ $"]" ++ rest) = d :: r /\ N.eqb d 93 = false).
  { destruct (D x (or_introl eq_refl)) as (c & t & E & C). cbn [map join_with]. destruct (map dump l); rewrite E; cbn [app skip_ws];
      (destruct C as [->| ->]; [change (N.eqb 34 32 || N.eqb 34 9 || N.eqb 34 10 || N.eqb 34 13) with false|
        change (N.eqb 123 32 || N.eqb 123 9 || N.eqb 123 10 || N.eqb 123 13) with false]; cbn match; eexists; eexists; split; reflexivity). }
  destruct H as (d & r & -> & ->).
  rewrite (read_elements_join (read_value fuel) dump val sep (x :: l)); [reflexivity|exact S|exact R| |discriminate|].
  - intros y rest' I F. now rewrite read_value_blank, R.
  - apply length_join. intros y I. destruct (D y I) as (c & t & -> & _). cbn. lia.
Qed.
Lemma read_value_dumped fuel v rest : unicode_value v -> follows rest -> read_value (S (S fuel)) (dumps_value v ++ rest) = Some (json_value v, rest).
Proof.
  intros U F. destruct v as [[s|z|[]|l]|]; cbn [dumps_value json_value].
  - now apply read_value_string.
  - assert (X : forall c t, str_of_Z z ++ rest = c :: t -> is_d c = true \/ c = 45%N).
    { intros c t E. destruct z as [|p|p].
      - change (str_of_Z 0) with (str_of_N 0) in E. destruct (digit_first 0 rest) as (d & t' & E' & D). rewrite E' in E. injection E as <- _. now left.
      - change (str_of_Z (Z.pos p)) with (str_of_N (N.pos p)) in E. destruct (digit_first (N.pos p) rest) as (d & t' & E' & D). rewrite E' in E. injection E as <- _. now left.
      - cbn [app] in E. injection E as <- _. now right. }
    assert (Y := read_number_str z rest F). destruct (str_of_Z z ++ rest) as [|c t] eqn:E; [discriminate|]. specialize (X c t eq_refl).
    assert (B : (c = 45 \/ 48 <= c <= 57)%N).
    { destruct X as [X| ->]; [right|now left]. unfold is_d, between in X. apply andb_true_iff in X as [X1 X2]. apply N.leb_le in X1. apply N.leb_le in X2. lia. }
    cbn [read_value skip_ws].
    rewrite (proj2 (N.eqb_neq c 32)), (proj2 (N.eqb_neq c 9)), (proj2 (N.eqb_neq c 10)), (proj2 (N.eqb_neq c 13)) by lia. cbn [orb].
    rewrite (proj2 (N.eqb_neq c 34)), (proj2 (N.eqb_neq c 91)), (proj2 (N.eqb_neq c 123)), (proj2 (N.eqb_neq c 110)), (proj2 (N.eqb_neq c 116)), (proj2 (N.eqb_neq c 102)) by lia.
    exact Y.
  - reflexivity.
  - reflexivity.
  - rewrite <- !app_assoc. apply (read_value_array (S fuel) encode_string json_string); [now right| |].
    + intros s I. unfold encode_string. eauto.
    + intros s rest' I F'. apply read_value_string. cbn [unicode_value] in U. rewrite Forall_forall in U. auto.
  - reflexivity.
Qed.
(** * Records *)
Lemma read_member_dumped fuel kv rest : unicode (fst kv) -> unicode_value (snd kv) -> follows rest -> forall pre, pre = [] \/ pre = [32%N] ->
  read_member (read_value (S (S fuel))) (pre ++ dumps_item kv ++ rest) = Some (flat_map utf16 (fst kv), json_value (snd kv), rest).
Proof.
  intros U1 U2 F pre Pre. unfold read_member, dumps_item.
  assert (E : skip_ws (pre ++ (encode_string (fst kv) ++ $": " ++ dumps_value (snd kv)) ++ rest) = encode_string (fst kv) ++ $": " ++ dumps_value (snd kv) ++ rest).
  { rewrite <- !app_assoc. destruct Pre as [->| ->]; reflexivity. }
  rewrite E, read_string_encoded by exact U1.
  change ($": " ++ dumps_value (snd kv) ++ rest) with (58%N :: 32%N :: dumps_value (snd kv) ++ rest).
  cbn [skip_ws]. change (N.eqb 58 32 || N.eqb 58 9 || N.eqb 58 10 || N.eqb 58 13) with false. cbn match. change (N.eqb 58 58) with true. cbn match.
  rewrite read_value_blank, read_value_dumped by auto. reflexivity.
Qed.
Lemma read_members_join fuel r : unicode_record r -> r <> [] -> forall n rest pre, pre = [] \/ pre = [32%N] -> length r <= n ->
  read_members (read_value (S (S fuel))) n (pre ++ join_with ($", ") (map dumps_item r) ++ $"}" ++ rest)
  = Some (map (fun kv => (flat_map utf16 (fst kv), json_value (snd kv))) r, rest).
Proof.
  induction r as [|kv r IH]; intros U NE n rest pre Pre L; [easy|]. destruct n as [|n]; [cbn in L; lia|].
  inversion U as [|? ? [U1 U2] Ur]; subst. cbn [read_members]. destruct r as [|kv' r].
  - cbn [map join_with]. rewrite read_member_dumped by (auto; exists 125%N, rest; auto). reflexivity.
  - assert (J : join_with ($", ") (map dumps_item (kv :: kv' :: r)) ++ $"}" ++ rest = dumps_item kv ++ 44%N :: [32%N] ++ join_with ($", ") (map dumps_item (kv' :: r)) ++ $"}" ++ rest).
    { cbn [map]. cbn [join_with]. now rewrite <- !app_assoc. }
    rewrite J. set (tail := [32%N] ++ join_with ($", ") (map dumps_item (kv' :: r)) ++ $"}" ++ rest).
    assert (F : follows (44%N :: tail)) by (exists 44%N, tail; auto). rewrite read_member_dumped by auto. unfold tail. clear F tail.
    cbn [skip_ws]. change (N.eqb 44 32 || N.eqb 44 9 || N.eqb 44 10 || N.eqb 44 13) with false. cbn match. change (N.eqb 44 125) with false. change (N.eqb 44 44) with true. cbn match.
    rewrite (IH Ur ltac:(discriminate) n rest [32%N]) by (auto; cbn in L |- *; lia). reflexivity.
Qed.
Lemma dumps_item_length kv : 1 <= length (dumps_item kv).
Proof. unfold dumps_item. rewrite app_length. assert (H := encode_string_length (fst kv)). lia. Qed.
Lemma read_record fuel r rest : unicode_record r -> read_value (S (S (S fuel))) (dumps r ++ rest) = Some (json_record r, rest).
Proof.
  intros U. unfold dumps, json_record. rewrite <- !app_assoc.
  change ($"{" ++ join_with ($", ") (map dumps_item r) ++ $"}" ++ rest) with (123%N :: join_with ($", ") (map dumps_item r) ++ $"}" ++ rest).
  remember (S (S fuel)) as k eqn:Ek. cbn [read_value].
  change (skip_ws (123%N :: join_with ($", ") (map dumps_item r) ++ $"}" ++ rest)) with (123%N :: join_with ($", ") (map dumps_item r) ++ $"}" ++ rest).
  cbn match. change (N.eqb 123 34) with false. change (N.eqb 123 91) with false. change (N.eqb 123 123) with true. cbn match.
  destruct r as [|kv r]; [reflexivity|].
  assert (H : exists t, skip_ws (join_with ($", ") (map dumps_item (kv :: r)) ++ $"}" ++ rest) = 34%N :: t).
  { cbn [map join_with]. destruct (map dumps_item r); unfold dumps_item at 1, encode_string at 1; cbn [app skip_ws];
      change (N.eqb 34 32 || N.eqb 34 9 || N.eqb 34 10 || N.eqb 34 13) with false; cbn match; eauto. }
  destruct H as (t & ->). change (N.eqb 34 125) with false. cbn match. subst k.
  rewrite (read_members_join fuel (kv :: r) U ltac:(discriminate) _ rest []); [reflexivity|now left|].
  apply length_join. intros x _. apply dumps_item_length.
Qed.
(** the text of an array of records *)
Lemma read_array records : Forall unicode_record records ->
  read_json ($"[" ++ join_with ($",") (map dumps records) ++ $"]" ++ [10%N]) = Some (JArr (map json_record records)).
Proof.
  intros U. unfold read_json. set (text := $"[" ++ join_with ($",") (map dumps records) ++ $"]" ++ [10%N]).
  assert (L : records = [] \/ exists k, length text = S (S (S (S k)))).
  { destruct records as [|r records]; [now left|right]. subst text. rewrite !app_length.
    assert (X : 2 <= length (join_with ($",") (map dumps (r :: records)))).
    { cbn [map join_with]. destruct (map dumps records); [|rewrite app_length]; unfold dumps; rewrite !app_length; cbn [length]; change (length ($"{")) with 1; change (length ($"}")) with 1; lia. }
    change (length ($"[")) with 1. change (length ($"]")) with 1. cbn [length]. exists (length (join_with ($",") (map dumps (r :: records))) - 1). lia. }
  destruct L as [->|[k ->]]; [reflexivity|]. subst text. rewrite (read_value_array _ dumps json_record); [reflexivity|now left| |].
  - intros x I. unfold dumps. eexists. eexists. split; [reflexivity|auto].
  - intros x rest I F. apply read_record. rewrite Forall_forall in U. auto.
Qed.
Lemma read_line r : unicode_record r -> read_json (dumps r ++ [10%N]) = Some (json_record r).
Proof.
  intros U. unfold read_json.
  assert (L : exists k, length (dumps r ++ [10%N]) = S (S (S k))).
  { unfold dumps. rewrite !app_length. change (length ($"{")) with 1. change (length ($"}")) with 1. cbn [length].
    exists (length (join_with ($", ") (map dumps_item r))). lia. }
  destruct L as [k ->]. rewrite read_record by exact U. reflexivity.
Qed.
